(** Concrete activations with a profile: witnesses against what the code does
    not do, and instances for the examples of ActProfProps.v. *)
From Coq Require Import ZArith QArith Bool String Lia List.
From Verif Require Import Base ActModel ActSpec ActObs ActCodec ActRep ActAccess ActBuild ActProf ActHold
  ActOps ActMulti ActDisk ActMore ActWit ActCountSpec ActTrack ActTrackBuild ActTrackMore ActTrackHold.
Import ListNotations.
Open Scope Z_scope.

Definition forcing : cfg := mkCfg DStr true false false 1.
(** Sizes that tell the forms apart. *)
Definition telling (v : pyval) : Z :=
  match v with
  | VNone => 16 | VArr _ => 40 | VBits _ => 30 | VInt _ => 28 | VStr _ => 70 | VPath _ => 100
  end.

Definition bench : world := demo forcing telling.
Definition bits_kept : act := fst (make va false bench).
Definition file_kept : act := fst (make va true bench).
Definition file_bench : world := snd (make va true bench).

Lemma bits_held : obtained bench bits_kept va.
Proof. apply demo_in_memory; [reflexivity|discriminate|reflexivity]. Qed.
Lemma file_held : obtained file_bench file_kept va.
Proof. apply make_obtained; [apply demo_wide; reflexivity|discriminate|reflexivity|reflexivity]. Qed.

(** FORCE_STAT does not make the size of the compressed form of an activation
    that is stored in a file. *)
Lemma forced_size_refuted : exists w a v k,
  obtained w a v /\ FORCE_STAT (w_cfg w) = true /\ w_fs w (next_name w) = None /\
  fst (fst (sizeof_ k a w)) = Ok None.
Proof.
  exists file_bench, file_kept, va, SCStr.
  split; [exact file_held|]. split; [vm_compute; reflexivity|]. split; [vm_compute; reflexivity|].
  vm_compute. reflexivity.
Qed.
(** In fact never: no method on the way records it. *)
Definition leaves (k : szk) {A} (m : M A) : Prop := forall a w, a_size (snd (fst (m a w))) k = a_size a k.
Lemma leaves_ret : forall k A (x : A), leaves k (ret x).
Proof. intros k A x a w. reflexivity. Qed.
Lemma leaves_throw : forall k A e, leaves k (throw e : M A).
Proof. intros k A e a w. reflexivity. Qed.
Lemma leaves_lift : forall k A (r : res A), leaves k (lift r).
Proof. intros k A [x|e] a w; reflexivity. Qed.
Lemma leaves_get : forall k A (f : act -> A), leaves k (get f).
Proof. intros k A f a w. reflexivity. Qed.
Lemma leaves_getw : forall k A (f : world -> A), leaves k (getw f).
Proof. intros k A f a w. reflexivity. Qed.
Lemma leaves_upd : forall k f, (forall a, a_size (f a) k = a_size a k) -> leaves k (upd f).
Proof. intros k f H a w. apply H. Qed.
Lemma leaves_bind : forall k A B (m : M A) (f : A -> M B), leaves k m -> (forall x, leaves k (f x)) ->
  leaves k (bind m f).
Proof.
  intros k A B m f H G a w. unfold bind. specialize (H a w).
  destruct (m a w) as [[[x|e] a1] w1]; cbn [fst snd] in *; [|exact H].
  rewrite <- H. apply G.
Qed.
Ltac leave := repeat first
  [ apply leaves_ret | apply leaves_throw | apply leaves_lift | apply leaves_get | apply leaves_getw
  | apply leaves_bind; [|intros ?]
  | apply leaves_upd; intros ?; reflexivity
  | match goal with |- leaves _ (match ?x with _ => _ end) => destruct x end ].
Lemma leaves_read : forall k, k = SCStr \/ k = SCArr -> leaves k read_self.
Proof.
  intros k [-> | ->]; unfold read_self, read_at, rec_size_if_unset, rec_size, stamp_bump; leave.
Qed.
Lemma leaves_note : forall k e, leaves k (note_entropy e).
Proof. intros k e. unfold note_entropy, div_len. leave. Qed.
Lemma file_compressed : forall a w k, a_fmt a = Some FFile -> k = SCStr \/ k = SCArr ->
  a_size (snd (fst (as_compressed_str a w))) k = a_size a k /\
  a_size (snd (fst (as_compressed_array a w))) k = a_size a k.
Proof.
  intros a w k F K. split.
  - unfold as_compressed_str. unfold bind at 1, getw at 1. unfold bind at 1, get at 1. rewrite F.
    apply (leaves_bind k); [apply leaves_bind; [apply leaves_read, K|]|].
    + intros xs. unfold stamp_bump. leave.
    + intros c. apply leaves_bind; [apply leaves_note|]. intros _. apply leaves_ret.
  - unfold as_compressed_array. unfold bind at 1, getw at 1. unfold bind at 1, get at 1. rewrite F.
    apply (leaves_bind k); [apply leaves_bind; [apply leaves_read, K|]|].
    + intros xs. unfold stamp_bump. leave.
    + intros c. apply leaves_bind; [apply leaves_note|]. intros _. apply leaves_ret.
Qed.
Lemma file_unsized : forall w a v k, obtained w a v -> a_fmt a = Some FFile -> k = SCStr \/ k = SCArr ->
  w_fs w (next_name w) = None -> a_size a k = None ->
  exists a' w', sizeof_ k a w = (Ok None, a', w').
Proof.
  intros w a v k O F K N Z. destruct (sizeof_ k a w) as [[r a'] w'] eqn:E.
  destruct (held_size _ _ _ _ _ _ _ _ O F N E) as (-> & _).
  assert (A : a_size a' k = None).
  { pose proof (file_compressed a w k F K) as (C1 & C2).
    unfold sizeof_, force_stat, bind, get, getw in E. rewrite Z in E.
    destruct (FORCE_STAT (w_cfg w)); [|destruct K as [-> | ->]; cbn in E; injection E as _ <- _; exact Z].
    destruct K as [-> | ->].
    - destruct (as_compressed_str a w) as [[[x|e] a1] w1]; cbn in E; [|discriminate E].
      injection E as _ <- _. cbn in C1. rewrite C1. exact Z.
    - destruct (as_compressed_array a w) as [[[x|e] a1] w1]; cbn in E; [|discriminate E].
      injection E as _ <- _. cbn in C2. rewrite C2. exact Z. }
  rewrite A. eauto.
Qed.

(** Activation(path) without lazy loading, kept in memory: the size of the path
    is that of None. *)
Definition filed : world := set_fs (fs_put (PUser "mine") (as_01 va) (fun _ => None)) bench.
Definition read_in : act :=
  match new (VPath (PUser "mine")) true None false false filed with (Ok a, _) => a | _ => blank true end.
Lemma path_size_refuted : exists w v p a,
  obtained w a v /\ new (VPath p) true None false false w = (Ok a, w) /\ w_fs w p = Some (as_01 v) /\
  ~ right_sizes w v a.
Proof.
  exists filed, va, (PUser "mine"), read_in.
  assert (E : new (VPath (PUser "mine")) true None false false filed = (Ok read_in, filed)) by (vm_compute; reflexivity).
  split; [|split; [exact E|split; [vm_compute; reflexivity|]]].
  - apply (ob_new filed va (VPath (PUser "mine")) None true false read_in filed).
    + intros z _. reflexivity.
    + intros V. discriminate V.
    + left. vm_compute. reflexivity.
    + apply den_file. vm_compute. reflexivity.
    + intros K. discriminate K.
    + intros K. vm_compute in K. discriminate K.
    + exact E.
  - intros R. destruct (R SPath 16) as (q & Q); [vm_compute; reflexivity|discriminate Q].
Qed.

(** ... and with lazy loading. *)
Definition lazy_in : act :=
  match new (VPath (PUser "mine")) true None false true filed with (Ok a, _) => a | _ => blank true end.
