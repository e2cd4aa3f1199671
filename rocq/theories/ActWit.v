(** Concrete worlds and activations: witnesses against the properties that the
    code does not have, and instances for the examples of ActProps.v. *)
From Coq Require Import ZArith QArith Bool String Lia List.
From Verif Require Import Base ActModel ActSpec ActObs ActCodec ActRep ActAccess ActBuild ActProf ActHold
  ActOps ActMulti ActDisk ActMore ThreadModel ThreadLemmas.
Import ListNotations.
Open Scope Z_scope.

(** An empty disk, successive random numbers 0, 1, 2 ..., enough memory, and
    [sz] for the sizes. *)
Definition demo (c : cfg) (sz : pyval -> Z) : world :=
  mkWorld c (fun _ => None) 0 Z.of_nat (fun _ => 1000) (fun _ => false) sz (fun _ => 1) Some.

Definition even (_ : pyval) : Z := 1.
(** Sizes that make compressed forms small. *)
Definition small_text (v : pyval) : Z := match v with VStr _ => 1 | _ => 2 end.

Definition plain : cfg := mkCfg DStr false false false 1.
Definition comparing : cfg := mkCfg DStr false true false 1.
Definition arrays : cfg := mkCfg DArr false false false 1.
Definition keep_raw : cfg := mkCfg DStr false false true 1.

(** The activation made of [v], and the world after. *)
Definition make (v : vec) (to_file : bool) (w : world) : act * world :=
  match new (VArr (as_01 v)) true None to_file false w with
  | (Ok a, w') => (a, w')
  | (Err _, w') => (blank true, w')
  end.

Definition wide (w : world) : Prop := int32_cast (w_i32 w) /\ DTYPE (w_cfg w) = DStr.

Lemma demo_wide : forall c sz, DTYPE c = DStr -> wide (demo c sz).
Proof. intros c sz H. split; [intros z _; reflexivity|exact H]. Qed.

Lemma make_obtained : forall v tf w, wide w -> v <> [] -> size v < 100 ->
  w_fs w (next_name w) = None ->
  obtained (snd (make v tf w)) (fst (make v tf w)) v.
Proof.
  intros v tf w [I D] V S N.
  destruct (new_obtained w v (VArr (as_01 v)) None true tf) as (a & w' & E & O & _); auto.
  - left; lia.
  - constructor.
  - intros K; congruence.
  - unfold make. rewrite E. exact O.
Qed.

Lemma split3 : forall A B C (x : A * B * C) r, fst (fst x) = r -> x = (r, snd (fst x), snd x).
Proof. intros A B C [[a b] c] r <-. reflexivity. Qed.

Definition va : vec := [true; false; true; true].
Definition vb : vec := [true; true; false; true].

Lemma demo_in_memory : forall c sz v, DTYPE c = DStr -> v <> [] -> size v < 100 ->
  obtained (demo c sz) (fst (make v false (demo c sz))) v.
Proof.
  intros c sz v D V S.
  destruct (new_obtained (demo c sz) v (VArr (as_01 v)) None true false) as (a & w' & E & O & W & _).
  - intros z _; reflexivity.
  - exact V.
  - left; lia.
  - constructor.
  - intros K; cbn in K; congruence.
  - reflexivity.
  - unfold make. rewrite E. cbn [fst].
    assert (w' = demo c sz).
    { rewrite W. unfold writes. rewrite andb_false_r. reflexivity. }
    rewrite H in O. exact O.
Qed.

(** ** Operators on two integers *)
Lemma ints_refuted : exists w a1 a2 v1 v2,
  obtained w a1 v1 /\ obtained w a2 v2 /\ size v1 = size v2 /\ cfg_fits (w_cfg w) v1 /\
  forall o, fst (fst (fst (binop o a1 a2 w))) = Err EValue.
Proof.
  exists (demo comparing even), (fst (make va false (demo comparing even))),
    (fst (make vb false (demo comparing even))), va, vb.
  assert (O1 : obtained (demo comparing even) (fst (make va false (demo comparing even))) va)
    by (apply demo_in_memory; [reflexivity|discriminate|reflexivity]).
  assert (O2 : obtained (demo comparing even) (fst (make vb false (demo comparing even))) vb)
    by (apply demo_in_memory; [reflexivity|discriminate|reflexivity]).
  split; [exact O1|]. split; [exact O2|]. split; [reflexivity|]. split; [intros K; discriminate|].
  intros o. rewrite (binop_ints o _ _ _ va vb O1 O2); vm_compute; reflexivity.
Qed.

(** ** + is not | *)
Lemma add_refuted : exists w a1 a2 v1 v2 r,
  obtained w a1 v1 /\ obtained w a2 v2 /\ size v1 = size v2 /\
  add a1 a2 = Ok r /\ fst (fst (raw r w)) = Ok (as_01 v1) /\ v1 <> pointwise orb v1 v2.
Proof.
  exists (demo plain even), (fst (make va false (demo plain even))),
    (fst (make vb false (demo plain even))), va, vb, (fst (make va false (demo plain even))).
  split; [apply demo_in_memory; [reflexivity|discriminate|reflexivity]|].
  split; [apply demo_in_memory; [reflexivity|discriminate|reflexivity]|].
  split; [reflexivity|]. split; [vm_compute; reflexivity|]. split; [vm_compute; reflexivity|discriminate].
Qed.

(** ** xor of three *)
Definition parity (vs : list vec) : vec :=
  map (fun i => Nat.odd (count_occ Bool.bool_dec (map (fun v => nth i v false) vs) true))
      (seq 0 (List.length (hd [] vs))).

Lemma xor3_refuted : exists w acs vs r acs' w' xs,
  held w acs vs /\ same_size vs /\ ~ memory_exhausted w /\
  multi_logical_xor acs w = (Ok r, acs', w') /\ fst (fst (raw r w')) = Ok xs /\ xs <> as_01 (parity vs).
Proof.
  set (w := demo plain even). set (a := fst (make [true; false] false w)).
  assert (O : obtained w a [true; false])
    by (apply demo_in_memory; [reflexivity|discriminate|reflexivity]).
  assert (H : held w [a; a; a] [[true; false]; [true; false]; [true; false]])
    by (repeat constructor; exact O).
  destruct (multi_xor_ok w _ _ H) as (r & acs' & w' & E & R & _).
  - cbn; lia.
  - intros v [<-|[<-|[<-|[]]]]; reflexivity.
  - intros K; discriminate.
  - intros _ _. reflexivity.
  - unfold memory_exhausted. cbn. lia.
  - unfold memory_exhausted. cbn. lia.
  - destruct (obtained_raw _ _ _ R) as (r' & Er & _).
    exists w, [a; a; a], [[true; false]; [true; false]; [true; false]], r, acs', w', (as_01 (differ [[true; false]; [true; false]; [true; false]])).
    split; [exact H|]. split; [intros v [<-|[<-|[<-|[]]]]; reflexivity|].
    split; [unfold memory_exhausted; cbn; lia|].
    split; [exact E|]. split; [rewrite Er; reflexivity|]. vm_compute. discriminate.
Qed.

(** ** int32 *)
Definition int32_values (i32 : Z -> option Z) : Prop :=
  forall z y, i32 z = Some y -> - 2 ^ 31 <= y < 2 ^ 31.

Lemma cast_i32_in : forall i32 xs ys, cast_i32 i32 xs = Ok ys ->
  forall y, In y ys -> exists z, i32 z = Some y.
Proof.
  induction xs as [|x t IH]; intros ys E y K; cbn in E.
  - injection E as <-. destruct K.
  - destruct (i32 x) as [z|] eqn:X; [|discriminate].
    destruct (cast_i32 i32 t) as [l|e] eqn:T; [|discriminate]. cbn in E. injection E as <-.
    destruct K as [<-|K]; [eauto|eapply IH; eauto].
Qed.

Lemma int32_overflow : forall i32 v, int32_values i32 -> 2 ^ 31 <= size v < 2 ^ 32 ->
  compress i32 (VArr (as_01 v)) DArr <> Ok (VArr (run_lengths v)).
Proof.
  intros i32 v I [L U] E. unfold compress in E. rewrite last_not_bit_as_01 in E.
  destruct (as_01 v) as [|x t] eqn:A; [discriminate|]. rewrite <- A in E.
  assert (Hl : last (compress_list (as_01 v)) 0 = size v).
  { unfold compress_list. rewrite last_app_one, len_map, len_as_01. reflexivity. }
  assert (Hm : (last (compress_list (as_01 v)) 0 <? MAX_INT_32) = true) by (apply Z.ltb_lt; rewrite Hl; exact U).
  rewrite Hm in E.
  destruct (cast_i32 i32 _) as [ys|e] eqn:C; [|discriminate]. cbn in E. injection E as ->.
  assert (K : In (size v) (run_lengths v)) by (unfold run_lengths; right; apply in_or_app; right; left; reflexivity).
  destruct (cast_i32_in _ _ _ C _ K) as [z Z]. apply I in Z. lia.
Qed.

Lemma size_repeat : forall b n, size (repeat b n) = Z.of_nat n.
Proof. intros. unfold size. rewrite repeat_length. reflexivity. Qed.

Lemma int32_refuted : exists v : vec, v <> [] /\ forall i32, int32_values i32 ->
  compress i32 (VArr (as_01 v)) DArr <> Ok (VArr (run_lengths v)).
Proof.
  exists (repeat false (Z.to_nat (2 ^ 31))).
  assert (S : size (repeat false (Z.to_nat (2 ^ 31))) = 2 ^ 31).
  { rewrite size_repeat. apply Z2Nat.id. lia. }
  split.
  - intros E. rewrite E in S. clear E. change (size []) with 0 in S. lia.
  - intros i32 I. apply int32_overflow; [exact I|]. rewrite S. lia.
Qed.

(** ** Integers that need more bits than declared: accepted, and the
    activation is longer than declared (5 in 2 bits: three points). *)
Lemma overlong_refuted : exists w n k a w',
  2 ^ k <= n /\ new (VInt n) true (Some k) false false w = (Ok a, w') /\
  fst (fst (raw a w')) = Ok [1; 0; 1] /\ k = 2.
Proof.
  exists (demo plain even), 5, 2.
  exists (match new (VInt 5) true (Some 2) false false (demo plain even) with (Ok a, _) => a | _ => blank true end),
    (demo plain even).
  split; [lia|]. split; [vm_compute; reflexivity|]. split; vm_compute; reflexivity.
Qed.

(** With WILL_COMPARE and optimize off it is accepted too, and unreadable. *)
Lemma overlong_unreadable_refuted : exists w n k a w',
  2 ^ k <= n /\ new (VInt n) false (Some k) false false w = (Ok a, w') /\
  fst (fst (raw a w')) = Err EValue.
Proof.
  exists (demo comparing even), 5, 2.
  exists (match new (VInt 5) false (Some 2) false false (demo comparing even) with (Ok a, _) => a | _ => blank true end),
    (demo comparing even).
  split; [lia|]. split; vm_compute; reflexivity.
Qed.

(** ** File names *)
(** The first name is taken, the second is free: the constructor raises. *)
Definition one_taken : world :=
  set_fs (fs_put (PTmp 0) [1; 1] (fun _ => None)) (demo plain even).
Lemma retry_refuted : exists w v, v <> [] /\ w_fs w (PTmp (w_rnd w (S (w_clk w)))) = None /\
  w_fs w (next_name w) <> None /\
  fst (new (VArr (as_01 v)) true None true false w) = Err EValue.
Proof.
  exists one_taken, va. split; [discriminate|]. split; [reflexivity|]. split; [discriminate|].
  vm_compute. reflexivity.
Qed.

(** A lazily loaded activation overwrites the file of another one. *)
Definition two_files : world :=
  set_fs (fs_put (PTmp 0) [1; 1] (fs_put (PUser "mine") [0; 1] (fun _ => None))) (demo plain even).
Lemma lazy_overwrites_refuted : exists w p a w1 r a' w',
  new (VPath p) true None false true w = (Ok a, w1) /\ raw a w1 = (Ok r, a', w') /\
  ~ keeps_files w w'.
Proof.
  exists two_files, (PUser "mine").
  exists (match new (VPath (PUser "mine")) true None false true two_files with (Ok a, _) => a | _ => blank true end),
    two_files, [0; 1].
  exists (snd (fst (raw (match new (VPath (PUser "mine")) true None false true two_files with (Ok a, _) => a | _ => blank true end) two_files))),
    (snd (raw (match new (VPath (PUser "mine")) true None false true two_files with (Ok a, _) => a | _ => blank true end) two_files)).
  split; [vm_compute; reflexivity|]. split; [apply split3; vm_compute; reflexivity|].
  intros K. specialize (K (PTmp 0) [1; 1] eq_refl). vm_compute in K. discriminate.
Qed.

(** ** in *)
Lemma contains_refuted : exists w a1 a2 v1 v2,
  obtained w a1 v1 /\ obtained w a2 v2 /\ size v1 = size v2 /\
  fst (fst (fst (contains a1 a2 w))) = Ok true /\ ~ subset v2 v1.
Proof.
  exists (demo plain even), (fst (make [true; false] false (demo plain even))),
    (fst (make [true; true] false (demo plain even))), [true; false], [true; true].
  split; [apply demo_in_memory; [reflexivity|discriminate|reflexivity]|].
  split; [apply demo_in_memory; [reflexivity|discriminate|reflexivity]|].
  split; [reflexivity|]. split; [vm_compute; reflexivity|].
  intros S. specialize (S 1%nat eq_refl). discriminate.
Qed.

(** ** WILL_COMPARE after a failed conversion *)
Lemma flag_refuted : exists w a v a' w' a'' w'',
  obtained w a v /\ delete a w = (Ok tt, a', w') /\
  as_bitarray a' w' = (Err EType, a'', w'') /\
  WILL_COMPARE (w_cfg w') = true /\ WILL_COMPARE (w_cfg w'') = false.
Proof.
  set (w := demo comparing small_text). set (a := fst (make va false w)).
  exists w, a, va, (snd (fst (delete a w))), (snd (delete a w)).
  exists (snd (fst (as_bitarray (snd (fst (delete a w))) (snd (delete a w))))),
    (snd (as_bitarray (snd (fst (delete a w))) (snd (delete a w)))).
  split; [apply demo_in_memory; [reflexivity|discriminate|reflexivity]|].
  split; [apply split3; vm_compute; reflexivity|]. split; [apply split3; vm_compute; reflexivity|].
  split; vm_compute; reflexivity.
Qed.

(** ** Two threads, one asking for an integer, one for a bitarray *)
Lemma threads_refuted : exists w a v sched ts' w',
  obtained w a v /\ compressed a /\
  run_threads sched [mkThread true a PStart; mkThread false a PStart] w = (ts', w') /\
  map t_pc ts' = [PDone (VBits v); PDone (VBits v)] /\
  flag w = false /\ flag w' = true.
Proof.
  set (w := demo plain small_text). set (a := fst (make va false w)).
  set (s := [0; 0; 1; 1; 0; 1; 0; 1]%nat).
  exists w, a, va, s, (fst (run_threads s [mkThread true a PStart; mkThread false a PStart] w)),
    (snd (run_threads s [mkThread true a PStart; mkThread false a PStart] w)).
  split; [apply demo_in_memory; [reflexivity|discriminate|reflexivity]|].
  split; [left; vm_compute; reflexivity|].
  split; [apply surjective_pairing|]. split; [vm_compute; reflexivity|].
  split; vm_compute; reflexivity.
Qed.

(** ** Corner-case vectors *)
(** The empty vector is kept only with STORE_RAW, and then has no coverage. *)
Lemma empty_refuted : forall w opt l,
  (STORE_RAW (w_cfg w) = false -> exists e, fst (new (VArr (as_01 [])) opt l false false w) = Err e) /\
  (STORE_RAW (w_cfg w) = true -> exists a, new (VArr (as_01 [])) opt l false false w = (Ok a, w) /\
     fst (fst (coverage a w)) = Err EZeroDiv).
Proof.
  intros [[d f c s n] fs clk rnd mem oom sz fsz i32] opt l.
  destruct s; split; intros K; try discriminate K; clear K.
  - match goal with |- exists a, ?x = _ /\ _ => exists (match x with (Ok a, _) => a | _ => blank opt end) end.
    destruct d, c; split; vm_compute; reflexivity.
  - destruct d, c; vm_compute; eexists; reflexivity.
Qed.

(** A one-point vector with DTYPE = np.ndarray comes back with two points. *)
Lemma one_point_refuted : exists w v a w', size v = 1 /\
  new (VArr (as_01 v)) true None false false w = (Ok a, w') /\
  fst (fst (raw a w')) = Ok [1; 1] /\ as_01 v = [1].
Proof.
  exists (demo arrays (fun v => match v with VArr _ => 1 | _ => 2 end)), [true].
  exists (match new (VArr (as_01 [true])) true None false false (demo arrays (fun v => match v with VArr _ => 1 | _ => 2 end))
          with (Ok a, _) => a | _ => blank true end).
  eexists. split; [reflexivity|]. split; [vm_compute; reflexivity|]. split; vm_compute; reflexivity.
Qed.

(** ** Lazily loaded, before the first reading of raw *)
Lemma lazy_refuted : exists w p a w', w_fs w p = Some (as_01 [false; true]) /\
  new (VPath p) true None false true w = (Ok a, w') /\
  (forall x, In x [ALen; AEntropy; ARelEntropy; ACStr; ACArr] -> fst (fst (call x a w')) = Err EType) /\
  (* read first as a bitarray, more attributes are lost, and reading raw does not help *)
  (exists b a2 w2 r a3 w3, call ABits a w' = (Ok b, a2, w2) /\ call ARaw a2 w2 = (Ok r, a3, w3) /\
     forall x, In x [ALen; AEntropy; ARelEntropy; ACStr; ACArr; ANones; ACoverage] ->
       fst (fst (call x a3 w3)) = Err EType).
Proof.
  exists two_files, (PUser "mine").
  exists (match new (VPath (PUser "mine")) true None false true two_files with (Ok a, _) => a | _ => blank true end),
    two_files.
  split; [reflexivity|]. split; [vm_compute; reflexivity|]. split.
  - intros x [<-|[<-|[<-|[<-|[<-|[]]]]]]; vm_compute; reflexivity.
  - eexists _, _, _, _, _, _.
    split; [apply split3; vm_compute; reflexivity|]. split; [apply split3; vm_compute; reflexivity|].
    intros x [<-|[<-|[<-|[<-|[<-|[<-|[<-|[]]]]]]]]; vm_compute; reflexivity.
Qed.

(** ** Instances for the examples *)
(** [va] as a bitarray and [vb] compressed: the sizes have changed in between. *)
Lemma mixed_pair : exists w a1 a2, obtained w a1 va /\ obtained w a2 vb /\
  a_fmt a1 = Some FBits /\ a_fmt a2 = Some FCStr /\ both_files w a1 a2 = false /\ sub_safe w a1 a2.
Proof.
  exists (demo plain small_text), (fst (make va false (demo plain even))), (fst (make vb false (demo plain small_text))).
  split.
  - eapply ob_world with (w := demo plain even).
    + apply demo_in_memory; [reflexivity|discriminate|reflexivity].
    + intros p _. reflexivity.
    + intros z _. reflexivity.
  - split; [apply demo_in_memory; [reflexivity|discriminate|reflexivity]|].
    split; [vm_compute; reflexivity|]. split; [vm_compute; reflexivity|].
    split; [vm_compute; reflexivity|]. intros K. vm_compute in K. discriminate.
Qed.

Lemma three_held : exists w acs, held w acs [va; vb; va] /\ same_size [va; vb; va] /\
  ~ memory_exhausted w /\ ~ memory_exhausted (tick (tick w)) /\ every [va; vb; va] = [true; false; false; true] /\
  differ [va; vb; va] = [false; true; true; false].
Proof.
  set (w := demo plain even).
  exists w, [fst (make va false w); fst (make vb false w); fst (make va false w)].
  split.
  - repeat constructor; apply demo_in_memory; try reflexivity; discriminate.
  - split; [intros v [<-|[<-|[<-|[]]]]; reflexivity|].
    split; [unfold memory_exhausted; cbn; lia|]. split; [unfold memory_exhausted; cbn; lia|].
    split; reflexivity.
Qed.

Lemma on_disk : exists w a, obtained w a va /\ a_fmt a = Some FFile /\ w_fs w (next_name w) = None /\
  STORE_RAW (w_cfg w) = false.
Proof.
  exists (snd (make va true (demo plain even))), (fst (make va true (demo plain even))).
  split; [apply make_obtained; [apply demo_wide; reflexivity|discriminate|reflexivity|reflexivity]|].
  split; [vm_compute; reflexivity|]. split; vm_compute; reflexivity.
Qed.

Lemma two_readers : exists w t, flag w = false /\ Forall2 (ready w false) [t; t] [va; va].
Proof.
  set (w := demo plain small_text).
  exists w, (mkThread false (fst (make va false w)) PStart). split; [reflexivity|].
  assert (R : ready w false (mkThread false (fst (make va false w)) PStart) va).
  { split; [reflexivity|]. split; [reflexivity|]. split; [left; vm_compute; reflexivity|].
    apply demo_in_memory; [reflexivity|discriminate|reflexivity]. }
  constructor; [exact R|]. constructor; [exact R|]. constructor.
Qed.

(** Texts that are not a compressed vector. *)
Lemma bad_text w s opt l to_file :
  (forall z, s = join_ints [z] -> new (VStr s) opt l to_file false w = (Err EType, w)) /\
  (parse_ints (split_comma s) = None -> new (VStr s) opt l to_file false w = (Err ESyntax, w)).
Proof.
  split.
  - intros z ->. unfold new, init, init_with_any, init_with_str, init_convert, literal_eval.
    cbv [bind lift getw ret get upd]. rewrite parse_join by discriminate. reflexivity.
  - intros E. unfold new, init, init_with_any, init_with_str, init_convert, literal_eval.
    cbv [bind lift getw ret get upd]. rewrite E. reflexivity.
Qed.
