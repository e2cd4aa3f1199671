(** The profile after a measure (lemmas). *)
From Coq Require Import Decimal DecimalString DecimalZ ZArith QArith Bool String Ascii List Lia.
From Verif Require Import Base ActModel ActSpec ActObs ActCodec ActRep ActAccess ActBuild ActProf ActHold
  ActCountSpec ActTrack ActTrackBuild.
Import ListNotations.
Open Scope Z_scope.

(** * Measures *)
Section Measures.
Context (w : world) (v : vec).
Notation fs := (w_fs w).
Notation eff a a' := (eff w v a a').
Notation effp := (effp w v).
Hypothesis Hi32 : i32_ok (w_i32 w).
Hypothesis Hv : v <> [].
Hypothesis Hf : fits_compressed_array v.

Definition used (a : act) (f : fmt) (l : list op) : unit -> act -> world -> Prop :=
  fun _ a1 w1 => w1 = w /\ Rep0 fs a1 v /\ a_fmt a1 = Some f /\ eff a a1 l [].

Lemma tr_use_raw : forall a f, Rep fs a v -> a_fmt a = Some f -> wp use_raw (used a FRaw (to_raw f)) a w.
Proof.
  intros a f [R C] F. unfold use_raw. wstep.
  eapply wp_mono; [exact (wp_both _ _ _ _ _ _ (acc_raw w v a R) (tr_raw w v a f R F))|].
  intros x a1 w1 ((-> & -> & R1 & G) & K). wstep. wstep. wstep. split; [reflexivity|]. split.
  - destruct R1; constructor; asimpl; auto. reflexivity.
  - split; [reflexivity|]. effs K.
Qed.
Lemma tr_use_bits : forall a f, Rep fs a v -> a_fmt a = Some f -> wp use_bits (used a FBits (to_bits f)) a w.
Proof.
  intros a f [R C] F. unfold use_bits. wstep.
  eapply wp_mono; [exact (wp_both _ _ _ _ _ _ (acc_bits w v Hi32 a R) (tr_bits w v a f R F))|].
  intros x a1 w1 ((-> & -> & R1 & G) & K). wstep. wstep. wstep. split; [reflexivity|]. split.
  - destruct R1; constructor; asimpl; auto. reflexivity.
  - split; [reflexivity|]. effs K.
Qed.
Lemma tr_use_int : forall a f, Rep fs a v -> a_fmt a = Some f -> wp use_int (used a FInt (to_int f)) a w.
Proof.
  intros a f [R C] F. unfold use_int. wstep.
  eapply wp_mono; [exact (wp_both _ _ _ _ _ _ (acc_int w v Hi32 a Hv R) (tr_int w v a f Hv R F))|].
  intros x a1 w1 ((-> & -> & R1 & G) & K). wstep. wstep. wstep. split; [reflexivity|]. split.
  - destruct R1; constructor; asimpl; auto. split; auto.
  - split; [reflexivity|]. effs K.
Qed.
Lemma tr_use_compressed : forall a f, Rep fs a v -> a_fmt a = Some f ->
  wp use_compressed (used a FCStr (to_compressed f)) a w.
Proof.
  intros a f [R C] F. unfold use_compressed. wstep.
  eapply wp_mono; [exact (wp_both _ _ _ _ _ _ (acc_cstr w v a Hv R) (tr_cstr w v a f Hv R F))|].
  intros x a1 w1 ((-> & -> & R1 & G) & K). wstep. wstep. wstep. split; [reflexivity|]. split.
  - destruct R1; constructor; asimpl; auto. split; auto.
  - split; [reflexivity|]. effs K.
Qed.

Lemma tr_saved_conv : forall (use : M unit) (B : Type) (conv : M B) a f l l' ks,
  wp use (used a f l) a w ->
  (forall a1, Rep0 fs a1 v -> a_fmt a1 = Some f -> wp conv (fun _ a2 _ => eff a1 a2 l' ks) a1 w) ->
  wp (with_saved_data (use ;;; conv ;;; ret tt)) (fun _ a' _ => eff a a' (l ++ l') []) a w.
Proof.
  intros use B conv a f l l' ks U C. unfold with_saved_data. wstep. wstep. wstep. wstep. wstep. wstep.
  eapply wp_mono; [exact U|]. intros _ a1 w1 (-> & R1 & F1 & T).
  wstep. eapply wp_mono; [apply (C a1 R1 F1)|]. intros y a2 w2 K. cbv beta in K. chain T K.
  wstep. wstep. wstep. wstep. effs T.
Qed.

Lemma tr_write_then_unlink : forall a f, Rep fs a v -> a_fmt a = Some f -> fs (next_name w) = None ->
  wp write_then_unlink (fun _ a' _ => eff a a' (to_raw f ++ [OWrite]) [SPath; SFile]) a w.
Proof.
  intros a f R F N. unfold write_then_unlink, with_saved_data. wstep. wstep. wstep. wstep. wstep. wstep.
  eapply wp_mono; [exact (wp_both _ _ _ _ _ _ (acc_raw w v a (proj1 R)) (tr_raw w v a f (proj1 R) F))|].
  intros x a1 w1 ((-> & -> & R1 & G) & T).
  wstep. apply tr_write; [exact N|]. intros t c s K _. chain T K.
  eapply wp_unlink; [reflexivity|cbn; apply fs_put_same|].
  wstep. wstep. wstep. eapply eff_incl; [exact T|].
  intros k Hk. apply in_or_app. right. cbn in *. tauto.
Qed.

Lemma tr_write_read_unlink : forall a f, Rep fs a v -> a_fmt a = Some f -> fs (next_name w) = None ->
  wp (with_saved_data
           (xs <- raw;; write xs ;;;
            (d <- get a_data;;
             match d with VPath p => read_at p ;;; ret tt | _ => throw EType end) ;;;
            unlink_data)) (fun _ a' _ => eff a a' (to_raw f ++ [OWrite; ORead]) []) a w.
Proof.
  intros a f R F N. unfold with_saved_data. wstep. wstep. wstep. wstep. wstep. wstep.
  eapply wp_mono; [exact (wp_both _ _ _ _ _ _ (acc_raw w v a (proj1 R)) (tr_raw w v a f (proj1 R) F))|].
  intros x a1 w1 ((-> & -> & R1 & G) & T).
  wstep. apply tr_write; [exact N|]. intros t c s K _. chain T K.
  wstep. wstep. wstep. wstep.
  apply (tr_read_at w v (saved w v)); [reflexivity|reflexivity|cbn; apply fs_put_same
    |eexists; reflexivity|right; reflexivity|]. intros t' c' s' K. chain T K.
  wstep. eapply wp_unlink; [reflexivity|cbn; apply fs_put_same|].
  wstep. wstep. wstep. rewrite <- app_assoc in T. eapply eff_incl; [exact T|]. intros k [].
Qed.

Definition time_profile (a : act) (f : fmt) (o : op) : list op :=
  if negb (a_time a o) && FORCE_STAT (w_cfg w) then measured f o else [].
Lemma tr_time : forall o a f, Rep fs a v -> a_fmt a = Some f -> fs (next_name w) = None ->
  wp (time_ o) (fun y a' _ => y = a_time a' o /\ eff a a' (time_profile a f o) []) a w.
Proof.
  intros o a f R F N. unfold time_, force_stat, time_profile. wstep. wstep. wstep. wstep. wstep.
  destruct (negb (a_time a o) && FORCE_STAT (w_cfg w)).
  2: { wstep. wstep. split; [reflexivity|apply eff_refl]. }
  eapply wp_mono with (Q := fun _ a' _ => eff a a' (measured f o) []);
    [|intros x a' w' H; wstep; split; [reflexivity|exact H]].
  destruct o; cbn [measured].
  - eapply wp_mono; [apply tr_write_then_unlink; eassumption|]. intros x a' w' K. effs K.
  - apply tr_write_read_unlink; assumption.
  - eapply tr_saved_conv; [apply tr_use_compressed; assumption|]. intros a1 R1 F1. apply tr_raw; assumption.
  - eapply tr_saved_conv; [apply tr_use_raw; assumption|]. intros a1 R1 F1. apply tr_cstr; assumption.
  - eapply tr_saved_conv; [apply tr_use_raw; assumption|]. intros a1 R1 F1. apply tr_int; assumption.
  - eapply tr_saved_conv; [apply tr_use_bits; assumption|]. intros a1 R1 F1. apply tr_raw; assumption.
  - eapply tr_saved_conv; [apply tr_use_raw; assumption|]. intros a1 R1 F1. apply tr_bits; assumption.
  - eapply tr_saved_conv; [apply tr_use_compressed; assumption|]. intros a1 R1 F1. apply tr_bits; assumption.
  - eapply tr_saved_conv; [apply tr_use_compressed; assumption|]. intros a1 R1 F1. apply tr_int; assumption.
  - eapply tr_saved_conv; [apply tr_use_bits; assumption|]. intros a1 R1 F1. apply tr_cstr; assumption.
  - eapply tr_saved_conv; [apply tr_use_int; assumption|]. intros a1 R1 F1. apply tr_cstr; assumption.
  - eapply tr_saved_conv; [apply tr_use_int; assumption|]. intros a1 R1 F1. apply tr_raw; assumption.
  - eapply tr_saved_conv; [apply tr_use_bits; assumption|]. intros a1 R1 F1. apply tr_int; assumption.
  - eapply tr_saved_conv; [apply tr_use_int; assumption|]. intros a1 R1 F1. apply tr_bits; assumption.
Qed.

Definition size_profile (a : act) (f : fmt) (k : szk) : list op :=
  match a_size a k with
  | Some _ => []
  | None => if FORCE_STAT (w_cfg w) then sized_by f k else []
  end.
Lemma tr_sizeof : forall k a f, Rep fs a v -> a_fmt a = Some f -> fs (next_name w) = None ->
  wp (sizeof_ k) (fun y a' _ => y = a_size a' k /\ eff a a' (size_profile a f k) [] /\
    (FORCE_STAT (w_cfg w) = true -> formed a -> ~ unrecorded f k -> a_size a' k <> None)) a w.
Proof.
  intros k a f R F N. unfold sizeof_, force_stat, size_profile. wstep. wstep. wstep. wstep. wstep.
  destruct (a_size a k) eqn:E.
  { wstep. wstep. split; [reflexivity|]. split; [apply eff_refl|]. congruence. }
  destruct (FORCE_STAT (w_cfg w)).
  2: { wstep. wstep. split; [reflexivity|]. split; [apply eff_refl|]. discriminate. }
  assert (D : forall (m : M unit) ks, (formed a -> ~ unrecorded f k -> In k ks) ->
     wp m (fun _ a' _ => eff a a' (sized_by f k) ks) a w ->
     wp m (fun _ => wp (get (fun a => a_size a k)) (fun y a' _ => y = a_size a' k /\
        eff a a' (sized_by f k) [] /\
        (true = true -> formed a -> ~ unrecorded f k -> a_size a' k <> None))) a w).
  { intros m ks I H. eapply wp_mono; [exact H|]. intros y a1 w1 K. wstep.
    split; [reflexivity|]. split; [eapply eff_incl; [exact K|intros ? []]|].
    intros _ FO U. exact (e_set _ _ _ _ _ _ _ _ K _ (I FO U)). }
  assert (D' : forall B (m : M B) ks, (formed a -> ~ unrecorded f k -> In k ks) ->
     wp m (fun _ a' _ => eff a a' (sized_by f k) ks) a w ->
     wp (m ;;; ret tt) (fun _ => wp (get (fun a => a_size a k)) (fun y a' _ => y = a_size a' k /\
        eff a a' (sized_by f k) [] /\
        (true = true -> formed a -> ~ unrecorded f k -> a_size a' k <> None))) a w).
  { intros B m ks I H. apply (D _ ks I). wstep. eapply wp_mono; [exact H|]. intros x a1 w1 K. wstep. exact K. }
  assert (O : formed a -> own_size f <> k).
  { intros FO <-. apply (FO f F E). }
  destruct k; cbn [sized_by].
  - eapply D'; [|apply tr_carr; eauto; apply R]. intros FO U. destruct f; cbn; auto. destruct U; split; auto.
  - eapply D'; [|apply tr_cstr; eauto; apply R]. intros FO U. destruct f; cbn; auto. destruct U; split; auto.
  - eapply D'; [|apply tr_bits; eauto; apply R]. intros FO _. specialize (O FO). destruct f; cbn in *; auto.
  - eapply D'; [|apply tr_int; eauto; apply R]. intros FO _. specialize (O FO). destruct f; cbn in *; auto.
  - eapply D'; [|apply tr_raw; eauto; apply R]. intros FO _. specialize (O FO). destruct f; cbn in *; auto.
  - eapply D; [|apply tr_write_then_unlink; eauto]. intros _ _. cbn; auto.
  - eapply D; [|apply tr_write_then_unlink; eauto]. intros _ _. cbn; auto.
Qed.
End Measures.
