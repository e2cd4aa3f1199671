(** Concurrent conversions (lemmas). *)
From Coq Require Import ZArith QArith Bool String List Lia.
From Verif Require Import Base ActModel ActSpec ActObs ActCodec ActRep ActAccess ActBuild ActProf ActHold ActOps ActMulti ActDisk ThreadModel.
Import ListNotations.

Definition compressed (a : act) : Prop := a_fmt a = Some FCStr \/ a_fmt a = Some FCArr.

(** What a thread should return for [v]. *)
Definition wanted (int : bool) (v : vec) : pyval := if int then VInt (binary v) else VBits v.

(** A thread about to convert an activation standing for [v]. *)
Definition ready (w : world) (b : bool) (t : thread) (v : vec) : Prop :=
  t_int t = b /\ t_pc t = PStart /\ compressed (t_act t) /\ obtained w (t_act t) v.

Definition finished (t : thread) : Prop := exists r, t_pc t = PDone r.

Section Inv.
Context (fs : path -> option (list Z)) (b : bool).

Definition tinv (t : thread) (v : vec) : Prop :=
  t_int t = b /\ compressed (t_act t) /\ Rep0 fs (t_act t) v /\
  match t_pc t with
  | PStart => True
  | PSaved wc | PSet wc => wc = b
  | PGot wc r => wc = b /\ r = wanted b v
  | PDone r => r = wanted b v
  | PFail _ => False
  end.
Definition winv (w : world) : Prop := flag w = b /\ w_fs w = fs.

Lemma put_flag_id : forall w, put_flag (flag w) w = w.
Proof. intros [c]; destruct c; reflexivity. Qed.

Lemma step_thread_inv : forall t w v, tinv t v -> winv w ->
  exists t', step_thread t w = (t', w) /\ tinv t' v.
Proof.
  intros [i a p] w v (Hi & Hc & R & Hp) (Hf & Hfs). cbn [t_int t_act t_pc] in *. subst i.
  unfold step_thread; cbn [t_pc t_int t_act].
  destruct p as [|wc|wc|wc r|r|e].
  - eexists. split; [reflexivity|]. split; [reflexivity|]. split; [exact Hc|]. split; [exact R|]. exact Hf.
  - assert (E : put_flag b w = w) by (rewrite <- Hf; apply put_flag_id). rewrite E.
    eexists. split; [reflexivity|]. split; [reflexivity|]. split; [exact Hc|]. split; [exact R|]. exact Hp.
  - assert (W : wp (decompress None false)
      (fun r a' w' => w' = w /\ r = wanted b v /\ compressed a' /\ Rep0 fs a' v) a w).
    { apply (wp_decompress_gen v a w (a_data a)).
      - rewrite <- Hfs in R. exact (Rep0_compressed_value w v a R Hc).
      - right. auto.
      - apply R.
      - intros t c s. split; [reflexivity|]. unfold decompressed. fold (flag w). rewrite Hf.
        split; [reflexivity|]. split; [exact Hc|]. destruct R; constructor; asimpl; auto. }
    unfold wp in W. destruct (decompress None false a w) as [[[r|e] a'] w']; [|contradiction].
    destruct W as (-> & -> & C & R').
    eexists. split; [reflexivity|]. split; [reflexivity|]. split; [exact C|]. split; [exact R'|]. cbn. auto.
  - destruct Hp as [-> ->]. assert (E : put_flag b w = w) by (rewrite <- Hf; apply put_flag_id). rewrite E.
    eexists. split; [reflexivity|]. split; [reflexivity|]. split; [exact Hc|]. split; [exact R|]. reflexivity.
  - eexists. split; [reflexivity|]. split; [reflexivity|]. split; [exact Hc|]. split; [exact R|]. exact Hp.
  - contradiction.
Qed.

Lemma step_nth_inv : forall i ts vs w, Forall2 tinv ts vs -> winv w ->
  exists ts', step_nth i ts w = (ts', w) /\ Forall2 tinv ts' vs.
Proof.
  induction i as [|i IH]; intros ts vs w H W; destruct H as [|t v ts vs H Hs]; cbn [step_nth].
  - eexists; split; [reflexivity|constructor].
  - destruct (step_thread_inv t w v H W) as (t' & E & I). rewrite E. eexists; split; [reflexivity|]. constructor; auto.
  - eexists; split; [reflexivity|constructor].
  - destruct (IH ts vs w Hs W) as (ts' & E & I). rewrite E. eexists; split; [reflexivity|]. constructor; auto.
Qed.

Lemma run_inv : forall sched ts vs w, Forall2 tinv ts vs -> winv w ->
  exists ts', run_threads sched ts w = (ts', w) /\ Forall2 tinv ts' vs.
Proof.
  induction sched as [|i s IH]; intros ts vs w H W; cbn [run_threads]; [eauto|].
  destruct (step_nth_inv i ts vs w H W) as (ts' & E & I). rewrite E. apply IH; assumption.
Qed.
End Inv.

(** Progress: a thread that moved four times is finished. *)
Definition stage (t : thread) : nat :=
  match t_pc t with PStart => 0 | PSaved _ => 1 | PSet _ => 2 | PGot _ _ => 3 | PDone _ => 4 | PFail _ => 4 end.

Lemma stage_le : forall t, (stage t <= 4)%nat.
Proof. intros t. unfold stage; destruct (t_pc t); lia. Qed.

Lemma stage_step : forall t w, (Nat.min 4 (S (stage t)) <= stage (fst (step_thread t w)))%nat.
Proof.
  intros [i a p] w. unfold step_thread, stage. cbn [t_pc t_int t_act].
  destruct p; cbn; try lia. destruct (decompress None false a w) as [[[r|e] a'] w']; cbn; lia.
Qed.

Lemma stage_nth : forall i ts w j t, nth_error ts j = Some t ->
  exists t', nth_error (fst (step_nth i ts w)) j = Some t' /\
    ((if Nat.eqb i j then Nat.min 4 (S (stage t)) else stage t) <= stage t')%nat.
Proof.
  induction i as [|i IH]; intros [|t ts] w [|j] u E; cbn [nth_error] in E; try discriminate; cbn [step_nth].
  - injection E as <-. pose proof (stage_step t w) as S. destruct (step_thread t w) as [t' w']. exists t'. auto.
  - destruct (step_thread t w) as [t' w']. exists u. auto.
  - injection E as <-. destruct (step_nth i ts w) as [r w']. exists t. auto.
  - destruct (IH ts w j u E) as (t' & E' & S). destruct (step_nth i ts w) as [r w']. exists t'. auto.
Qed.

Lemma stage_run : forall sched ts w j t, nth_error ts j = Some t ->
  exists t', nth_error (fst (run_threads sched ts w)) j = Some t' /\
    (Nat.min 4 (stage t + count_occ Nat.eq_dec sched j) <= stage t')%nat.
Proof.
  induction sched as [|i s IH]; intros ts w j t H; cbn [run_threads].
  - exists t. split; [exact H|]. cbn [count_occ]. lia.
  - destruct (stage_nth i ts w j t H) as (t1 & E & S). destruct (step_nth i ts w) as [ts' w'].
    cbn [fst] in E. destruct (IH ts' w' j t1 E) as (t' & E' & St). exists t'. split; [exact E'|].
    pose proof (stage_le t). cbn [count_occ].
    destruct (Nat.eqb i j) eqn:Ei.
    + apply Nat.eqb_eq in Ei. destruct (Nat.eq_dec i j); [lia|contradiction].
    + apply Nat.eqb_neq in Ei. destruct (Nat.eq_dec i j); [contradiction|]. lia.
Qed.

Lemma Forall2_nth_error : forall A B (P : A -> B -> Prop) l m, Forall2 P l m -> forall j x,
  nth_error l j = Some x -> exists y, nth_error m j = Some y /\ P x y.
Proof.
  intros A B P l m F. induction F as [|x y l m H F IH]; intros [|j] z E; cbn in E; try discriminate.
  - injection E as <-. exists y. auto.
  - apply IH, E.
Qed.

Lemma threads_agree : forall w b ts vs sched ts' w',
  flag w = b -> Forall2 (ready w b) ts vs -> run_threads sched ts w = (ts', w') ->
  w' = w /\
  Forall2 (fun t v => forall r, t_pc t = PDone r -> r = wanted b v) ts' vs /\
  (forall j t, (4 <= count_occ Nat.eq_dec sched j)%nat -> nth_error ts' j = Some t -> finished t).
Proof.
  intros w b ts vs sched ts' w' F H E.
  assert (I : Forall2 (tinv (w_fs w) b) ts vs).
  { clear E. induction H as [|t v ts vs (A & B & C & D) Hs IH]; constructor; auto.
    split; [exact A|]. split; [exact C|]. split; [apply (obtained_rep _ _ _ D)|]. rewrite B. exact I. }
  destruct (run_inv (w_fs w) b sched ts vs w I (conj F eq_refl)) as (ts1 & E1 & I1).
  rewrite E in E1. injection E1 as <- ->. split; [reflexivity|]. split.
  - clear E H I. induction I1 as [|t v ts' vs H Hs IH]; constructor; auto.
    intros r Er. destruct H as (_ & _ & _ & Hp). rewrite Er in Hp. exact Hp.
  - intros j t Hj Ej.
    assert (L : length ts' = length ts) by (rewrite (Forall2_len _ _ _ _ _ I1), (Forall2_len _ _ _ _ _ I); reflexivity).
    assert (Hlt : (j < length ts)%nat) by (rewrite <- L; apply nth_error_Some; congruence).
    destruct (nth_error ts j) as [t0|] eqn:E0; [|apply nth_error_None in E0; lia].
    destruct (stage_run sched ts w j t0 E0) as (t' & E' & St). rewrite E in E'. cbn [fst] in E'.
    rewrite Ej in E'. injection E' as <-.
    assert (S4 : stage t = 4%nat) by (pose proof (stage_le t); lia).
    destruct (Forall2_nth_error _ _ _ _ _ I1 j t Ej) as (v & _ & (_ & _ & _ & Hp)).
    unfold stage in S4. unfold finished. destruct (t_pc t); try discriminate; [eauto|contradiction].
Qed.
