(** The remaining accessors of Activation on a represented vector (lemmas). *)
From Coq Require Import Decimal DecimalString DecimalZ ZArith QArith Bool String Ascii List Lia.
From Verif Require Import Base ActModel ActSpec ActCodec ActRep.
Import ListNotations.
Open Scope Z_scope.

Section Accessors.
Context (w : world) (v : vec).
Notation fs := (w_fs w).
Hypothesis Hi32 : i32_ok (w_i32 w).

Definition post {A} (x : A) (a : act) : A -> act -> world -> Prop :=
  fun y a' w' => y = x /\ w' = w /\ Rep0 fs a' v /\ grows a a'.

Lemma restore_cfg : forall b,
  set_cfg (mkCfg (DTYPE (w_cfg w)) (FORCE_STAT (w_cfg w)) (WILL_COMPARE (w_cfg w))
                 (STORE_RAW (w_cfg w)) (NCPUS (w_cfg w)))
     (set_cfg (mkCfg (DTYPE (w_cfg w)) (FORCE_STAT (w_cfg w)) b (STORE_RAW (w_cfg w)) (NCPUS (w_cfg w))) w) = w.
Proof. intros b. destruct w as [c]; destruct c; reflexivity. Qed.

Ltac fin_post R :=
  split; [reflexivity|]; split; [try reflexivity|]; split;
  [ repeat first [apply Rep0_set_nones | apply Rep0_reprof]; first [exact R | rep_same]
  | grows_same ].

Lemma acc_raw : forall a, Rep0 fs a v -> wp raw (post (as_01 v) a) a w.
Proof.
  intros a R. eapply wp_mono; [apply (read_raw w v a R)|].
  intros x a' w' (? & ? & ? & ? & _). repeat split; auto; apply H2 || apply H1.
Qed.

Lemma acc_ones : forall a, Rep0 fs a v -> wp ones (post (positions v) a) a w.
Proof.
  intros a R. unfold ones. wstep. eapply wp_mono; [apply (acc_raw a R)|].
  intros x a' w' (-> & -> & R' & G). wstep. rewrite where_one_positions.
  repeat split; auto; try apply R'; apply G.
Qed.

Lemma acc_len : forall a, Rep0 fs a v -> wp length_of (post (size v) a) a w.
Proof.
  intros a R. unfold length_of. wstep. wstep. rewrite (r_len _ _ _ R).
  eapply wp_lift; [reflexivity|]. repeat split; auto; try apply R; auto using grows_refl.
Qed.

Lemma acc_bits : forall a, Rep0 fs a v -> wp as_bitarray (post (VBits v) a) a w.
Proof.
  intros a R. unfold as_bitarray. wstep. wstep.
  pose proof (r_stored _ _ _ R) as S. pose proof (r_nones _ _ _ R) as RN.
  destruct (a_fmt a) as [[]|] eqn:F; cbn [stored] in S; try contradiction.
  - wstep. wstep. rewrite S. wstep. eapply wp_lift; [apply raw_to_bitarray_01|].
    wstep. wstep. wstep. wstep. wstep. fin_post R.
  - wstep. rewrite S. fin_post R.
  - destruct S as [Hv S]. wstep. wstep. rewrite S.
    destruct (bin_digits_binary v Hv) as (s & E & _ & _).
    wstep. eapply wp_lift; [exact E|]. wstep. wstep. rewrite (r_len _ _ _ R).
    rewrite (pad_bits_binary v s Hv E).
    wstep. wstep. wstep. wstep. wstep. fin_post R.
  - wstep. wstep. wstep. unfold set_will_compare at 1. wstep.
    wstep. eapply wp_decompress_gen with (d := a_data a).
    + eapply Rep0_compressed_value; eauto.
    + right; auto.
    + exact RN.
    + intros t c s. cbn [decompressed w_cfg set_cfg WILL_COMPARE].
      wstep. unfold set_will_compare. wstep. cbn [w_cfg set_cfg DTYPE FORCE_STAT STORE_RAW NCPUS].
      fold (set_cfg). wstep. split; [reflexivity|]. split; [apply restore_cfg|].
      split; [apply Rep0_set_nones, Rep0_reprof, R|grows_same].
  - wstep. wstep. wstep. unfold set_will_compare at 1. wstep.
    wstep. eapply wp_decompress_gen with (d := a_data a).
    + eapply Rep0_compressed_value; eauto.
    + right; auto.
    + exact RN.
    + intros t c s. cbn [decompressed w_cfg set_cfg WILL_COMPARE].
      wstep. unfold set_will_compare. wstep.
      wstep. split; [reflexivity|]. split; [apply restore_cfg|].
      split; [apply Rep0_set_nones, Rep0_reprof, R|grows_same].
  - wstep. apply (wp_read_self w v); [assumption..|]. intros t c s.
    wstep. eapply wp_lift; [apply raw_to_bitarray_01|].
    wstep. wstep. wstep. wstep. wstep. fin_post R.
Qed.

Lemma acc_int : forall a, v <> [] -> Rep0 fs a v -> wp as_integer (post (VInt (binary v)) a) a w.
Proof.
  intros a Hv R. unfold as_integer. wstep. wstep.
  pose proof (r_stored _ _ _ R) as S. pose proof (r_nones _ _ _ R) as RN.
  destruct (a_fmt a) as [[]|] eqn:F; cbn [stored] in S; try contradiction.
  - wstep. wstep. rewrite S. wstep. eapply wp_lift; [apply raw_to_integer_01; exact Hv|].
    wstep. wstep. wstep. wstep. wstep. fin_post R.
  - wstep. wstep. rewrite S. wstep. eapply wp_lift; [apply bits_to_int_spec; exact Hv|].
    wstep. wstep. wstep. wstep. wstep. fin_post R.
  - destruct S as [_ S]. wstep. rewrite S. fin_post R.
  - wstep. wstep. wstep. unfold set_will_compare at 1. wstep.
    wstep. eapply wp_decompress_gen with (d := a_data a).
    + eapply Rep0_compressed_value; eauto.
    + right; auto.
    + exact RN.
    + intros t c s. cbn [decompressed w_cfg set_cfg WILL_COMPARE].
      wstep. unfold set_will_compare. wstep.
      wstep. split; [reflexivity|]. split; [apply restore_cfg|].
      split; [apply Rep0_set_nones, Rep0_reprof, R|grows_same].
  - wstep. wstep. wstep. unfold set_will_compare at 1. wstep.
    wstep. eapply wp_decompress_gen with (d := a_data a).
    + eapply Rep0_compressed_value; eauto.
    + right; auto.
    + exact RN.
    + intros t c s. cbn [decompressed w_cfg set_cfg WILL_COMPARE].
      wstep. unfold set_will_compare. wstep.
      wstep. split; [reflexivity|]. split; [apply restore_cfg|].
      split; [apply Rep0_set_nones, Rep0_reprof, R|grows_same].
  - wstep. apply (wp_read_self w v); [assumption..|]. intros t c s.
    wstep. eapply wp_lift; [apply raw_to_integer_01; exact Hv|].
    wstep. wstep. wstep. wstep. wstep. fin_post R.
Qed.

(** ** divisions *)
Lemma pydiv_ok : forall x, v <> [] -> pydiv x (size v) = Ok (fraction x (size v)).
Proof.
  intros x H. unfold pydiv, fraction. pose proof (size_pos v H).
  destruct (size v =? 0) eqn:E; [apply Z.eqb_eq in E; lia|]. reflexivity.
Qed.
Lemma wp_div_len : forall x a (Q : QArith_base.Q -> act -> world -> Prop) w',
  v <> [] -> a_len a = Some (size v) -> Q (fraction x (size v)) a w' -> wp (div_len x) Q a w'.
Proof.
  intros x a Q w' Hv Hl HQ. unfold div_len. wstep. wstep. rewrite Hl.
  eapply wp_lift; [apply pydiv_ok; exact Hv|]. exact HQ.
Qed.

(** ** entropies *)
Lemma compressed_len_str : compressed_len DStr (VStr (run_text v)) = Ok (n_entropy v).
Proof.
  unfold compressed_len. rewrite literal_seq_run_text. cbn [rmap].
  rewrite len_run_lengths. reflexivity.
Qed.
Lemma compressed_len_arr : compressed_len DArr (VArr (run_lengths v)) = Ok (n_entropy v).
Proof. unfold compressed_len. rewrite len_run_lengths. reflexivity. Qed.

Lemma wp_note_entropy : forall e a (Q : unit -> act -> world -> Prop),
  v <> [] -> e = Ok (n_entropy v) -> Rep0 fs a v ->
  (forall a', Rep0 fs a' v -> grows a a' -> Q tt a' w) ->
  wp (note_entropy e) Q a w.
Proof.
  intros e a Q Hv He R HQ. unfold note_entropy.
  wstep. eapply wp_lift; [exact He|]. wstep. wstep. wstep. wstep.
  destruct (r_relent _ _ _ R) as [E|E]; rewrite E.
  - wstep. apply wp_div_len; [exact Hv|apply R|]. wstep.
    apply HQ; [rep_same|grows_same].
  - wstep. apply HQ; [rep_same|grows_same].
Qed.

Lemma acc_cstr : forall a, v <> [] -> Rep0 fs a v ->
  wp as_compressed_str (post (VStr (run_text v)) a) a w.
Proof.
  intros a Hv R. unfold as_compressed_str. wstep. wstep. wstep. wstep.
  pose proof (r_stored _ _ _ R) as S.
  assert (Tail : forall a', Rep0 fs a' v -> grows a a' ->
    wp (note_entropy (compressed_len DStr (VStr (run_text v))) ;;; ret (VStr (run_text v)))
       (post (VStr (run_text v)) a) a' w).
  { intros a' R' G. wstep. apply wp_note_entropy; [exact Hv|apply compressed_len_str|exact R'|].
    intros a'' R'' G'. wstep. split; [reflexivity|]. split; [reflexivity|].
    split; [exact R''|]. eapply grows_trans; eauto. }
  pose proof (acc_raw a R) as AR.
  destruct (a_fmt a) as [[]|] eqn:F; cbn [stored] in S; try contradiction.
  - wstep. wstep. wstep. rewrite S. wstep. eapply wp_lift; [apply compress_str; exact Hv|].
    wstep. wstep. wstep. wstep. wstep. apply Tail; [rep_same|grows_same].
  - wstep. wstep. eapply wp_mono; [exact AR|]. intros x a' w' (-> & -> & R' & G).
    wstep. eapply wp_lift; [apply compress_str; exact Hv|].
    wstep. wstep. wstep. wstep. wstep. wstep. wstep.
    apply Tail; [apply Rep0_reprof, Rep0_reprof, Rep0_reprof, R'|].
    eapply grows_trans; [exact G|grows_same].
  - wstep. wstep. eapply wp_mono; [exact AR|]. intros x a' w' (-> & -> & R' & G).
    wstep. eapply wp_lift; [apply compress_str; exact Hv|].
    wstep. wstep. wstep. wstep. wstep. wstep. wstep.
    apply Tail; [apply Rep0_reprof, Rep0_reprof, Rep0_reprof, R'|].
    eapply grows_trans; [exact G|grows_same].
  - destruct S as [_ S]. wstep. wstep. wstep. rewrite S. wstep. wstep. wstep.
    apply Tail; [rep_same|grows_same].
  - destruct S as [_ S]. wstep. wstep. wstep. rewrite S. rewrite join_run_lengths. wstep. wstep. wstep.
    apply Tail; [rep_same|grows_same].
  - wstep. wstep. apply (wp_read_self w v); [assumption..|]. intros t c s.
    wstep. eapply wp_lift; [apply compress_str; exact Hv|].
    wstep. wstep. wstep. apply Tail; [rep_same|grows_same].
Qed.

Lemma acc_carr : forall a, v <> [] -> fits_compressed_array v -> Rep0 fs a v ->
  wp as_compressed_array (post (VArr (run_lengths v)) a) a w.
Proof.
  intros a Hv Hf R. unfold as_compressed_array. wstep. wstep. wstep. wstep.
  pose proof (r_stored _ _ _ R) as S.
  assert (Tail : forall a', Rep0 fs a' v -> grows a a' ->
    wp (note_entropy (compressed_len DArr (VArr (run_lengths v))) ;;; ret (VArr (run_lengths v)))
       (post (VArr (run_lengths v)) a) a' w).
  { intros a' R' G. wstep. apply wp_note_entropy; [exact Hv|apply compressed_len_arr|exact R'|].
    intros a'' R'' G'. wstep. split; [reflexivity|]. split; [reflexivity|].
    split; [exact R''|]. eapply grows_trans; eauto. }
  pose proof (acc_raw a R) as AR.
  destruct (a_fmt a) as [[]|] eqn:F; cbn [stored] in S; try contradiction.
  - wstep. wstep. wstep. rewrite S. wstep. eapply wp_lift; [apply compress_arr; assumption|].
    wstep. wstep. wstep. wstep. wstep. apply Tail; [rep_same|grows_same].
  - wstep. wstep. eapply wp_mono; [exact AR|]. intros x a' w' (-> & -> & R' & G).
    wstep. eapply wp_lift; [apply compress_arr; assumption|].
    wstep. wstep. wstep. wstep. wstep. wstep. wstep.
    apply Tail; [apply Rep0_reprof, Rep0_reprof, Rep0_reprof, R'|].
    eapply grows_trans; [exact G|grows_same].
  - wstep. wstep. eapply wp_mono; [exact AR|]. intros x a' w' (-> & -> & R' & G).
    wstep. eapply wp_lift; [apply compress_arr; assumption|].
    wstep. wstep. wstep. wstep. wstep. wstep. wstep.
    apply Tail; [apply Rep0_reprof, Rep0_reprof, Rep0_reprof, R'|].
    eapply grows_trans; [exact G|grows_same].
  - destruct S as [_ S]. wstep. wstep. wstep. rewrite S. wstep.
    eapply wp_lift; [apply literal_seq_run_text|]. wstep. wstep. wstep.
    apply Tail; [rep_same|grows_same].
  - destruct S as [_ S]. wstep. wstep. wstep. rewrite S. wstep. wstep. wstep.
    apply Tail; [rep_same|grows_same].
  - wstep. wstep. apply (wp_read_self w v); [assumption..|]. intros t c s.
    wstep. eapply wp_lift; [apply compress_arr; assumption|].
    wstep. wstep. wstep. apply Tail; [rep_same|grows_same].
Qed.

(** ** statistics; these need the caches that the format cannot recompute *)
Definition posts {A} (x : A) (a : act) : A -> act -> world -> Prop :=
  fun y a' w' => y = x /\ w' = w /\ Rep fs a' v /\ grows a a'.

Lemma acc_nones : forall a, v <> [] -> Rep fs a v -> 
  wp nones (fun y a' w' => posts (n_ones v) a y a' w' /\ a_cov a' <> None) a w.
Proof.
  intros a Hv [R C]. unfold nones. wstep. wstep.
  assert (Q1 : forall a', Rep0 fs a' v -> grows a a' -> a_nones a' = Some (n_ones v) ->
    wp (c <- get a_cov;;
        (match c with
         | Some _ => ret tt
         | None => n <- get a_nones;;
                   match n with
                   | None => throw EType
                   | Some k => q <- div_len k;; upd (set_cov (Some q))
                   end
         end) ;;; n <- get a_nones;; lift (opt_res EType n))
       (fun y a' w' => posts (n_ones v) a y a' w' /\ a_cov a' <> None) a' w).
  { intros a' R' G N. wstep. wstep.
    assert (C' : caches a') by (eapply caches_grows; eauto).
    destruct (r_cov _ _ _ R') as [E|E]; rewrite E.
    - wstep. wstep. wstep. rewrite N. wstep. apply wp_div_len; [exact Hv|apply R'|].
      wstep. wstep. wstep. rewrite N. eapply wp_lift; [reflexivity|].
      split; [|asimpl; discriminate].
      split; [reflexivity|]. split; [reflexivity|]. split; [split|].
      + rep_same.
      + unfold caches in *; asimpl; exact C'.
      + eapply grows_trans; [exact G|grows_same].
    - wstep. wstep. wstep. wstep. rewrite N. eapply wp_lift; [reflexivity|].
      split; [|congruence].
      split; [reflexivity|]. split; [reflexivity|]. split; [split|]; auto. }
  wstep.
  destruct (r_nones _ _ _ R) as [N|N]; rewrite N.
  - wstep. eapply wp_mono; [apply (read_raw w v a R)|].
    intros x a' w' (-> & -> & R' & G & Hn). wstep. apply Q1; auto.
    destruct (r_nones _ _ _ R') as [N'|N']; [|exact N'].
    exfalso. apply Hn; [| |exact N']; intros F; unfold caches in C; rewrite F in C; auto.
  - wstep. apply Q1; auto using grows_refl.
Qed.

Lemma acc_cov : forall a, v <> [] -> Rep fs a v ->
  wp coverage (posts (fraction (n_ones v) (size v)) a) a w.
Proof.
  intros a Hv R. unfold coverage. wstep. wstep. wstep.
  destruct (r_cov _ _ _ (proj1 R)) as [E|E]; rewrite E.
  - wstep. eapply wp_mono; [apply acc_nones; assumption|].
    intros x a' w' ((-> & -> & R' & G) & N). wstep. wstep. wstep.
    destruct (r_cov _ _ _ (proj1 R')) as [E'|E']; [congruence|]. rewrite E'.
    eapply wp_lift; [reflexivity|]. split; auto.
  - wstep. wstep. wstep. rewrite E. eapply wp_lift; [reflexivity|].
    repeat split; auto; try apply R; auto using grows_refl.
Qed.

Lemma acc_entropy : forall a, v <> [] -> Rep fs a v ->
  wp entropy (fun y a' w' => posts (n_entropy v) a y a' w' /\ a_relent a' <> None) a w.
Proof.
  intros a Hv [R C]. unfold entropy. wstep. wstep. wstep.
  assert (T : forall a', Rep0 fs a' v -> grows a a' -> a_entropy a' = Some (n_entropy v) ->
    wp (r <- get a_relent;;
        e <- get a_entropy;;
        (match r with
         | Some _ => ret tt
         | None => n <- lift (opt_res EType e);; q <- div_len n;; upd (set_relent (Some q))
         end) ;;; lift (opt_res EType e))
       (fun y a' w' => posts (n_entropy v) a y a' w' /\ a_relent a' <> None) a' w).
  { intros a' R' G N. wstep. wstep. wstep. wstep. rewrite N.
    assert (C' : caches a') by (eapply caches_grows; eauto).
    destruct (r_relent _ _ _ R') as [E|E]; rewrite E.
    - wstep. wstep. eapply wp_lift; [reflexivity|]. wstep. apply wp_div_len; [exact Hv|apply R'|].
      wstep. eapply wp_lift; [reflexivity|]. split; [|asimpl; discriminate].
      split; [reflexivity|]. split; [reflexivity|]. split; [split|].
      + rep_same.
      + unfold caches in *; asimpl; exact C'.
      + eapply grows_trans; [exact G|grows_same].
    - wstep. wstep. eapply wp_lift; [reflexivity|]. split; [|congruence].
      split; [reflexivity|]. split; [reflexivity|]. split; [split|]; auto. }
  destruct (r_ent _ _ _ R) as [N|N]; rewrite N.
  - wstep. wstep. wstep. wstep.
    pose proof (r_stored _ _ _ R) as S. pose proof (r_nones _ _ _ R) as RN.
    unfold caches in C. wstep.
    destruct (a_fmt a) as [[]|] eqn:F; cbn [stored] in S; try contradiction.
    + wstep. wstep. rewrite S. wstep. eapply wp_lift; [apply compress_str; exact Hv|].
      wstep. wstep. wstep. wstep. eapply wp_lift; [apply compressed_len_str|].
      wstep. apply T; [rep_same|grows_same|reflexivity].
    + wstep. wstep. rewrite S. wstep. apply wp_bitarray_to_raw_some. intros t c s.
      wstep. eapply wp_lift; [apply compress_str; exact Hv|].
      wstep. wstep. wstep. wstep. eapply wp_lift; [apply compressed_len_str|].
      wstep. apply T; [rep_same|grows_same|reflexivity].
    + destruct S as [_ S]. wstep. wstep. rewrite S. wstep.
      apply wp_integer_to_raw_some; [exact Hv|apply R|exact RN|]. intros t c s.
      wstep. eapply wp_lift; [apply compress_str; exact Hv|].
      wstep. wstep. wstep. wstep. eapply wp_lift; [apply compressed_len_str|].
      wstep. apply T; [rep_same|grows_same|reflexivity].
    + wstep. apply (wp_read_self w v); [assumption..|]. intros t c s.
      wstep. eapply wp_lift; [apply compress_str; exact Hv|].
      wstep. wstep. wstep. wstep. eapply wp_lift; [apply compressed_len_str|].
      wstep. apply T; [rep_same|grows_same|reflexivity].
  - wstep. apply T; auto using grows_refl.
Qed.

Lemma acc_relent : forall a, v <> [] -> Rep fs a v ->
  wp rel_entropy (posts (fraction (n_entropy v) (size v)) a) a w.
Proof.
  intros a Hv R. unfold rel_entropy. wstep. wstep. wstep.
  destruct (r_relent _ _ _ (proj1 R)) as [E|E]; rewrite E.
  - wstep. eapply wp_mono; [apply acc_entropy; assumption|].
    intros x a' w' ((-> & -> & R' & G) & N). wstep. wstep. wstep.
    destruct (r_relent _ _ _ (proj1 R')) as [E'|E']; [congruence|]. rewrite E'.
    eapply wp_lift; [reflexivity|]. split; auto.
  - wstep. wstep. wstep. rewrite E. eapply wp_lift; [reflexivity|].
    repeat split; auto; try apply R; auto using grows_refl.
Qed.
End Accessors.
