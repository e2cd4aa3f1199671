(** Further lemmas about activations: round trip, correlation, copies,
    integers that do not fit, names already taken. *)
From Coq Require Import ZArith QArith Bool String Lia Lqa List.
From Verif Require Import Base ActModel ActSpec ActObs ActCodec ActRep ActAccess ActBuild ActProf ActHold
  ActOps ActDisk.
Import ListNotations.
Open Scope Z_scope.

(** ** Round trip *)
Lemma round_trip : forall w v opt l to_file,
  int32_cast (w_i32 w) -> v <> [] -> cfg_fits (w_cfg w) v ->
  (to_file = true -> STORE_RAW (w_cfg w) = false -> w_fs w (next_name w) = None) ->
  exists a w1, new (VArr (as_01 v)) opt l to_file false w = (Ok a, w1) /\
    fst (fst (raw a w1)) = Ok (as_01 v) /\
    length_of a w1 = (Ok (size v), a, w1).
Proof.
  intros w v opt l tf I V F N.
  destruct (new_spec w v I V (VArr (as_01 v)) l opt tf) as (a & w1 & E & B); auto.
  - constructor.
  - unfold writes. rewrite lasts_as_01. cbn [andb]. intros W. apply andb_true_iff in W as [-> W].
    apply N; auto. apply negb_true_iff; exact W.
  - exists a, w1. split; [exact E|]. destruct B as (W & R & _).
    split.
    + pose proof (acc_raw w1 v a) as H. unfold wp in H. specialize (H (proj1 R)).
      destruct (raw a w1) as [[[x|e] a2] w2]; [|contradiction]. cbn. destruct H as (-> & _). reflexivity.
    + apply len_hit. apply R.
Qed.

(** ** Agreements *)
Lemma agreements_cons : forall b c t u,
  agreements (b :: t) (c :: u) = (if Bool.eqb b c then 1 else 0) + agreements t u.
Proof. intros. unfold agreements, pointwise. cbn [combine map fst snd]. rewrite n_ones_cons. reflexivity. Qed.

Lemma agreements_sym : forall v1 v2, agreements v1 v2 = agreements v2 v1.
Proof.
  induction v1 as [|b t IH]; intros [|c u]; try reflexivity.
  rewrite !agreements_cons, IH. destruct b, c; reflexivity.
Qed.

Lemma agreements_range : forall v1 v2, 0 <= agreements v1 v2 <= size v1.
Proof.
  induction v1 as [|b t IH]; intros [|c u].
  - cbn; lia.
  - cbn; lia.
  - unfold agreements, n_ones. cbn. pose proof (size_nonneg (b :: t)). lia.
  - rewrite agreements_cons, size_cons. specialize (IH u). destruct (Bool.eqb b c); lia.
Qed.

Lemma agreements_all : forall v1 v2, size v1 = size v2 -> (agreements v1 v2 = size v1 <-> v1 = v2).
Proof.
  induction v1 as [|b t IH]; intros [|c u] H; try (cbn in H; lia).
  - split; reflexivity.
  - rewrite !size_cons in H. rewrite agreements_cons, size_cons.
    pose proof (agreements_range t u) as R.
    assert (E : size t = size u) by lia. specialize (IH u E).
    destruct (Bool.eqb b c) eqn:B.
    + apply Bool.eqb_prop in B. subst c. split; intros K.
      * f_equal. apply IH. lia.
      * injection K as K. apply IH in K. lia.
    + split; intros K; [lia|]. injection K as -> _. rewrite Bool.eqb_reflx in B. discriminate.
Qed.

Lemma fraction_range : forall k n, 0 < n -> 0 <= k <= n -> (0 <= fraction k n <= 1)%Q.
Proof.
  intros k n Hn [H1 H2]. unfold fraction.
  assert (P : (0 < inject_Z n)%Q) by (change 0%Q with (inject_Z 0); rewrite <- Zlt_Qlt; exact Hn).
  split.
  - apply Qle_shift_div_l; [exact P|]. rewrite Qmult_0_l. change 0%Q with (inject_Z 0). rewrite <- Zle_Qle. exact H1.
  - apply Qle_shift_div_r; [exact P|]. rewrite Qmult_1_l. rewrite <- Zle_Qle. exact H2.
Qed.

Lemma fraction_one : forall k n, 0 < n -> (fraction k n == 1 <-> k = n)%Q.
Proof.
  intros k n Hn. unfold fraction.
  assert (P : ~ (inject_Z n == 0)%Q).
  { intros E. apply (inject_Z_injective n 0) in E. lia. }
  split; intros H.
  - apply inject_Z_injective. rewrite <- (Qmult_1_l (inject_Z n)), <- H. field. exact P.
  - subst. field. exact P.
Qed.

Lemma correlation_facts : forall v1 v2, v1 <> [] -> size v1 = size v2 ->
  let c := fraction (agreements v1 v2) (size v1) in
  (0 <= c <= 1)%Q /\ ((c == 1)%Q <-> v1 = v2) /\ c = fraction (agreements v2 v1) (size v2).
Proof.
  intros v1 v2 N E c. subst c. pose proof (size_pos v1 N) as P.
  split; [apply fraction_range; [exact P|apply agreements_range]|].
  split; [rewrite fraction_one by exact P; apply agreements_all; exact E|].
  rewrite agreements_sym, E. reflexivity.
Qed.

(** ** Copies *)
Lemma obtained_file : forall w a v, obtained w a v -> a_fmt a = Some FFile ->
  exists p, a_data a = VPath p /\ w_fs w p = Some (as_01 v).
Proof.
  intros w a v O F. apply obtained_rep in O as (_ & _ & _ & R & _).
  destruct R. rewrite F in r_stored. cbn in r_stored. destruct r_stored as (p & ? & ?). eauto.
Qed.

Lemma delete_other : forall w a v b u, obtained w a v -> obtained w b u ->
  (own_file a = None \/ own_file a <> own_file b) ->
  exists a' w', delete a w = (Ok tt, a', w') /\ obtained w' b u.
Proof.
  intros w a v b u Oa Ob D.
  destruct (delete_held w a v Oa) as (a' & E & _). eexists _, _. split; [exact E|].
  eapply ob_world; [exact Ob| |].
  - intros p Hp. destruct (a_data a) eqn:Da; try reflexivity.
    destruct (is_fmt FFile a) eqn:Fa; try reflexivity. cbn. unfold fs_del.
    destruct (path_eqb p p0) eqn:Ep; [|reflexivity]. exfalso.
    apply is_fmt_true in Fa.
    assert (p = p0).
    { destruct p, p0; cbn in Ep; try discriminate.
      - apply Z.eqb_eq in Ep; congruence.
      - apply String.eqb_eq in Ep; congruence. }
    subst p0. unfold own_file in D at 1 2. rewrite Fa, Da in D. rewrite Hp in D. destruct D; congruence.
  - destruct (a_data a); try exact (obtained_i32 _ _ _ Ob).
    destruct (is_fmt FFile a); exact (obtained_i32 _ _ _ Ob).
Qed.

Lemma copy_independent : forall w a v,
  obtained w a v -> cfg_fits (w_cfg w) v ->
  (a_fmt a = Some FFile -> STORE_RAW (w_cfg w) = false -> w_fs w (next_name w) = None) ->
  exists b w', copy a w = (Ok b, w') /\ obtained w' b v /\ obtained w' a v /\ keeps_files w w' /\
    (exists b' w'', delete b w' = (Ok tt, b', w'') /\ obtained w'' a v) /\
    (exists a' w'', delete a w' = (Ok tt, a', w'') /\ obtained w'' b v).
Proof.
  intros w a v O F N.
  destruct (copy_ok w a v O F N) as (b & w' & E & Ob & Oa & W & D & Fm).
  exists b, w'. split; [exact E|]. split; [exact Ob|]. split; [exact Oa|].
  split; [eapply copy_keeps; exact E|].
  assert (X : own_file b = None \/ own_file b <> own_file a).
  { destruct (a_fmt b) as [f|] eqn:Fb; [|left; unfold own_file; rewrite Fb; reflexivity].
    destruct f; try (left; unfold own_file; rewrite Fb; reflexivity).
    right. specialize (D eq_refl). pose proof (proj1 Fm eq_refl) as G. apply andb_true_iff in G as [Ga Gs].
    apply is_fmt_true in Ga. apply negb_true_iff in Gs.
    destruct (obtained_file w a v O Ga) as (p & Dp & Hp).
    unfold own_file. rewrite Fb, D, Ga, Dp. intros K. injection K as K. subst p.
    rewrite N in Hp by assumption. discriminate. }
  split.
  - eapply delete_other; eauto.
  - eapply delete_other; eauto. destruct X as [X|X].
    + destruct (own_file a) eqn:A; [right|left; reflexivity]. congruence.
    + right. congruence.
Qed.

(** ** Clearing *)
Lemma clear_ok : forall w a v, obtained w a v -> cfg_fits (w_cfg w) v ->
  exists a', clear a w = (Ok tt, a', w) /\ obtained w a' (map (fun _ => false) v).
Proof.
  intros w a v O F. pose proof (obtained_rep _ _ _ O) as (I & V & Ft & R).
  pose proof (wp_clear w v a I V (proj1 R) F) as H. unfold wp in H.
  destruct (clear a w) as [[[[]|e] a'] w'] eqn:E; [|contradiction].
  destruct H as (-> & _). exists a'. split; [reflexivity|]. eapply ob_clear; eauto.
Qed.

(** ** Integers that do not fit the declared length *)
Lemma overlong_checked : forall w n k to_file,
  WILL_COMPARE (w_cfg w) = true -> 0 <= k -> 0 < n -> 2 ^ k <= n ->
  new (VInt n) true (Some k) to_file false w = (Err EValue, w).
Proof.
  intros w n k tf W K P B. unfold new, init, init_convert, init_with_any, init_with_integer, integer_to_raw.
  unfold bind, getw, ret, upd, lift, get, rec_size, throw. rewrite W. cbn [a_opt blank set_len set_loaded].
  destruct (bin_digits_spec n) as (s & E & _ & _ & _ & L); [lia|]. rewrite E. cbn.
  specialize (L k K P B). change (len s) with (size s).
  assert (Hl : (k <? size s) = true) by (apply Z.ltb_lt; lia).
  rewrite Hl. reflexivity.
Qed.

Lemma no_length : forall w n opt to_file,
  exists w', new (VInt n) opt None to_file false w = (Err EValue, w').
Proof.
  intros. unfold new, init, init_convert, init_with_any, init_with_integer, bind, getw, ret, upd, throw.
  destruct (WILL_COMPARE (w_cfg w)); cbn; eauto.
Qed.

(** ** The name drawn is already taken *)
Lemma taken_name : forall w v opt l c,
  v <> [] -> STORE_RAW (w_cfg w) = false -> w_fs w (next_name w) = Some c ->
  exists e w', new (VArr (as_01 v)) opt l true false w = (Err e, w') /\ forall p, w_fs w' p = w_fs w p.
Proof.
  intros w v opt l c V S T. unfold new, init, init_convert.
  unfold bind at 1 2. unfold getw, ret. unfold bind at 1, upd at 1. unfold init_with_any.
  rewrite last_as_01_lt, andb_false_r. unfold bind at 1, getw at 1. rewrite S. cbn [negb andb].
  pose proof (wp_decompress_raw w v (set_loaded true (blank opt)) true
    (fun y a' w' => y = VArr (as_01 v) /\ w' = w /\ a_lasy a' = false)) as H.
  unfold bind at 1. unfold to_raw_from_any. unfold bind at 1. unfold wp in H.
  destruct (decompress (Some (VArr (as_01 v))) true (set_loaded true (blank opt)) w) as [[[y|e] a'] w'];
    [|exfalso; apply H; [left; reflexivity|intros; repeat split]].
  destruct H as (-> & -> & L); [left; reflexivity|intros; repeat split|].
  unfold ret, bind.
  destruct (write_collision (as_01 v) a' w c L T) as (e & a2 & w2 & E & _ & K).
  rewrite E. exists e, w2. split; [reflexivity|exact K].
Qed.

(** ** Forms used in ActProps.v *)
Lemma call_ok : forall w a v x, obtained w a v ->
  exists a', call x a w = (Ok (view x v), a', w) /\ obtained w a' v.
Proof.
  intros w a v x O. pose proof (obtained_rep _ _ _ O) as (I & V & F & R).
  destruct (call_rep w v x a I V F R) as (a' & E & _). exists a'. split; [exact E|].
  eapply ob_read; eauto.
Qed.

Lemma sources_ok : forall w v src l opt to_file,
  int32_cast (w_i32 w) -> v <> [] -> fits_compressed_array v ->
  denotes w v src l -> cfg_fits (w_cfg w) v ->
  (writes w src to_file = true -> w_fs w (next_name w) = None) ->
  exists a w', new src opt l to_file false w = (Ok a, w') /\ obtained w' a v.
Proof.
  intros w v src l opt tf I V F D C N.
  destruct (new_obtained w v src l opt tf I V F D C N) as (a & w' & E & O & _). eauto.
Qed.

Lemma lazy_ok : forall w v p opt l to_file,
  int32_cast (w_i32 w) -> v <> [] -> fits_compressed_array v ->
  w_fs w p = Some (as_01 v) ->
  (STORE_RAW (w_cfg w) = false -> w_fs w (next_name w) = None) ->
  exists a a' w', new (VPath p) opt l to_file true w = (Ok a, w) /\
    raw a w = (Ok (as_01 v), a', w') /\ obtained w' a' v.
Proof.
  intros w v p opt l tf I V F P N.
  destruct (lazy_raw w v p opt I V P N) as (a' & w' & E & _).
  eexists _, a', w'. split; [apply lazy_new|]. split; [exact E|].
  eapply (ob_lazy w w v p opt l tf); eauto. apply lazy_new.
Qed.

Lemma operators_ok : forall o w a1 a2 v1 v2,
  obtained w a1 v1 -> obtained w a2 v2 -> size v1 = size v2 ->
  ~ (a_fmt a1 = Some FInt /\ a_fmt a2 = Some FInt) ->
  cfg_fits (w_cfg w) v1 ->
  (both_files w a1 a2 = true -> w_fs w (next_name w) = None) ->
  exists r a1' a2' w', binop o a1 a2 w = (Ok r, a1', a2', w') /\
    obtained w' r (pointwise match o with LAnd => andb | LOr => orb | LXor => xorb end v1 v2) /\
    obtained w' a1' v1 /\ obtained w' a2' v2.
Proof.
  intros o w a1 a2 v1 v2 O1 O2 S I F N.
  destruct (binop_ok o w a1 a2 v1 v2 O1 O2 S I F N) as (r & a1' & a2' & w' & E & R & P1 & P2 & _).
  exists r, a1', a2', w'. split; [exact E|]. split; [|split; assumption].
  destruct R as [_ R _ _ _]. assert (X : lop_bool o = match o with LAnd => andb | LOr => orb | LXor => xorb end)
    by (destruct o; reflexivity). rewrite <- X. exact R.
Qed.

Lemma text_codec : forall i32 v, v <> [] ->
  compress i32 (VArr (as_01 v)) DStr = Ok (VStr (run_text v)) /\
  rbind (literal_seq (run_text v)) decompress_list = Ok (as_01 v).
Proof.
  intros i32 v V. split; [apply compress_str; exact V|].
  rewrite literal_seq_run_text. apply decompress_run_lengths. exact V.
Qed.

Lemma array_codec : forall i32 v, int32_cast i32 -> v <> [] -> fits_compressed_array v ->
  compress i32 (VArr (as_01 v)) DArr = Ok (VArr (run_lengths v)) /\
  decompress_list (run_lengths v) = Ok (as_01 v).
Proof. intros i32 v I V F. split; [apply compress_arr; auto|apply decompress_run_lengths; exact V]. Qed.

Lemma codec_injective : forall v1 v2, v1 <> [] -> v2 <> [] ->
  (run_lengths v1 = run_lengths v2 -> v1 = v2) /\ (run_text v1 = run_text v2 -> v1 = v2).
Proof. intros. split; [apply run_lengths_inj|apply run_text_inj]; assumption. Qed.

Lemma integer_codec : forall v, v <> [] ->
  raw_to_integer (VArr (as_01 v)) = Ok (binary v) /\ bits_to_int v = Ok (binary v) /\
  exists s, bin_digits (binary v) = Ok s /\ pad_bits (size v) s = v.
Proof.
  intros v V. split; [apply raw_to_integer_01; exact V|]. split; [apply bits_to_int_spec; exact V|].
  destruct (bin_digits_binary v V) as (s & E & _). exists s. split; [exact E|apply pad_bits_binary; auto].
Qed.

Lemma reading_keeps : forall x a w r a' w', a_lasy a = false ->
  call x a w = (r, a', w') -> a_lasy a' = false /\ keeps_files w w'.
Proof. intros x a w r a' w' L E. pose proof (safe_call x a w L) as H. rewrite E in H. exact H. Qed.

Lemma measure_ok : forall w a v x, obtained w a v -> w_fs w (next_name w) = None ->
  exists a' w', measure x a w = (Ok tt, a', w') /\ obtained w' a' v /\
    a_data a' = a_data a /\ a_fmt a' = a_fmt a /\
    (forall p, w_fs w' p = w_fs w p) /\ w_cfg w' = w_cfg w.
Proof.
  intros w a v x O N. pose proof (obtained_rep _ _ _ O) as (I & V & F & R).
  assert (H : wp (measure x) (fun _ a' w' => undisturbed w v a a' w') a w).
  { destruct x; cbn [measure].
    - wstep. eapply wp_mono; [apply (wp_sizeof w v); auto|]. intros y a1 w1 K. cbn beta. unfold wp, ret. exact K.
    - wstep. eapply wp_mono; [apply (wp_time w v); auto|]. intros y a1 w1 K. cbn beta. unfold wp, ret. exact K. }
  unfold wp in H. destruct (measure x a w) as [[[[]|e] a'] w'] eqn:E; [|contradiction].
  destruct H as (R' & D & Fm & P & C & _). exists a', w'. split; [reflexivity|].
  split; [eapply ob_measure; eauto|]. auto.
Qed.
