(** Operators, copy, containment and correlation of activations (lemmas). *)
From Coq Require Import Decimal DecimalString DecimalZ ZArith QArith Bool String Ascii List Lia.
From Verif Require Import Base ActModel ActSpec ActObs ActCodec ActRep ActAccess ActBuild ActProf ActHold.
Import ListNotations.
Open Scope Z_scope.

Lemma obtained_raw : forall w a v, obtained w a v ->
  exists a', raw a w = (Ok (as_01 v), a', w) /\ obtained w a' v /\ grows a a'.
Proof.
  intros w a v H. destruct (obtained_rep _ _ _ H) as (Hi & Hv & Hf & R).
  destruct (call_rep w v ARaw a Hi Hv Hf R) as (a' & E & R' & G). exists a'.
  assert (E' : raw a w = (Ok (as_01 v), a', w)).
  { unfold call, bind, ret in E. cbn [view] in E. destruct (raw a w) as [[[y|e] a1] w1]; congruence. }
  split; [exact E'|]. split; [|exact G]. eapply ob_read; [exact H|exact E].
Qed.
Lemma obtained_nones : forall w a v, obtained w a v ->
  exists a', nones a w = (Ok (n_ones v), a', w) /\ obtained w a' v /\ grows a a'.
Proof.
  intros w a v H. destruct (obtained_rep _ _ _ H) as (Hi & Hv & Hf & R).
  destruct (call_rep w v ANones a Hi Hv Hf R) as (a' & E & R' & G). exists a'.
  assert (E' : nones a w = (Ok (n_ones v), a', w)).
  { unfold call, bind, ret in E. cbn [view] in E. destruct (nones a w) as [[[y|e] a1] w1]; congruence. }
  split; [exact E'|]. split; [|exact G]. eapply ob_read; [exact H|exact E].
Qed.
Lemma obtained_len : forall w a v, obtained w a v -> a_len a = Some (size v).
Proof. intros w a v H. apply obtained_rep in H as (_ & _ & _ & R). apply R. Qed.
Lemma obtained_nil : forall w a v, obtained w a v -> v <> [].
Proof. intros w a v H. apply obtained_rep in H as (_ & ? & _ & _). assumption. Qed.
Lemma obtained_i32 : forall w a v, obtained w a v -> int32_cast (w_i32 w).
Proof. intros w a v H. apply obtained_rep in H as (? & _). assumption. Qed.
Lemma obtained_fits : forall w a v, obtained w a v -> fits_compressed_array v.
Proof. intros w a v H. apply obtained_rep in H as (_ & _ & ? & _). assumption. Qed.

Lemma obtained_saved : forall w a v v', w_fs w (next_name w) = None -> obtained w a v ->
  obtained (saved w v') a v.
Proof.
  intros w a v v' N H. eapply ob_keeps; [exact H|apply keeps_saved; exact N|].
  exact (obtained_i32 _ _ _ H).
Qed.

(** A held activation built from [src]. *)
Lemma new_obtained : forall w v src l opt to_file,
  int32_cast (w_i32 w) -> v <> [] -> fits_compressed_array v ->
  denotes w v src l -> cfg_fits (w_cfg w) v ->
  (writes w src to_file = true -> w_fs w (next_name w) = None) ->
  exists a w', new src opt l to_file false w = (Ok a, w') /\ obtained w' a v /\
    w' = (if writes w src to_file then saved w v else w) /\
    (a_fmt a = Some FFile <-> writes w src to_file = true) /\
    (a_fmt a = Some FFile -> a_data a = VPath (next_name w)) /\
    (a_fmt a = Some FInt -> WILL_COMPARE (w_cfg w) = true) /\
    a_opt a = opt /\ a_tofile a = writes w src to_file.
Proof.
  intros w v src l opt tf Hi Hv Hf D F N.
  destruct (new_spec w v Hi Hv src l opt tf D F N) as (a & w' & E & B).
  exists a, w'. split; [exact E|]. split; [eapply ob_new; eauto|].
  destruct B as (A & _ & B & C & W & O & _ & T). auto 10.
Qed.

Lemma pointwise_not_nil : forall f v1 v2, size v1 = size v2 -> v1 <> [] -> pointwise f v1 v2 <> [].
Proof.
  intros f v1 v2 H Hn E. pose proof (size_pointwise f v1 v2 H) as S. rewrite E in S.
  pose proof (size_pos v1 Hn). unfold size at 1 in S. cbn in S. lia.
Qed.
Lemma pointwise_fits : forall f v1 v2, size v1 = size v2 -> fits_compressed_array v1 ->
  fits_compressed_array (pointwise f v1 v2).
Proof. intros f v1 v2 H F. unfold fits_compressed_array in *. rewrite size_pointwise; assumption. Qed.
Lemma pointwise_cfg_fits : forall f c v1 v2, size v1 = size v2 -> cfg_fits c v1 ->
  cfg_fits c (pointwise f v1 v2).
Proof.
  intros f c v1 v2 H F D. unfold fits_compressed_array. rewrite size_pointwise by assumption. apply F, D.
Qed.

Lemma np_zip_same : forall f xs ys, len xs = len ys -> np_zip f xs ys = Ok (zipw f xs ys).
Proof. intros f xs ys H. unfold np_zip. rewrite H, Z.eqb_refl. reflexivity. Qed.

Lemma is_fmt_true : forall f a, is_fmt f a = true -> a_fmt a = Some f.
Proof. intros f a. unfold is_fmt, fmt_eqb. destruct (a_fmt a) as [[]|], f; try discriminate; auto. Qed.
Lemma is_fmt_iff : forall f a, is_fmt f a = true <-> a_fmt a = Some f.
Proof. intros f a; split; [apply is_fmt_true|]. unfold is_fmt, fmt_eqb. intros ->. destruct f; reflexivity. Qed.
Lemma is_fmt_grows : forall f a a', grows a a' -> is_fmt f a' = is_fmt f a.
Proof. intros f a a' G. unfold is_fmt. rewrite (g_fmt _ _ G). reflexivity. Qed.


Record op_result (w : world) (v : vec) (wr : bool) (r : act) (w' : world) : Prop := mkOpResult {
  or_world : w' = (if wr then saved w v else w);
  or_obt : obtained w' r v;
  or_file : a_fmt r = Some FFile <-> wr = true;
  or_data : a_fmt r = Some FFile -> a_data r = VPath (next_name w);
  or_int : a_fmt r = Some FInt -> WILL_COMPARE (w_cfg w) = true
}.

Lemma lasts_as_01 : forall v, negb (1 <? last (as_01 v) 0) = true.
Proof. intros v. rewrite last_as_01_lt. reflexivity. Qed.

Lemma binop_ok : forall o w a1 a2 v1 v2,
  obtained w a1 v1 -> obtained w a2 v2 -> size v1 = size v2 ->
  ~ (a_fmt a1 = Some FInt /\ a_fmt a2 = Some FInt) ->
  cfg_fits (w_cfg w) v1 ->
  (both_files w a1 a2 = true -> w_fs w (next_name w) = None) ->
  exists r a1' a2' w', binop o a1 a2 w = (Ok r, a1', a2', w') /\
    op_result w (pointwise (lop_bool o) v1 v2) (both_files w a1 a2) r w' /\
    obtained w' a1' v1 /\ obtained w' a2' v2 /\ grows a1 a1' /\ grows a2 a2'.
Proof.
  intros o w a1 a2 v1 v2 O1 O2 S NI F N. unfold binop.
  rewrite (obtained_len _ _ _ O1), (obtained_len _ _ _ O2). cbn [len_eqb].
  rewrite S, Z.eqb_refl. cbn [negb].
  pose proof (obtained_nil _ _ _ O1) as Hn. pose proof (obtained_i32 _ _ _ O1) as Hi.
  pose proof (obtained_fits _ _ _ O1) as Hf.
  assert (E2 : is_fmt FInt a1 && is_fmt FInt a2 = false).
  { apply not_true_iff_false. intros E. apply andb_true_iff in E as [A B].
    apply NI. split; apply is_fmt_true; assumption. }
  rewrite E2, orb_false_r.
  destruct (is_fmt FBits a1 && is_fmt FBits a2) eqn:E1.
  - apply andb_true_iff in E1 as [A B].
    assert (BF : both_files w a1 a2 = false).
    { unfold both_files. apply is_fmt_true in A. unfold is_fmt. rewrite A. reflexivity. }
    apply is_fmt_true in A, B.
    destruct (obtained_rep _ _ _ O1) as (_ & _ & _ & [[_ _ S1 _ _ _ _] _]). rewrite A in S1. cbn in S1.
    destruct (obtained_rep _ _ _ O2) as (_ & _ & _ & [[_ _ S2 _ _ _ _] _]). rewrite B in S2. cbn in S2.
    rewrite S1, S2. change (len v1) with (size v1). change (len v2) with (size v2). rewrite S, Z.eqb_refl.
    rewrite zipw_pointwise.
    destruct (new_obtained w (pointwise (lop_bool o) v1 v2) (VBits (pointwise (lop_bool o) v1 v2)) None
                (a_opt a1 && a_opt a2) false) as (r & w' & E & Ob & W & Fi & Da & In & _).
    + exact Hi.
    + apply pointwise_not_nil; assumption.
    + apply pointwise_fits; assumption.
    + constructor; auto.
    + apply pointwise_cfg_fits; assumption.
    + discriminate.
    + cbn in W. subst w'. rewrite E. exists r, a1, a2, w. split; [reflexivity|].
      rewrite BF. split; [constructor; auto|]. auto using grows_refl.
  - destruct (obtained_raw _ _ _ O1) as (a1' & R1 & O1' & G1). rewrite R1.
    destruct (obtained_raw _ _ _ O2) as (a2' & R2 & O2' & G2). rewrite R2.
    rewrite np_zip_same by (rewrite !len_as_01; assumption). rewrite zipw_as_01.
    set (v := pointwise (lop_bool o) v1 v2).
    assert (BF : writes w (VArr (as_01 v)) (is_fmt FFile a1' && is_fmt FFile a2') = both_files w a1 a2).
    { unfold writes, both_files. rewrite lasts_as_01, (is_fmt_grows _ _ _ G1), (is_fmt_grows _ _ _ G2).
      reflexivity. }
    destruct (new_obtained w v (VArr (as_01 v)) None
                (a_opt a1' && a_opt a2') (is_fmt FFile a1' && is_fmt FFile a2')) as (r & w' & E & Ob & W & Fi & Da & In & _).
    + exact Hi.
    + apply pointwise_not_nil; assumption.
    + apply pointwise_fits; assumption.
    + constructor.
    + apply pointwise_cfg_fits; assumption.
    + rewrite BF. exact N.
    + rewrite BF in *. rewrite E. exists r, a1', a2', w'. split; [reflexivity|].
      split; [constructor; auto|]. rewrite W.
      destruct (both_files w a1 a2); repeat split; auto; try apply G1; try apply G2;
        apply obtained_saved; auto.
Qed.

Lemma binop_mismatch : forall o w a1 a2 v1 v2,
  obtained w a1 v1 -> obtained w a2 v2 -> size v1 <> size v2 ->
  binop o a1 a2 w = (Err EValue, a1, a2, w).
Proof.
  intros o w a1 a2 v1 v2 O1 O2 S. unfold binop.
  rewrite (obtained_len _ _ _ O1), (obtained_len _ _ _ O2). cbn [len_eqb].
  apply Z.eqb_neq in S. rewrite S. reflexivity.
Qed.

Lemma binop_ints : forall o w a1 a2 v1 v2,
  obtained w a1 v1 -> obtained w a2 v2 ->
  a_fmt a1 = Some FInt -> a_fmt a2 = Some FInt ->
  binop o a1 a2 w = (Err EValue, a1, a2, w).
Proof.
  intros o w a1 a2 v1 v2 O1 O2 F1 F2.
  destruct (Z.eq_dec (size v1) (size v2)) as [S|S]; [|eapply binop_mismatch; eauto].
  unfold binop. rewrite (obtained_len _ _ _ O1), (obtained_len _ _ _ O2). cbn [len_eqb].
  rewrite S, Z.eqb_refl. cbn [negb].
  unfold is_fmt. rewrite F1, F2. cbn [fmt_eqb andb orb].
  destruct (obtained_rep _ _ _ O1) as (_ & _ & _ & [[_ _ S1 _ _ _ _] _]). rewrite F1 in S1. destruct S1 as [_ S1].
  destruct (obtained_rep _ _ _ O2) as (_ & _ & _ & [[_ _ S2 _ _ _ _] _]). rewrite F2 in S2. destruct S2 as [_ S2].
  rewrite S1, S2. unfold new, init, init_convert, bind at 1 2, getw at 1.
  destruct (WILL_COMPARE (w_cfg w)); reflexivity.
Qed.

(** ** subtraction *)
Lemma and_xor : forall v1 v2, size v1 = size v2 ->
  pointwise andb (pointwise xorb v1 v2) v1 = pointwise (fun x y => x && negb y) v1 v2.
Proof.
  unfold pointwise. induction v1 as [|b t IH]; intros [|c u] S; try reflexivity.
  cbn. f_equal; [destruct b, c; reflexivity|]. apply IH.
  unfold size in *; cbn [List.length] in S; lia.
Qed.


Lemma fresh_next : forall k w, fresh_names (S k) w -> w_fs w (next_name w) = None.
Proof. intros k w [H _]. specialize (H O). rewrite Nat.add_0_r in H. apply H. lia. Qed.
Lemma fresh_saved : forall k w v, fresh_names (S k) w -> fresh_names k (saved w v).
Proof.
  intros k w v [H D]. split.
  - intros i Hi. cbn. unfold fs_put, next_name.
    destruct (path_eqb _ _) eqn:E.
    + apply path_eqb_true in E. injection E as E. exfalso.
      apply (D 0%nat (S i)); [lia|]. rewrite Nat.add_0_r, Nat.add_succ_r. symmetry; exact E.
    + specialize (H (S i)). rewrite Nat.add_succ_r in H. apply H. lia.
  - intros i j Hij. cbn. specialize (D (S i) (S j)). rewrite !Nat.add_succ_r in D. apply D. lia.
Qed.
Lemma fresh_le : forall k k' w, (k' <= k)%nat -> fresh_names k w -> fresh_names k' w.
Proof. intros k k' w L [H D]; split; intros; [apply H|apply D]; lia. Qed.


Lemma sub_ok : forall w a1 a2 v1 v2,
  obtained w a1 v1 -> obtained w a2 v2 -> size v1 = size v2 ->
  sub_safe w a1 a2 ->
  cfg_fits (w_cfg w) v1 ->
  (both_files w a1 a2 = true -> fresh_names 2 w) ->
  exists r a1' a2' w', sub a1 a2 w = (Ok r, a1', a2', w') /\
    obtained w' r (pointwise (fun x y => x && negb y) v1 v2) /\
    obtained w' a1' v1 /\ obtained w' a2' v2 /\ keeps_files w w' /\
    (both_files w a1 a2 = false -> w' = w).
Proof.
  intros w a1 a2 v1 v2 O1 O2 S SS F N. unfold sub.
  destruct (binop_ok LXor w a1 a2 v1 v2 O1 O2 S) as (x & a1' & a2' & w' & E & [W Ox Fx Dx Ix] & O1' & O2' & G1 & G2).
  { intros [A B]. apply SS in A. tauto. }
  { exact F. }
  { intros B. apply (fresh_next 1). auto. }
  rewrite E. change (lop_bool LXor) with xorb in *.
  pose proof (size_pointwise xorb v1 v2 S) as Sx.
  assert (Cw : w_cfg w' = w_cfg w) by (rewrite W; destruct (both_files w a1 a2); reflexivity).
  assert (BF : both_files w' x a1' = both_files w a1 a2).
  { unfold both_files at 1. rewrite Cw, (is_fmt_grows _ _ _ G1).
    destruct (both_files w a1 a2) eqn:B.
    - assert (Hx : is_fmt FFile x = true) by (apply is_fmt_iff, Fx; reflexivity). rewrite Hx.
      unfold both_files in B. apply andb_true_iff in B as [B C]. apply andb_true_iff in B as [B D].
      rewrite B, C. reflexivity.
    - destruct (is_fmt FFile x) eqn:C; [|reflexivity]. apply is_fmt_true, Fx in C. discriminate. }
  destruct (binop_ok LAnd w' x a1' _ v1 Ox O1' Sx) as (r & x' & a1'' & w'' & E2 & [W2 Or Fr Dr Ir] & Ox' & O1'' & _ & _).
  { intros [A B]. rewrite (g_fmt _ _ G1) in B. apply Ix in A. destruct (SS B) as [_ C]. congruence. }
  { rewrite Cw. apply pointwise_cfg_fits; assumption. }
  { rewrite BF. intros B. rewrite W, B. apply (fresh_next 0). apply fresh_saved. auto. }
  rewrite E2. exists r, a1'', a2', w''. split; [reflexivity|].
  change (lop_bool LAnd) with andb in *. rewrite and_xor in * by assumption.
  split; [exact Or|]. split; [exact O1''|].
  rewrite W2, BF, W. destruct (both_files w a1 a2) eqn:B.
  - assert (N2 := N eq_refl). rewrite W in O2'.
    split; [|split; [|discriminate]].
    + apply obtained_saved; [|exact O2']. apply (fresh_next 0), fresh_saved, N2.
    + intros p c Hp. apply keeps_saved; [apply (fresh_next 0), fresh_saved, N2|].
      apply keeps_saved; [apply (fresh_next 1), N2|exact Hp].
  - split; [|split; [|reflexivity]].
    + rewrite W in O2'. exact O2'.
    + intros p c Hp; exact Hp.
Qed.

(** ** addition *)
Lemma add_first : forall w a1 a2 v1, obtained w a1 v1 -> add a1 a2 = Ok a1.
Proof.
  intros w a1 a2 v1 O. unfold add. rewrite (obtained_len _ _ _ O).
  pose proof (size_pos _ (obtained_nil _ _ _ O)). destruct (size v1 =? 0) eqn:E; [|reflexivity].
  apply Z.eqb_eq in E; lia.
Qed.

(** ** deletion *)
Lemma delete_held : forall w a v, obtained w a v ->
  exists a', delete a w = (Ok tt, a',
    match a_data a with
    | VPath p => if is_fmt FFile a then set_fs (fs_del p (w_fs w)) w else w
    | _ => w
    end) /\ a_nones a' = a_nones a /\ a_cov a' = a_cov a /\ a_entropy a' = a_entropy a /\
    a_relent a' = a_relent a /\ a_len a' = a_len a /\ a_fmt a' = a_fmt a /\
    a_data a' = (if is_fmt FFile a then a_data a else VNone) /\ a_loaded a' = a_loaded a.
Proof.
  intros w a v O. destruct (obtained_rep _ _ _ O) as (_ & _ & _ & [R _]).
  pose proof (r_stored _ _ _ R) as S. unfold delete, bind at 1, get at 1, is_fmt.
  destruct (a_fmt a) as [[]|] eqn:F; cbn in S; try contradiction;
    try (unfold upd; cbn; eexists; split; [destruct (a_data a); reflexivity|]; cbn; auto 10).
  destruct S as (p & E & _). unfold bind, get. rewrite E. cbn. eexists. split; [reflexivity|]. auto 10.
Qed.

(** ** containment *)
Lemma n_ones_and_le : forall v1 v2, n_ones (pointwise andb v1 v2) <= n_ones v1 /\
  n_ones (pointwise andb v1 v2) <= n_ones v2.
Proof.
  unfold pointwise. induction v1 as [|b t IH]; intros [|c u]; cbn [combine map]; change (n_ones []) with 0.
  - lia.
  - pose proof (n_ones_bounds (c :: u)). lia.
  - pose proof (n_ones_bounds (b :: t)). lia.
  - specialize (IH u) as [I1 I2]. cbn [fst snd].
    rewrite !n_ones_cons. destruct b, c; cbn [bit andb]; lia.
Qed.


Lemma subset_nil : forall v, subset [] v.
Proof. intros v [|i] H; discriminate. Qed.
Lemma subset_cons : forall b c t u, subset (b :: t) (c :: u) <-> ((b = true -> c = true) /\ subset t u).
Proof.
  intros b c t u. split.
  - intros H. split; [apply (H O)|]. intros i. apply (H (S i)).
  - intros [H1 H2] [|i]; cbn; auto.
Qed.

Lemma n_ones_and_eq : forall v1 v2, size v1 = size v2 ->
  (n_ones (pointwise andb v1 v2) = n_ones v1 <-> subset v1 v2).
Proof.
  unfold pointwise. induction v1 as [|b t IH]; intros [|c u] S; try (unfold size in S; cbn [List.length] in S; lia).
  - split; [intros _; apply subset_nil|reflexivity].
  - cbn [combine map fst snd]. rewrite !n_ones_cons, subset_cons.
    assert (St : size t = size u) by (unfold size in *; cbn [List.length] in S; lia).
    specialize (IH u St). destruct (n_ones_and_le t u) as [L1 L2]. unfold pointwise in *.
    destruct b, c; cbn [bit andb]; rewrite <- IH; intuition (try discriminate; try lia).
Qed.
Lemma pointwise_comm : forall v1 v2, pointwise andb v1 v2 = pointwise andb v2 v1.
Proof.
  unfold pointwise. induction v1 as [|b t IH]; intros [|c u]; try reflexivity.
  cbn. f_equal; [destruct b, c; reflexivity|apply IH].
Qed.

Lemma contains_test : forall v1 v2, size v1 = size v2 ->
  negb (n_ones (pointwise andb v1 v2) <? (if n_ones v2 <? n_ones v1 then n_ones v2 else n_ones v1)) = true
  <-> subset v1 v2 \/ subset v2 v1.
Proof.
  intros v1 v2 S. rewrite negb_true_iff, Z.ltb_ge.
  destruct (n_ones_and_le v1 v2) as [L1 L2].
  rewrite <- (n_ones_and_eq v1 v2 S), <- (n_ones_and_eq v2 v1 (eq_sym S)), (pointwise_comm v2 v1).
  destruct (n_ones v2 <? n_ones v1) eqn:E; [apply Z.ltb_lt in E|apply Z.ltb_ge in E]; lia.
Qed.

Lemma fs_del_put : forall p xs f q, f p = None -> fs_del p (fs_put p xs f) q = f q.
Proof.
  intros p xs f q H. unfold fs_del, fs_put. destruct (path_eqb q p) eqn:E; [|reflexivity].
  apply path_eqb_true in E; subst; auto.
Qed.

Lemma contains_ok : forall w a1 a2 v1 v2,
  obtained w a1 v1 -> obtained w a2 v2 -> size v1 = size v2 ->
  ~ (a_fmt a1 = Some FInt /\ a_fmt a2 = Some FInt) ->
  cfg_fits (w_cfg w) v1 ->
  (both_files w a1 a2 = true -> w_fs w (next_name w) = None) ->
  exists b a1' a2' w', contains a1 a2 w = (Ok b, a1', a2', w') /\
    (b = true <-> subset v1 v2 \/ subset v2 v1) /\
    obtained w' a1' v1 /\ obtained w' a2' v2 /\ (forall p, w_fs w' p = w_fs w p) /\ w_cfg w' = w_cfg w.
Proof.
  intros w a1 a2 v1 v2 O1 O2 S NI F N. unfold contains.
  destruct (binop_ok LAnd w a1 a2 v1 v2 O1 O2 S NI F N)
    as (i & a1' & a2' & w' & E & [W Oi Fi Di Ii] & O1' & O2' & G1 & G2).
  rewrite E. change (lop_bool LAnd) with andb in *.
  destruct (obtained_nones _ _ _ Oi) as (i' & En & Oi' & Gi). rewrite En.
  destruct (delete_held _ _ _ Oi') as (i'' & Ed & _). rewrite Ed.
  assert (Hi := obtained_i32 _ _ _ O1).
  set (w2 := match a_data i' with VPath p => _ | _ => _ end).
  assert (W2 : (forall p, w_fs w2 p = w_fs w p) /\ w_i32 w2 = w_i32 w /\ w_cfg w2 = w_cfg w).
  { unfold w2. rewrite (is_fmt_grows _ _ _ Gi), (g_data _ _ Gi).
    destruct (both_files w a1 a2) eqn:B.
    - assert (Hf : a_fmt i = Some FFile) by (apply Fi; reflexivity).
      rewrite (Di Hf), (proj2 (is_fmt_iff FFile i) Hf). subst w'. cbn. repeat split.
      intros p. apply fs_del_put. auto.
    - assert (Hf : is_fmt FFile i = false).
      { apply not_true_iff_false. intros C. apply is_fmt_true, Fi in C. discriminate. }
      rewrite Hf. subst w'. destruct (a_data i); auto. }
  assert (T1 : obtained w2 a1' v1).
  { clearbody w2. destruct W2 as (A & B & _).
    destruct (obtained_raw _ _ _ O1) as (x & _).
    assert (T : obtained w a1' v1).
    { unfold binop in E.
      (* a1' is a1 after at most reading raw in w *)
      rewrite (obtained_len _ _ _ O1), (obtained_len _ _ _ O2) in E. cbn [len_eqb] in E.
      rewrite S, Z.eqb_refl in E. cbn [negb] in E.
      destruct (_ || _) in E.
      - destruct (a_data a1), (a_data a2); try discriminate.
        + destruct (_ =? _) in E; [|discriminate].
          destruct (new _ _ _ _ _ _) in E. injection E as _ <- _ _. exact O1.
        + destruct (new _ _ _ _ _ _) in E. injection E as _ <- _ _. exact O1.
      - destruct (obtained_raw _ _ _ O1) as (a1x & R1 & O1x & _). rewrite R1 in E.
        destruct (obtained_raw _ _ _ O2) as (a2x & R2 & O2x & _). rewrite R2 in E.
        destruct (np_zip _ _ _) in E; [|discriminate].
        destruct (new _ _ _ _ _ _) in E. injection E as _ <- _ _. exact O1x. }
    eapply ob_keeps; [exact T| |rewrite B; exact Hi]. intros p c Hp. rewrite A. exact Hp. }
  assert (T2 : obtained w2 a2' v2).
  { clearbody w2. destruct W2 as (A & B & _).
    assert (T : obtained w a2' v2).
    { unfold binop in E.
      rewrite (obtained_len _ _ _ O1), (obtained_len _ _ _ O2) in E. cbn [len_eqb] in E.
      rewrite S, Z.eqb_refl in E. cbn [negb] in E.
      destruct (_ || _) in E.
      - destruct (a_data a1), (a_data a2); try discriminate.
        + destruct (_ =? _) in E; [|discriminate].
          destruct (new _ _ _ _ _ _) in E. injection E as _ _ <- _. exact O2.
        + destruct (new _ _ _ _ _ _) in E. injection E as _ _ <- _. exact O2.
      - destruct (obtained_raw _ _ _ O1) as (a1x & R1 & O1x & _). rewrite R1 in E.
        destruct (obtained_raw _ _ _ O2) as (a2x & R2 & O2x & _). rewrite R2 in E.
        destruct (np_zip _ _ _) in E; [|discriminate].
        destruct (new _ _ _ _ _ _) in E. injection E as _ _ <- _. exact O2x. }
    eapply ob_keeps; [exact T| |rewrite B; exact Hi]. intros p c Hp. rewrite A. exact Hp. }
  destruct (obtained_nones _ _ _ T1) as (a1'' & E1 & O1'' & _). rewrite E1.
  destruct (obtained_nones _ _ _ T2) as (a2'' & E2 & O2'' & _). rewrite E2.
  eexists _, _, _, _. split; [reflexivity|]. split; [apply contains_test; exact S|].
  repeat split; auto; apply W2.
Qed.


Lemma zip_eqb : forall v1 v2,
  zipw (fun x y => if x =? y then 1 else 0) (as_01 v1) (as_01 v2) = as_01 (pointwise Bool.eqb v1 v2).
Proof.
  unfold pointwise, as_01. induction v1 as [|b t IH]; intros [|c u]; try reflexivity.
  cbn. f_equal; [destruct b, c; reflexivity|apply IH].
Qed.

Lemma correlation_ok : forall w a1 a2 v1 v2,
  obtained w a1 v1 -> obtained w a2 v2 -> size v1 = size v2 ->
  exists a1' a2', get_correlation a1 a2 w = (Ok (fraction (agreements v1 v2) (size v1)), a1', a2', w) /\
    obtained w a1' v1 /\ obtained w a2' v2.
Proof.
  intros w a1 a2 v1 v2 O1 O2 S. unfold get_correlation.
  rewrite (obtained_len _ _ _ O1), (obtained_len _ _ _ O2), S, Z.eqb_refl. cbn [negb].
  destruct (obtained_raw _ _ _ O1) as (a1' & R1 & O1' & G1). rewrite R1.
  destruct (obtained_raw _ _ _ O2) as (a2' & R2 & O2' & G2). rewrite R2.
  rewrite np_zip_same by (rewrite !len_as_01; assumption). rewrite zip_eqb. cbn [rbind].
  rewrite count_ones_as_01, pydiv_ok by exact (obtained_nil _ _ _ O2).
  exists a1', a2'. auto.
Qed.
Lemma correlation_mismatch : forall w a1 a2 v1 v2,
  obtained w a1 v1 -> obtained w a2 v2 -> size v1 <> size v2 ->
  get_correlation a1 a2 w = (Err EValue, a1, a2, w).
Proof.
  intros w a1 a2 v1 v2 O1 O2 S. unfold get_correlation.
  rewrite (obtained_len _ _ _ O1), (obtained_len _ _ _ O2).
  apply Z.eqb_neq in S. rewrite S. reflexivity.
Qed.

(** ** copy *)
Lemma copy_ok : forall w a v,
  obtained w a v -> cfg_fits (w_cfg w) v ->
  (a_fmt a = Some FFile -> STORE_RAW (w_cfg w) = false -> w_fs w (next_name w) = None) ->
  exists b w', copy a w = (Ok b, w') /\ obtained w' b v /\ obtained w' a v /\
    w' = (if is_fmt FFile a && negb (STORE_RAW (w_cfg w)) then saved w v else w) /\
    (a_fmt b = Some FFile -> a_data b = VPath (next_name w)) /\
    (a_fmt b = Some FFile <-> is_fmt FFile a && negb (STORE_RAW (w_cfg w)) = true).
Proof.
  intros w a v O F N. unfold copy.
  destruct (obtained_rep _ _ _ O) as (Hi & Hv & Hf & [R C]).
  pose proof (r_stored _ _ _ R) as S. pose proof (r_len _ _ _ R) as L.
  assert (G : forall src l tf, denotes w v src l ->
    writes w src tf = is_fmt FFile a && negb (STORE_RAW (w_cfg w)) ->
    exists b w', new src (a_opt a) l tf false w = (Ok b, w') /\ obtained w' b v /\ obtained w' a v /\
    w' = (if is_fmt FFile a && negb (STORE_RAW (w_cfg w)) then saved w v else w) /\
    (a_fmt b = Some FFile -> a_data b = VPath (next_name w)) /\
    (a_fmt b = Some FFile <-> is_fmt FFile a && negb (STORE_RAW (w_cfg w)) = true)).
  { intros src l tf D W.
    assert (N' : writes w src tf = true -> w_fs w (next_name w) = None).
    { rewrite W. intros E. apply andb_true_iff in E as [E1 E2]. apply negb_true_iff in E2.
      apply is_fmt_true in E1. auto. }
    destruct (new_obtained w v src l (a_opt a) tf Hi Hv Hf D F N') as (b & w' & E & Ob & W' & Fi & Da & _).
    exists b, w'. rewrite W in *. repeat split; auto; try apply Fi.
    rewrite W'. destruct (_ && _) eqn:B; [|exact O]. apply obtained_saved; auto. }
  unfold is_fmt in *. destruct (a_fmt a) as [[]|] eqn:Fm; cbn [fmt_eqb andb] in *; cbn in S; try contradiction.
  - rewrite S. apply G; [constructor|]. unfold writes. rewrite andb_false_r. reflexivity.
  - rewrite S. apply G; [constructor; auto|reflexivity].
  - destruct S as [_ S]. rewrite S, L. apply G; [constructor|reflexivity].
  - destruct S as [_ S]. rewrite S. apply G; [constructor|reflexivity].
  - destruct S as [H2 S]. rewrite S. apply G; [constructor; exact H2|]. unfold writes. rewrite andb_false_r. reflexivity.
  - destruct S as (p & E & Hp). rewrite E. apply G; [constructor; exact Hp|]. reflexivity.
Qed.
