(** Operators over many activations (lemmas). *)
From Coq Require Import ZArith QArith Bool String List Lia.
From Verif Require Import Base ActModel ActSpec ActObs ActCodec ActRep ActAccess ActBuild ActProf ActHold ActOps.
Import ListNotations.
Open Scope Z_scope.


Definition reduced (o : mop) (vs : list vec) : vec :=
  match o with MAll => every vs | MAny => some vs end.
Definition mbool (o : mop) : bool -> bool -> bool := match o with MAll => andb | MAny => orb end.

Lemma map_nth_seq : forall A (l : list A) d, map (fun i => nth i l d) (seq 0 (List.length l)) = l.
Proof.
  intros A l d. apply nth_ext with (d := d) (d' := d).
  - rewrite map_length, seq_length. reflexivity.
  - intros n H. rewrite map_length, seq_length in H.
    rewrite nth_indep with (d' := nth 0%nat l d) by (rewrite map_length, seq_length; exact H).
    rewrite (map_nth (fun i => nth i l d)), seq_nth by exact H. reflexivity.
Qed.

Lemma reduced_one : forall o v, reduced o [v] = v.
Proof.
  intros o v. rewrite <- (map_nth_seq _ v false) at 2. destruct o; cbn [reduced]; unfold every, some; cbn [hd];
    apply map_ext; intros i; cbn; [apply andb_true_r|apply orb_false_r].
Qed.

Lemma nth_pointwise : forall f v1 v2 i, List.length v1 = List.length v2 -> (i < List.length v1)%nat ->
  nth i (pointwise f v1 v2) false = f (nth i v1 false) (nth i v2 false).
Proof.
  unfold pointwise. induction v1 as [|b t IH]; intros [|c u] i H Hi; cbn [List.length] in *; try lia.
  destruct i as [|i]; cbn; [reflexivity|]. apply IH; lia.
Qed.
Lemma length_pointwise : forall f v1 v2, List.length v1 = List.length v2 ->
  List.length (pointwise f v1 v2) = List.length v1.
Proof. intros. unfold pointwise. rewrite map_length, combine_length. lia. Qed.

Lemma reduced_step : forall o v1 v2 vs, List.length v1 = List.length v2 ->
  reduced o (v1 :: v2 :: vs) = reduced o (pointwise (mbool o) v1 v2 :: vs).
Proof.
  intros o v1 v2 vs H.
  destruct o; cbn [reduced mbool]; unfold every, some; cbn [hd]; rewrite length_pointwise by exact H;
    apply map_ext_in; intros i Hi; apply in_seq in Hi; cbn;
    rewrite nth_pointwise by lia; [rewrite andb_assoc|rewrite orb_assoc]; reflexivity.
Qed.

Lemma length_reduced : forall o vs, List.length (reduced o vs) = List.length (hd [] vs).
Proof. intros [|] vs; cbn; unfold every, some; rewrite map_length, seq_length; reflexivity. Qed.

(** ** vstack *)
Lemma columns_nth : forall n rows,
  columns n rows = map (fun i => map (fun r => nth i r 0) rows) (seq 0 n).
Proof.
  induction n as [|n IH]; intros rows; [reflexivity|].
  cbn [columns seq map]. f_equal.
  - apply map_ext. intros [|x r]; reflexivity.
  - rewrite IH, <- seq_shift, map_map. apply map_ext. intros i. rewrite map_map. apply map_ext.
    intros [|x r]; [destruct i; reflexivity|reflexivity].
Qed.
Lemma nth_as_01 : forall v i, nth i (as_01 v) 0 = bit (nth i v false).
Proof.
  unfold as_01. induction v as [|b t IH]; intros [|i]; try reflexivity. cbn. apply IH.
Qed.
Lemma col_bits : forall o i vs,
  col o (map (fun r => nth i r 0) (map as_01 vs)) =
  bit (match o with MAll => forallb (fun v => nth i v false) vs | MAny => existsb (fun v => nth i v false) vs end).
Proof.
  intros o i vs. rewrite map_map. destruct o; cbn [col]; f_equal; induction vs as [|v vs IH];
    try reflexivity; cbn [map forallb existsb]; rewrite IH, nth_as_01; destruct (nth i v false); reflexivity.
Qed.

Lemma vstack_ok : forall o v vs, same_size (v :: vs) ->
  vstack_reduce o (map as_01 (v :: vs)) = Ok (as_01 (reduced o (v :: vs))).
Proof.
  intros o v vs H. unfold vstack_reduce. cbn [map].
  assert (L : forall u, List.length (as_01 u) = List.length u) by (intros; apply map_length).
  assert (E : forallb (fun x => Nat.eqb (List.length x) (List.length (as_01 v))) (map as_01 vs) = true).
  { apply forallb_forall. intros x Hx. apply in_map_iff in Hx as (u & <- & Hu).
    rewrite !L. apply Nat.eqb_eq. apply (H u). right; exact Hu. }
  rewrite E. f_equal. change (as_01 v :: map as_01 vs) with (map as_01 (v :: vs)).
  rewrite columns_nth, map_map, L.
  replace (as_01 (reduced o (v :: vs))) with (map bit (reduced o (v :: vs))) by reflexivity.
  destruct o; cbn [reduced]; unfold every, some; rewrite map_map; cbn [hd]; apply map_ext;
    intros i; rewrite col_bits; reflexivity.
Qed.


Lemma raws_ok : forall w acs vs, held w acs vs ->
  exists acs', raws acs w = (Ok (map as_01 vs), acs', w) /\ held w acs' vs /\ Forall2 grows acs acs'.
Proof.
  intros w acs vs H. induction H as [|a v acs vs O H IH].
  - exists []. cbn. repeat split; constructor.
  - destruct IH as (acs' & E & H' & G). destruct (obtained_raw _ _ _ O) as (a' & E' & O' & G').
    exists (a' :: acs'). cbn [raws map]. rewrite E', E. repeat split; constructor; assumption.
Qed.

Lemma pairwise_ok : forall o w acs vs, held w acs vs -> forall r,
  (forall v, In v vs -> List.length v = List.length r) ->
  exists acs', pairwise o (as_01 r) acs w = (Ok (as_01 (reduced o (r :: vs))), acs', w) /\
    held w acs' vs /\ Forall2 grows acs acs'.
Proof.
  intros o w acs vs H. induction H as [|a v acs vs O H IH]; intros r L.
  - exists []. cbn [pairwise]. rewrite reduced_one. repeat split; constructor.
  - destruct (obtained_raw _ _ _ O) as (a' & E' & O' & G'). cbn [pairwise]. rewrite E'.
    assert (Lv : List.length r = List.length v) by (symmetry; apply L; left; reflexivity).
    pose proof (vstack_ok o r [v]) as V. cbn [map] in V. rewrite V.
    2:{ intros u [<-|[<-|[]]]; auto. }
    rewrite reduced_step, reduced_one by exact Lv.
    destruct (IH (pointwise (mbool o) r v)) as (acs' & E & H' & G).
    { intros u Hu. rewrite length_pointwise by exact Lv. apply L. right; exact Hu. }
    rewrite E. exists (a' :: acs'). rewrite reduced_step by exact Lv.
    repeat split; constructor; assumption.
Qed.

Lemma by_pairs_ok : forall o w acs vs, held w acs vs -> vs <> [] -> same_size vs ->
  exists acs', by_pairs o acs w = (Ok (as_01 (reduced o vs)), acs', w) /\ held w acs' vs /\ Forall2 grows acs acs'.
Proof.
  intros o w acs vs H N S. destruct H as [|a v acs vs O H]; [congruence|].
  destruct (obtained_raw _ _ _ O) as (a' & E' & O' & G'). cbn [by_pairs]. rewrite E'.
  destruct (pairwise_ok o w acs vs H v) as (acs' & E & H' & G).
  { intros u Hu. apply (S u). right; exact Hu. }
  rewrite E. exists (a' :: acs'). repeat split; constructor; assumption.
Qed.

Lemma obtained_tick : forall w a v, obtained w a v -> obtained (tick w) a v.
Proof.
  intros w a v O. eapply ob_keeps; [exact O|intros p c E; exact E|exact (obtained_i32 _ _ _ O)].
Qed.
Lemma held_tick : forall w acs vs, held w acs vs -> held (tick w) acs vs.
Proof. intros w acs vs H. induction H; constructor; auto using obtained_tick. Qed.

Lemma grows_list_trans : forall l1 l2 l3, Forall2 grows l1 l2 -> Forall2 grows l2 l3 -> Forall2 grows l1 l3.
Proof.
  intros l1 l2 l3 H. revert l3. induction H; intros l3 H3; inversion H3; subst; constructor; eauto using grows_trans.
Qed.
Lemma grows_list_refl : forall l, Forall2 grows l l.
Proof. induction l; constructor; auto using grows_refl. Qed.


Lemma multi_array_ok : forall o w acs vs, held w acs vs -> vs <> [] -> same_size vs ->
  ~ memory_exhausted w ->
  exists acs', multi_array o acs w = (Ok (as_01 (reduced o vs)), acs', tick (tick w)) /\
    held (tick (tick w)) acs' vs /\ Forall2 grows acs acs'.
Proof.
  intros o w acs vs H N S M. pose proof H as H0. destruct H as [|a v acs vs O H]; [congruence|].
  unfold multi_array.
  destruct (obtained_raw _ _ _ (obtained_tick _ _ _ O)) as (a' & E' & O' & G'). rewrite E'.
  cbn [w_mem w_clk tick]. unfold memory_exhausted in M.
  destruct (_ <? _) eqn:L; [apply Z.ltb_lt in L; lia|]. clear L.
  assert (H1 : held (tick (tick w)) (a' :: acs) (v :: vs)).
  { constructor; [apply obtained_tick, O'|apply held_tick, held_tick, H]. }
  assert (G1 : Forall2 grows (a :: acs) (a' :: acs)) by (constructor; [exact G'|apply grows_list_refl]).
  change (tick (tick w)) with (tick (tick w)) in *.
  destruct (_ <? _).
  - destruct (by_pairs_ok o (tick (tick w)) (a' :: acs) (v :: vs) H1 N S) as (acs' & E & H2 & G).
    exists acs'. rewrite E. repeat split; auto. eapply grows_list_trans; eauto.
  - destruct (raws_ok (tick (tick w)) (a' :: acs) (v :: vs) H1) as (acs' & E & H2 & G). rewrite E.
    destruct (w_oom _ _).
    + destruct (by_pairs_ok o (tick (tick w)) acs' (v :: vs) H2 N S) as (acs'' & E2 & H3 & G2).
      exists acs''. rewrite E2. repeat split; auto. eapply grows_list_trans; [|exact G2].
      eapply grows_list_trans; eauto.
    + exists acs'. rewrite vstack_ok by exact S. repeat split; auto. eapply grows_list_trans; eauto.
Qed.

Lemma multi_array_exhausted : forall o w acs vs, held w acs vs -> vs <> [] -> memory_exhausted w ->
  exists acs' w', multi_array o acs w = (Err EMemory, acs', w').
Proof.
  intros o w acs vs H N M. destruct H as [|a v acs vs O H]; [congruence|]. unfold multi_array.
  destruct (obtained_raw _ _ _ (obtained_tick _ _ _ O)) as (a' & E' & O' & G'). rewrite E'.
  cbn [w_mem w_clk tick]. unfold memory_exhausted in M.
  destruct (_ <? _) eqn:L; [|apply Z.ltb_ge in L; lia]. eexists _, _. reflexivity.
Qed.

Lemma all_files_grows : forall l l', Forall2 grows l l' -> all_files l' = all_files l.
Proof.
  intros l l' H. unfold all_files. induction H; [reflexivity|]. cbn. rewrite IHForall2, (is_fmt_grows _ _ _ H). reflexivity.
Qed.

Lemma Forall2_map : forall A B (P Q : A -> B -> Prop) l m,
  (forall x y, P x y -> Q x y) -> Forall2 P l m -> Forall2 Q l m.
Proof. intros A B P Q l m H F. induction F; constructor; auto. Qed.

Lemma Forall2_len : forall A B (P : A -> B -> Prop) l m, Forall2 P l m -> List.length l = List.length m.
Proof. intros A B P l m F. induction F; cbn; auto. Qed.

Lemma wrap_ok : forall w acs vs v, held w acs vs -> vs <> [] -> v <> [] ->
  size v = size (hd [] vs) ->
  cfg_fits (w_cfg w) v ->
  (all_files acs = true -> STORE_RAW (w_cfg w) = false -> w_fs w (next_name w) = None) ->
  exists r w', wrap_multi (Ok (as_01 v)) acs w = (Ok r, acs, w') /\ obtained w' r v /\ held w' acs vs /\
    keeps_files w w'.
Proof.
  intros w acs vs v H Nv N S F Nm.
  assert (Hf : fits_compressed_array v /\ int32_cast (w_i32 w)).
  { destruct H as [|a u acs vs O H]; [congruence|]. split; [|exact (obtained_i32 _ _ _ O)].
    unfold fits_compressed_array. rewrite S. exact (obtained_fits _ _ _ O). }
  destruct Hf as [Hf Hi].
  destruct (new_obtained w v (VArr (as_01 v)) None (forallb a_opt acs) (all_files acs)) as (r & w' & E & Ob & W & _); auto.
  - constructor.
  - unfold writes. rewrite lasts_as_01. cbn. intros B. apply andb_true_iff in B as [B1 B2].
    apply negb_true_iff in B2. auto.
  - unfold wrap_multi. fold (all_files acs). rewrite E. exists r, w'. split; [reflexivity|].
    split; [exact Ob|]. rewrite W. unfold writes. rewrite lasts_as_01. cbn.
    destruct (all_files acs && negb (STORE_RAW (w_cfg w))) eqn:B.
    + apply andb_true_iff in B as [B1 B2]. apply negb_true_iff in B2. split.
      * eapply Forall2_map; [|exact H]. intros a u. apply obtained_saved; auto.
      * apply keeps_saved; auto.
    + split; [exact H|]. intros p c Hp; exact Hp.
Qed.

Lemma size_reduced : forall o vs, size (reduced o vs) = size (hd [] vs).
Proof. intros; unfold size; rewrite length_reduced; reflexivity. Qed.
Lemma size_not_nil : forall v u : vec, size v = size u -> u <> [] -> v <> [].
Proof. intros v u S N ->. apply size_pos in N. unfold size in S at 1. cbn in S. lia. Qed.
Lemma held_hd : forall w acs vs, held w acs vs -> vs <> [] -> hd [] vs <> [].
Proof. intros w acs vs H N. destruct H; [congruence|]. exact (obtained_nil _ _ _ H). Qed.
Lemma cfg_fits_size : forall c v u, size v = size u -> cfg_fits c u -> cfg_fits c v.
Proof. intros c v u S F D. unfold fits_compressed_array. rewrite S. apply F, D. Qed.


Lemma multi_ok : forall o w acs vs, held w acs vs -> vs <> [] -> same_size vs ->
  cfg_fits (w_cfg w) (hd [] vs) ->
  (all_files acs = true -> STORE_RAW (w_cfg w) = false -> name_free_after 2 w) ->
  ~ memory_exhausted w ->
  exists r acs' w', multi_logical o acs w = (Ok r, acs', w') /\
    obtained w' r (reduced o vs) /\ held w' acs' vs /\ keeps_files w w'.
Proof.
  intros o w acs vs H N S F Nm M. unfold multi_logical.
  destruct (multi_array_ok o w acs vs H N S M) as (acs' & E & H' & G). rewrite E.
  destruct (wrap_ok (tick (tick w)) acs' vs (reduced o vs) H' N) as (r & w' & E2 & Ob & Hw & K).
  - eapply size_not_nil; [apply size_reduced|eapply held_hd; eauto].
  - apply size_reduced.
  - eapply cfg_fits_size; [apply size_reduced|exact F].
  - rewrite (all_files_grows _ _ G). exact Nm.
  - exists r, acs', w'. rewrite E2. auto.
Qed.

(** ** exclusive or *)
Lemma nland_01 : forall v, map (fun x => ubyte (- ubyte (x - 1))) (as_01 v) = as_01 (map negb v).
Proof.
  unfold as_01. induction v as [|b t IH]; [reflexivity|]. cbn [map]. rewrite IH. destruct b; reflexivity.
Qed.
Lemma zip_land_01 : forall v1 v2, zipw Z.land (as_01 v1) (as_01 v2) = as_01 (pointwise andb v1 v2).
Proof.
  unfold pointwise, as_01. induction v1 as [|b t IH]; intros [|c u]; try reflexivity.
  cbn. f_equal; [destruct b, c; reflexivity|apply IH].
Qed.
Lemma differ_eq : forall vs, pointwise andb (some vs) (map negb (every vs)) = differ vs.
Proof.
  intros vs. unfold some, every, differ. generalize (seq 0 (List.length (hd [] vs))). intros l.
  unfold pointwise. induction l as [|i l IH]; [reflexivity|]. cbn [map combine fst snd]. f_equal. exact IH.
Qed.

Lemma multi_xor_ok : forall w acs vs, held w acs vs -> (2 <= List.length vs)%nat -> same_size vs ->
  cfg_fits (w_cfg w) (hd [] vs) ->
  (all_files acs = true -> STORE_RAW (w_cfg w) = false -> name_free_after 4 w) ->
  ~ memory_exhausted w -> ~ memory_exhausted (tick (tick w)) ->
  exists r acs' w', multi_logical_xor acs w = (Ok r, acs', w') /\
    obtained w' r (differ vs) /\ held w' acs' vs /\ keeps_files w w'.
Proof.
  intros w acs vs H L S F Nm M1 M2.
  assert (N : vs <> []) by (intros ->; cbn in L; lia).
  assert (E0 : multi_logical_xor acs w = match multi_xor_array acs w with (r, acs', w') => wrap_multi r acs' w' end).
  { pose proof (Forall2_len _ _ _ _ _ H) as Le. destruct acs as [|a [|b acs]]; try reflexivity. cbn in Le. lia. }
  rewrite E0. unfold multi_xor_array.
  destruct (multi_array_ok MAny w acs vs H N S M1) as (acs1 & E1 & H1 & G1). rewrite E1.
  destruct (multi_array_ok MAll (tick (tick w)) acs1 vs H1 N S M2) as (acs2 & E2 & H2 & G2). rewrite E2.
  cbn [reduced]. rewrite nland_01.
  rewrite np_zip_same.
  2:{ rewrite !len_as_01. unfold size. rewrite map_length. f_equal.
      exact (eq_trans (length_reduced MAny vs) (eq_sym (length_reduced MAll vs))). }
  rewrite zip_land_01, differ_eq.
  assert (Sd : size (differ vs) = size (hd [] vs)).
  { unfold size, differ. rewrite map_length, seq_length. reflexivity. }
  destruct (wrap_ok (tick (tick (tick (tick w)))) acs2 vs (differ vs) H2 N) as (r & w' & E3 & Ob & Hw & K).
  - eapply size_not_nil; [exact Sd|eapply held_hd; eauto].
  - exact Sd.
  - eapply cfg_fits_size; [exact Sd|exact F].
  - rewrite (all_files_grows _ _ G2), (all_files_grows _ _ G1). exact Nm.
  - exists r, acs2, w'. rewrite E3. auto.
Qed.

Lemma multi_xor_single : forall w a v, obtained w a v ->
  cfg_fits (w_cfg w) v ->
  (a_fmt a = Some FFile -> STORE_RAW (w_cfg w) = false -> w_fs w (next_name w) = None) ->
  exists r a' w', multi_logical_xor [a] w = (Ok r, [a'], w') /\ obtained w' r v /\ obtained w' a' v /\
    keeps_files w w'.
Proof.
  intros w a v O F Nm. unfold multi_logical_xor.
  destruct (obtained_raw _ _ _ O) as (a' & E & O' & G). rewrite E.
  destruct (wrap_ok w [a'] [v] v) as (r & w' & E2 & Ob & Hw & K); auto.
  - repeat constructor; exact O'.
  - discriminate.
  - exact (obtained_nil _ _ _ O).
  - unfold all_files. cbn. rewrite andb_true_r. intros B. apply is_fmt_true in B.
    rewrite (g_fmt _ _ G) in B. auto.
  - unfold wrap_multi in E2. cbn [forallb] in E2. rewrite !andb_true_r in E2.
    destruct (new _ _ _ _ _ _) as [z w1] eqn:E3. injection E2 as -> ->.
    exists r, a', w'. split; [reflexivity|]. split; [exact Ob|]. inversion Hw; subst. auto.
Qed.

Lemma differ_two : forall v1 v2, List.length v1 = List.length v2 -> differ [v1; v2] = pointwise xorb v1 v2.
Proof.
  intros v1 v2 H. unfold differ. cbn [hd].
  rewrite <- (map_nth_seq _ (pointwise xorb v1 v2) false), length_pointwise by exact H.
  apply map_ext_in. intros i Hi. apply in_seq in Hi. rewrite nth_pointwise by lia.
  cbn. destruct (nth i v1 false), (nth i v2 false); reflexivity.
Qed.
