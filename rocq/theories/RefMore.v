(** Proofs about the lists of conditions as objects: edits, setters, trees. *)
From Coq Require Import List ZArith QArith Bool String Lia.
From Coq Require Import List.
From Verif Require Import Base Num CondModel RuleModel PredModel SetModel TreeModel TreeProofs TreeVisit RefModel RefSpec RefProofs RefAnd.
Import ListNotations.
Open Scope string_scope.
Open Scope list_scope.
Open Scope Z_scope.

(** ** Edits *)

Lemma edit_conds e H : h_conds (apply_edit e H) = h_conds H.
Proof. destruct e; reflexivity. Qed.

Lemma edits_conds es H : h_conds (apply_edits es H) = h_conds H.
Proof.
  unfold apply_edits. revert H. induction es as [|e es IH]; intros H; cbn [fold_left]; auto. rewrite IH. apply edit_conds.
Qed.

Lemma edit_other e H c : ~ touches e (h_conds H c) -> view (apply_edit e H) c = view H c.
Proof.
  intros N. unfold view. rewrite edit_conds. destruct (h_conds H c) as [i m M n b] eqn:E. unfold deref. cbn [o_idx o_min o_max o_names o_imp].
  destruct e as [a l|a l|a l]; cbn in N |- *; f_equal.
  - destruct i as [x|]; cbn; auto. rewrite update_ne; auto. intros ->. apply N. constructor; auto.
  - destruct m as [x|]; cbn; auto. rewrite update_ne; auto. intros ->. apply N. constructor; auto.
  - destruct M as [x|]; cbn; auto. rewrite update_ne; auto. intros ->. apply N. constructor 2; auto.
  - destruct n as [x|]; cbn; auto. rewrite update_ne; auto. intros ->. apply N. constructor; auto.
Qed.

Lemma touches_holds e o : touches e o -> holds o (edited e).
Proof. destruct e; cbn; intros T; [left|right; left|right; right]; auto. Qed.

Lemma edits_other es : forall H c, Forall (fun e => ~ holds (h_conds H c) (edited e)) es -> view (apply_edits es H) c = view H c.
Proof.
  induction es as [|e es IH]; intros H c F; [reflexivity|]. inversion F as [|? ? N F']; subst.
  unfold apply_edits. cbn [fold_left]. fold (apply_edits es (apply_edit e H)). rewrite IH by (rewrite edit_conds; exact F').
  apply edit_other. intros T. apply N, touches_holds, T.
Qed.

(** Where it shows *)
Lemma edit_ints_shows H c a l : o_idx (h_conds H c) = Some a ->
  view (put_ints a l H) c = mkCond (Some l) (c_min (view H c)) (c_max (view H c)) (c_names (view H c)) (c_imp (view H c)).
Proof. intros E. unfold view, deref. cbn. rewrite E. cbn. rewrite update_eq. reflexivity. Qed.

Lemma edit_texts_shows H c a l : o_names (h_conds H c) = Some a ->
  view (put_texts a l H) c = mkCond (c_idx (view H c)) (c_min (view H c)) (c_max (view H c)) (Some l) (c_imp (view H c)).
Proof. intros E. unfold view, deref. cbn. rewrite E. cbn. rewrite update_eq. reflexivity. Qed.

Lemma edit_nums_shows H c a l :
  c_idx (view (put_nums a l H) c) = c_idx (view H c) /\ c_names (view (put_nums a l H) c) = c_names (view H c) /\
  c_imp (view (put_nums a l H) c) = c_imp (view H c) /\
  (o_min (h_conds H c) = Some a -> c_min (view (put_nums a l H) c) = Some l) /\
  (o_min (h_conds H c) <> Some a -> c_min (view (put_nums a l H) c) = c_min (view H c)) /\
  (o_max (h_conds H c) = Some a -> c_max (view (put_nums a l H) c) = Some l) /\
  (o_max (h_conds H c) <> Some a -> c_max (view (put_nums a l H) c) = c_max (view H c)).
Proof.
  unfold view, deref. cbn. do 3 (split; [reflexivity|]). split; [|split; [|split]].
  - intros ->. cbn. rewrite update_eq. auto.
  - destruct (o_min (h_conds H c)) as [x|]; cbn; auto. intros N. rewrite update_ne by congruence. auto.
  - intros ->. cbn. rewrite update_eq. auto.
  - destruct (o_max (h_conds H c)) as [x|]; cbn; auto. intros N. rewrite update_ne by congruence. auto.
Qed.

(** New conditions and old lists *)
Lemma brand_new_independent H H' c es : brand_new H H' c -> Forall (fun e => edited e < h_next H)%nat es ->
  view (apply_edits es H') c = view H' c.
Proof.
  intros (_ & _ & N & _) F. apply edits_other. revert F. apply Forall_impl. intros e L X. specialize (N _ X). lia.
Qed.

Lemma brand_new_harmless H H' c d es : keeps H H' -> brand_new H H' c -> exists_in H d ->
  Forall (fun e => holds (h_conds H' c) (edited e)) es -> view (apply_edits es H') d = view H d.
Proof.
  intros K (_ & _ & N & _) X F. rewrite <- (view_kept _ _ _ K X). apply edits_other.
  destruct (proj2 K d (proj1 X)) as (_ & _ & _ & E). rewrite E. destruct X as (_ & X).
  revert F. apply Forall_impl. intros e L Y. specialize (N _ L). specialize (X _ Y). lia.
Qed.

(** ** Setters *)

Lemma keeps_but_put c o H : keeps_but c H (snd (put_cond c o H)).
Proof. split; cbn; [lia|]. intros a A. do 3 (split; [auto|]). intros N. rewrite update_ne; auto. Qed.

Lemma keeps_but_trans c H H1 H2 : keeps_but c H H1 -> keeps_but c H1 H2 -> keeps_but c H H2.
Proof.
  intros (L & K) (L1 & K1). split; [lia|]. intros a A. destruct (K a A) as (E1 & E2 & E3 & E4). destruct (K1 a) as (F1 & F2 & F3 & F4); [lia|].
  rewrite F1, F2, F3. do 3 (split; [auto|]). intros N. rewrite F4, E4; auto.
Qed.

(** The list that a setter puts: the one given, or a new one *)
Definition put_there {A} (H : heap) (v : source A) (a : nat) : Prop :=
  match v with SList b => a = b | SText _ => (h_next H <= a)%nat end.

Lemma clen_view H c n : r_wrong_length c n H = (Ok ((0 <? clen (view H c))%nat && negb (clen (view H c) =? n)%nat), H).
Proof. reflexivity. Qed.

Lemma r_set_indexes_spec v c H o H' : exists_in H c -> source_there H v -> r_set_indexes v c H = (o, H') ->
  keeps_but c H H' /\ (o, view H' c) = set_features_indexes (meant (h_ints H) v) (view H c) /\
  (o = Ok tt -> exists a, put_there H v a /\ o_idx (h_conds H' c) = Some a /\ (a < h_next H')%nat /\
     o_min (h_conds H' c) = o_min (h_conds H c) /\ o_max (h_conds H' c) = o_max (h_conds H c) /\ o_names (h_conds H' c) = o_names (h_conds H c)).
Proof.
  intros X Y R. unfold r_set_indexes in R. apply bindp_inv in R as (x & H1 & E & R).
  assert (P : match x with
              | Ok a => keeps H H1 /\ read_list (meant (h_ints H) v) = Ok (h_ints H1 a) /\ put_there H v a /\ (a < h_next H1)%nat
              | Err e => H1 = H /\ read_list (meant (h_ints H) v) = Err e end).
  { destruct v as [a|[l|e]]; cbn in E; injection E as <- <-; cbn; auto.
    - split; [apply keeps_refl|]. auto.
    - split; [exact (new_ints_keeps l H)|]. rewrite update_eq. split; [auto|]. lia. }
  unfold set_features_indexes. destruct x as [a|e].
  2:{ destruct P as (-> & ->). destruct R as (-> & ->). split; [apply keeps_but_of, keeps_refl|]. split; [reflexivity|discriminate]. }
  destruct P as (K & -> & Pt & Pl).
  apply bindp_inv in R as (x & H2 & E2 & R). injection E2 as <- <-.
  rewrite <- (view_kept _ _ _ K X). 
  destruct (has_dup Z.eqb (h_ints H1 a)).
  { injection R as <- <-. split; [apply keeps_but_of, K|]. split; [reflexivity|discriminate]. }
  apply bindp_inv in R as (x & H2 & E2 & R). rewrite clen_view in E2. injection E2 as <- <-. unfold wrong_length.
  destruct ((0 <? clen (view H1 c))%nat && negb (clen (view H1 c) =? List.length (h_ints H1 a))%nat).
  { injection R as <- <-. split; [apply keeps_but_of, K|]. split; [reflexivity|discriminate]. }
  apply bindp_inv in R as (x & H2 & E2 & R). injection E2 as <- <-. injection R as <- <-.
  destruct (proj2 K c (proj1 X)) as (_ & _ & _ & Ec).
  split; [exact (keeps_but_trans _ _ _ _ (keeps_but_of c _ _ K) (keeps_but_put _ _ _))|].
  unfold view, deref. cbn. rewrite update_eq. cbn. split; [reflexivity|]. intros _. exists a. rewrite Ec. auto 10.
Qed.

Lemma r_set_names_spec v c H o H' : exists_in H c -> source_there H v -> r_set_names v c H = (o, H') ->
  keeps_but c H H' /\ (o, view H' c) = set_features_names (meant (h_texts H) v) (view H c) /\
  (o = Ok tt -> exists a, put_there H v a /\ o_names (h_conds H' c) = Some a /\ (a < h_next H')%nat /\
     o_idx (h_conds H' c) = o_idx (h_conds H c) /\ o_min (h_conds H' c) = o_min (h_conds H c) /\ o_max (h_conds H' c) = o_max (h_conds H c)).
Proof.
  intros X Y R. unfold r_set_names in R. apply bindp_inv in R as (x & H1 & E & R).
  assert (P : match x with
              | Ok a => keeps H H1 /\ read_list (meant (h_texts H) v) = Ok (h_texts H1 a) /\ put_there H v a /\ (a < h_next H1)%nat
              | Err e => H1 = H /\ read_list (meant (h_texts H) v) = Err e end).
  { destruct v as [a|[l|e]]; cbn in E; injection E as <- <-; cbn; auto.
    - split; [apply keeps_refl|]. auto.
    - split; [exact (new_texts_keeps l H)|]. rewrite update_eq. split; [auto|]. lia. }
  unfold set_features_names. destruct x as [a|e].
  2:{ destruct P as (-> & ->). destruct R as (-> & ->). split; [apply keeps_but_of, keeps_refl|]. split; [reflexivity|discriminate]. }
  destruct P as (K & -> & Pt & Pl).
  apply bindp_inv in R as (x & H2 & E2 & R). injection E2 as <- <-.
  rewrite <- (view_kept _ _ _ K X).
  destruct (has_dup str_eqb (h_texts H1 a)).
  { injection R as <- <-. split; [apply keeps_but_of, K|]. split; [reflexivity|discriminate]. }
  apply bindp_inv in R as (x & H2 & E2 & R). rewrite clen_view in E2. injection E2 as <- <-. unfold wrong_length.
  destruct ((0 <? clen (view H1 c))%nat && negb (clen (view H1 c) =? List.length (h_texts H1 a))%nat).
  { injection R as <- <-. split; [apply keeps_but_of, K|]. split; [reflexivity|discriminate]. }
  apply bindp_inv in R as (x & H2 & E2 & R). injection E2 as <- <-. injection R as <- <-.
  destruct (proj2 K c (proj1 X)) as (_ & _ & _ & Ec).
  split; [exact (keeps_but_trans _ _ _ _ (keeps_but_of c _ _ K) (keeps_but_put _ _ _))|].
  unfold view, deref. cbn. rewrite update_eq. cbn. split; [reflexivity|]. intros _. exists a. rewrite Ec. auto 10.
Qed.

Lemma r_flag_spec c H o H' : exists_in H c -> r_flag c H = (o, H') ->
  keeps_but c H H' /\ (o, view H' c) = flag_impossible (view H c) /\
  o_idx (h_conds H' c) = o_idx (h_conds H c) /\ o_min (h_conds H' c) = o_min (h_conds H c) /\
  o_max (h_conds H' c) = o_max (h_conds H c) /\ o_names (h_conds H' c) = o_names (h_conds H c) /\ h_next H' = h_next H.
Proof.
  intros X R. unfold r_flag in R. apply bindp_inv in R as (x & H1 & E & R). injection E as <- <-.
  unfold flag_impossible. destruct (view_fields H c) as (_ & -> & -> & _).
  destruct (h_conds H c) as [i [m|] [M|] n b] eqn:Ec; cbn [o_idx o_min o_max o_names o_imp] in *;
    try (cbn in R; injection R as <- <-; rewrite Ec; split; [apply keeps_but_of, keeps_refl|]; auto 10).
  cbn [need option_map] in *. cbn in R.
  destruct (some_above (h_nums H m) (h_nums H M)).
  - injection R as <- <-. split; [exact (keeps_but_put _ _ _)|]. unfold view, deref. cbn. rewrite Ec, update_eq. cbn. auto 10.
  - injection R as <- <-. split; [apply keeps_but_of, keeps_refl|]. unfold view, deref. rewrite Ec. cbn. auto 10.
Qed.

Lemma bounds_of_spec v H x H1 : source_there H v -> bounds_of v H = (x, H1) ->
  match x with
  | Ok a => keeps H H1 /\ read_bounds (meant (h_nums H) v) = Ok (h_nums H1 a) /\ put_there H v a /\ (a < h_next H1)%nat
  | Err e => H1 = H /\ read_bounds (meant (h_nums H) v) = Err e
  end.
Proof.
  intros Y E. unfold bounds_of in E. destruct v as [a|r].
  - injection E as <- <-. split; [apply keeps_refl|]. cbn in *. auto.
  - apply bindp_inv in E as (y & H2 & E2 & E). injection E2 as <- <-. unfold read_bounds, meant.
    destruct (rbind r (fun l => rseq (map to_int l))) as [l|e].
    + injection E as <- <-. split; [exact (new_nums_keeps l H)|]. cbn. rewrite update_eq. split; [auto|]. lia.
    + destruct E as (-> & ->). auto.
Qed.

Lemma r_set_bmins_spec v c H o H' : exists_in H c -> source_there H v -> r_set_bmins v c H = (o, H') ->
  keeps_but c H H' /\ (o, view H' c) = set_bmins (meant (h_nums H) v) (view H c) /\
  (o = Ok tt -> exists a, put_there H v a /\ o_min (h_conds H' c) = Some a /\ (a < h_next H')%nat /\
     o_idx (h_conds H' c) = o_idx (h_conds H c) /\ o_max (h_conds H' c) = o_max (h_conds H c) /\ o_names (h_conds H' c) = o_names (h_conds H c)).
Proof.
  intros X Y R. unfold r_set_bmins in R. apply bindp_inv in R as (x & H1 & E & R). apply (bounds_of_spec _ _ _ _ Y) in E.
  unfold set_bmins. destruct x as [a|e].
  2:{ destruct E as (-> & ->). destruct R as (-> & ->). split; [apply keeps_but_of, keeps_refl|]. split; [reflexivity|discriminate]. }
  destruct E as (K & -> & Pt & Pl).
  apply bindp_inv in R as (x & H2 & E2 & R). injection E2 as <- <-.
  rewrite <- (view_kept _ _ _ K X).
  apply bindp_inv in R as (x & H2 & E2 & R). rewrite clen_view in E2. injection E2 as <- <-. unfold wrong_length.
  destruct ((0 <? clen (view H1 c))%nat && negb (clen (view H1 c) =? List.length (h_nums H1 a))%nat).
  { injection R as <- <-. split; [apply keeps_but_of, K|]. split; [reflexivity|discriminate]. }
  apply bindp_inv in R as (x & H2 & E2 & R). injection E2 as <- <-.
  apply bindp_inv in R as (x & H2 & E2 & R).
  destruct (proj2 K c (proj1 X)) as (_ & _ & _ & Ec).
  pose proof (exists_kept _ _ _ K X) as (X1 & X1').
  assert (K2 : keeps_but c H1 H2) by (injection E2 as _ <-; exact (keeps_but_put _ _ _)).
  assert (C2 : h_conds H2 c = mkRobj (o_idx (h_conds H c)) (Some a) (o_max (h_conds H c)) (o_names (h_conds H c)) (o_imp (h_conds H c)) /\
               h_next H2 = h_next H1).
  { injection E2 as _ <-. cbn. rewrite update_eq, Ec. auto. }
  assert (V2 : view H2 c = mkCond (c_idx (view H1 c)) (Some (h_nums H1 a)) (c_max (view H1 c)) (c_names (view H1 c)) (c_imp (view H1 c))).
  { injection E2 as _ <-. unfold view, deref. cbn. rewrite update_eq. reflexivity. }
  destruct x as [[]|e]; [|discriminate E2]. destruct C2 as (C2 & N2).
  rewrite <- V2. apply r_flag_spec in R.
  2:{ split; [lia|]. rewrite C2, N2, <- Ec. intros z Z. apply holds_mk in Z. destruct Z as [Z|[Z|[Z|Z]]]; [|injection Z as <-; exact Pl| |]; apply X1'.
      - left; constructor; auto.
      - right; left; constructor 2; auto.
      - right; right; constructor; auto. }
  destruct R as (K3 & V3 & S1 & S2 & S3 & S4 & N3). rewrite C2 in S1, S2, S3, S4. cbn in S1, S2, S3, S4.
  split; [exact (keeps_but_trans _ _ _ _ (keeps_but_of c _ _ K) (keeps_but_trans _ _ _ _ K2 K3))|]. split; [exact V3|].
  intros _. exists a. split; [exact Pt|]. split; [exact S2|]. split; [lia|]. auto.
Qed.

Lemma r_set_bmaxs_spec v c H o H' : exists_in H c -> source_there H v -> r_set_bmaxs v c H = (o, H') ->
  keeps_but c H H' /\ (o, view H' c) = set_bmaxs (meant (h_nums H) v) (view H c) /\
  (o = Ok tt -> exists a, put_there H v a /\ o_max (h_conds H' c) = Some a /\ (a < h_next H')%nat /\
     o_idx (h_conds H' c) = o_idx (h_conds H c) /\ o_min (h_conds H' c) = o_min (h_conds H c) /\ o_names (h_conds H' c) = o_names (h_conds H c)).
Proof.
  intros X Y R. unfold r_set_bmaxs in R. apply bindp_inv in R as (x & H1 & E & R). apply (bounds_of_spec _ _ _ _ Y) in E.
  unfold set_bmaxs. destruct x as [a|e].
  2:{ destruct E as (-> & ->). destruct R as (-> & ->). split; [apply keeps_but_of, keeps_refl|]. split; [reflexivity|discriminate]. }
  destruct E as (K & -> & Pt & Pl).
  apply bindp_inv in R as (x & H2 & E2 & R). injection E2 as <- <-.
  rewrite <- (view_kept _ _ _ K X).
  apply bindp_inv in R as (x & H2 & E2 & R). rewrite clen_view in E2. injection E2 as <- <-. unfold wrong_length.
  destruct ((0 <? clen (view H1 c))%nat && negb (clen (view H1 c) =? List.length (h_nums H1 a))%nat).
  { injection R as <- <-. split; [apply keeps_but_of, K|]. split; [reflexivity|discriminate]. }
  apply bindp_inv in R as (x & H2 & E2 & R). injection E2 as <- <-.
  apply bindp_inv in R as (x & H2 & E2 & R).
  destruct (proj2 K c (proj1 X)) as (_ & _ & _ & Ec).
  pose proof (exists_kept _ _ _ K X) as (X1 & X1').
  assert (K2 : keeps_but c H1 H2) by (injection E2 as _ <-; exact (keeps_but_put _ _ _)).
  assert (C2 : h_conds H2 c = mkRobj (o_idx (h_conds H c)) (o_min (h_conds H c)) (Some a) (o_names (h_conds H c)) (o_imp (h_conds H c)) /\
               h_next H2 = h_next H1).
  { injection E2 as _ <-. cbn. rewrite update_eq, Ec. auto. }
  assert (V2 : view H2 c = mkCond (c_idx (view H1 c)) (c_min (view H1 c)) (Some (h_nums H1 a)) (c_names (view H1 c)) (c_imp (view H1 c))).
  { injection E2 as _ <-. unfold view, deref. cbn. rewrite update_eq. reflexivity. }
  destruct x as [[]|e]; [|discriminate E2]. destruct C2 as (C2 & N2).
  rewrite <- V2. apply r_flag_spec in R.
  2:{ split; [lia|]. rewrite C2, N2, <- Ec. intros z Z. apply holds_mk in Z. destruct Z as [Z|[Z|[Z|Z]]]; [| |injection Z as <-; exact Pl|]; apply X1'.
      - left; constructor; auto.
      - right; left; constructor; auto.
      - right; right; constructor; auto. }
  destruct R as (K3 & V3 & S1 & S2 & S3 & S4 & N3). rewrite C2 in S1, S2, S3, S4. cbn in S1, S2, S3, S4.
  split; [exact (keeps_but_trans _ _ _ _ (keeps_but_of c _ _ K) (keeps_but_trans _ _ _ _ K2 K3))|]. split; [exact V3|].
  intros _. exists a. split; [exact Pt|]. split; [exact S3|]. split; [lia|]. auto.
Qed.
