(** Predictions of classification rules with stacked activations. *)
From Coq Require Import List ZArith QArith Bool String Ascii Lia Lqa.
From Coq Require Import List.
From Verif Require Import Base Num Arith CondModel CondSpec CondBase ThrModel ThrProofs MetModel MetSpec MetReg MetClass RuleModel
  RuleSpec RuleProofs RuleValues RuleEval RuleMisc PredModel PredSpec PredReg PredEqual PredStack PredVote.
Import ListNotations.
Open Scope string_scope.
Open Scope list_scope.
Open Scope Z_scope.

(** ** Without weights, without stacked activations *)

Lemma dset_same k (v : num) d : In (k, v) (dset k v d).
Proof.
  induction d as [|[j w] d IH]; cbn [dset]; [left; auto|]. destruct (str_eqb k j) eqn:X; [|right; auto].
  apply String.eqb_eq in X. subst. left. auto.
Qed.

Lemma dset_kept k (v : num) d s : In (s, v) d -> In (s, v) (dset k v d).
Proof.
  induction d as [|[j w] d IH]; [contradiction|]. cbn [dset]. intros [H|H].
  - injection H as -> ->. destruct (str_eqb k s) eqn:X; [|left; auto]. apply String.eqb_eq in X. subst. left. auto.
  - destruct (str_eqb k j); right; auto.
Qed.

Lemma ones_in names : forall d s, In s names \/ In (s, Fin 1) d -> In (s, Fin 1) (fold_left (fun d n => dset n (Fin 1) d) names d).
Proof.
  induction names as [|s t IH]; intros d x; cbn [fold_left].
  - intros [[]|H]; auto.
  - intros H. apply IH. destruct H as [[<-|H]|H]; auto using dset_same, dset_kept.
Qed.

Lemma ones_keys s d x : In x (map fst (dset s (Fin 1) d)) -> x = s \/ In x (map fst d).
Proof.
  induction d as [|[k v] d IH]; cbn [dset map fst In]; [intros [H|[]]; auto|].
  destruct (str_eqb s k); cbn [map fst In]; intros [H|H]; subst; auto. destruct (IH H); auto.
Qed.

Lemma ones_nodup names : forall d, NoDup (map fst d) -> NoDup (map fst (fold_left (fun d n => dset n (Fin 1) d) names d)).
Proof.
  induction names as [|s t IH]; intros d N; cbn [fold_left]; auto. apply IH. clear IH.
  induction d as [|[k v] d IH]; cbn [dset map fst]; [repeat constructor; auto|]. cbn [map fst] in N. inversion N as [|? ? N1 N2]. subst.
  destruct (str_eqb s k) eqn:X; cbn [map fst].
  - apply String.eqb_eq in X. subst. constructor; auto.
  - constructor; [|auto]. intros I. destruct (ones_keys _ _ _ I) as [->|Y]; [|contradiction].
    unfold str_eqb in X. rewrite String.eqb_refl in X. discriminate.
Qed.

Lemma one_as_casts {A} E (value : A -> obj) xs rules bs ws :
  (forall r, In r rules -> exists s, called E r s /\ In (s, Fin 1) ws) ->
  collected (casts_one value xs) rules bs -> collected (casts E ws value xs) rules bs.
Proof.
  intros H C. induction C as [|r t bs C _ IH|r t b bs C _ IH]; [constructor| |].
  - apply collected_none; [|apply IH; intros x X; apply H; right; auto]. destruct (H r) as (s & S & _); [left; auto|].
    inversion C; subst. apply casts_absent with s; auto.
  - apply collected_some; [|apply IH; intros x X; apply H; right; auto]. destruct (H r) as (s & S & I); [left; auto|].
    inversion C; subst. apply casts_vote with s; auto. discriminate.
Qed.

Lemma names_listed E rules : (forall r, In r rules -> exists s, called E r s) ->
  exists names, rseq (map (rule_name E) rules) = Ok names /\ forall r, In r rules -> exists s, called E r s /\ In s names.
Proof.
  intros H. induction rules as [|r t IH]; [exists []; split; auto; intros r []|].
  destruct IH as (names & N & L); [intros x X; apply H; right; auto|]. destruct (H r) as (s & S); [left; auto|].
  exists (s :: names). cbn [map rseq]. rewrite (called_name E r s S), N. split; auto.
  intros x [->|X]; [exists s; split; [auto|left; auto]|]. destruct (L x X) as (s' & S' & I). exists s'. split; [auto|right; auto].
Qed.

Lemma equal_votes E rules xs bs n :
  (forall r, In r rules -> exists s, called E r s) -> all_present xs rules -> collected (casts_one class_object xs) rules bs -> rows n bs ->
  (forall b, In b bs -> comparable (b_value b)) -> somebody n bs ->
  exists l, equal_classificator_unstacked E rules xs = Ok l /\ each_row n (LNum NaN) l (fun i x => is_verdict i bs x).
Proof.
  intros NM AP C R CM SB. unfold equal_classificator_unstacked. destruct (names_listed E rules NM) as (names & -> & L). cbn [rbind].
  apply (weighted_votes E rules _ xs bs n); auto.
  - apply ones_nodup. constructor.
  - apply (one_as_casts E class_object xs rules bs); auto. intros r I. destruct (L r I) as (s & S & X). exists s. split; auto.
    apply ones_in. auto.
  - intros b B. split; [|auto]. destruct (one_weight _ _ _ _ C b B) as (-> & _). reflexivity.
Qed.

(** ** Modes *)

(** [c] is more frequent than any other class. *)
Definition leads (L : list label) (c : label) : Prop :=
  (0 < frequency c L)%nat /\ forall d, In d L -> ~ same_class c d -> (frequency d L < frequency c L)%nat.

Lemma frequency_same c d L : same_class c d -> frequency c L = frequency d L.
Proof.
  intros S. unfold frequency. f_equal. apply filter_ext. intros x. destruct (label_eqb d x) eqn:X.
  - apply label_eqb_spec. apply label_eqb_spec in X. eapply same_class_trans; eauto.
  - apply label_eqb_false. apply label_eqb_false in X. intros Y. apply X. eapply same_class_trans; [apply same_class_sym; eauto|auto].
Qed.

Lemma frequency_pos c L : (0 < frequency c L)%nat <-> exists d, In d L /\ same_class c d.
Proof.
  unfold frequency. split.
  - destruct (filter (label_eqb c) L) as [|d t] eqn:X; [cbn; lia|]. intros _.
    assert (D : In d (filter (label_eqb c) L)) by (rewrite X; left; auto). apply filter_In in D as (D1 & D2).
    apply label_eqb_spec in D2. eauto.
  - intros (d & D1 & D2). assert (D : In d (filter (label_eqb c) L)) by (apply filter_In; split; auto; apply label_eqb_spec; auto).
    destruct (filter (label_eqb c) L); [contradiction|cbn; lia].
Qed.

Lemma label_mem c l : mem label_eqb c l = true <-> exists d, In d l /\ same_class c d.
Proof.
  unfold mem. rewrite existsb_exists. split; intros (d & D1 & D2); exists d; split; auto; apply label_eqb_spec; auto.
Qed.

Lemma set_labels L : (forall c, In c L -> comparable c) ->
  (forall c, In c (set_of label_eqb L) -> In c L) /\
  (forall c, In c L -> exists d, In d (set_of label_eqb L) /\ same_class c d) /\
  ForallOrdPairs (fun c d => ~ same_class c d) (set_of label_eqb L).
Proof.
  induction L as [|c t IH]; intros CM; [split; [auto|split; [intros c []|constructor]]|].
  destruct IH as (I1 & I2 & I3); [intros x X; apply CM; right; auto|]. cbn [set_of].
  destruct (mem label_eqb c (set_of label_eqb t)) eqn:M.
  - apply label_mem in M as (d & D1 & D2). split; [intros x X; right; auto|]. split; auto.
    intros x [<-|X]; eauto.
  - assert (N : forall d, In d (set_of label_eqb t) -> ~ same_class c d).
    { intros d D S. assert (mem label_eqb c (set_of label_eqb t) = true) by (apply label_mem; eauto). congruence. }
    split; [intros x [<-|X]; [left; auto|right; auto]|]. split.
    + intros x [<-|X].
      * exists c. split; [left; auto|]. apply comparable_same. apply CM. left. auto.
      * destruct (I2 x X) as (d & D1 & D2). exists d. split; [right; auto|auto].
    + constructor; auto. rewrite Forall_forall. auto.
Qed.

Lemma list_max_spec l : l <> [] -> In (list_max l) l /\ forall x, In x l -> (x <= list_max l)%nat.
Proof.
  intros N. assert (G : forall x, In x l -> (x <= list_max l)%nat).
  { intros x X. assert (F : Forall (fun k => (k <= list_max l)%nat) l) by (apply list_max_le; auto).
    rewrite Forall_forall in F. auto. }
  split; auto. clear G. induction l as [|x t IH]; [congruence|]. cbn [list_max fold_right]. fold (list_max t).
  destruct t as [|y t]; [cbn; left; lia|]. destruct (Nat.max_dec x (list_max (y :: t))) as [E|E]; rewrite E; [left; auto|].
  right. apply IH. discriminate.
Qed.

Definition top_classes (L : list label) : list label :=
  filter (fun c => (frequency c L =? list_max (map (fun c => frequency c L) L))%nat) (set_of label_eqb L).

Lemma pairs_distinct {A} (R : A -> A -> Prop) x y t : ForallOrdPairs R (x :: y :: t) -> R x y.
Proof. intros F. inversion F as [|? ? H _]. subst. rewrite Forall_forall in H. apply H. left. auto. Qed.

Lemma pairs_filter {A} (R : A -> A -> Prop) f l : ForallOrdPairs R l -> ForallOrdPairs R (filter f l).
Proof.
  induction 1 as [|x t H _ IH]; [constructor|]. cbn [filter]. destruct (f x); auto. constructor; auto.
  rewrite Forall_forall in *. intros y Y. apply filter_In in Y. apply H. tauto.
Qed.

Lemma top_classes_spec L : (forall c, In c L -> comparable c) ->
  (exists c, top_classes L = [c] /\ leads L c) \/ ((forall c, top_classes L <> [c]) /\ forall c, ~ leads L c).
Proof.
  intros CM. destruct (set_labels L CM) as (I1 & I2 & I3).
  destruct L as [|c0 L0] eqn:EL.
  { right. split; [discriminate|]. intros c (P & _). cbn in P. lia. }
  rewrite <- EL in *. clear EL.
  set (top := list_max (map (fun c => frequency c L) L)).
  assert (LN : map (fun c => frequency c L) L <> [] \/ L = []) by (destruct L; auto; left; discriminate).
  destruct LN as [LN| -> ]. 2: { right. split; [discriminate|]. intros c (P & _). cbn in P. lia. }
  destruct (list_max_spec _ LN) as (M1 & M2). fold top in M1, M2.
  apply in_map_iff in M1 as (m & M3 & M4).
  assert (LE : forall d, In d L -> (frequency d L <= top)%nat) by (intros d D; apply M2; apply in_map_iff; eauto).
  assert (TP : (0 < top)%nat). { rewrite <- M3. apply frequency_pos. exists m. split; auto. apply comparable_same. auto. }
  assert (MEM : forall c, In c (top_classes L) <-> In c (set_of label_eqb L) /\ frequency c L = top).
  { intros c. unfold top_classes. rewrite filter_In, Nat.eqb_eq. fold top. tauto. }
  destruct (I2 m M4) as (m' & N1 & N2). rewrite (frequency_same m m') in M3 by auto.
  assert (T1 : In m' (top_classes L)) by (apply MEM; auto).
  assert (FO : ForallOrdPairs (fun c d => ~ same_class c d) (top_classes L)) by (apply pairs_filter; auto).
  destruct (top_classes L) as [|x [|y t]] eqn:TC; [contradiction| |].
  - left. exists x. split; auto. destruct T1 as [->|[]]. split; [lia|]. intros d D N. rewrite M3.
    assert (D' := LE d D). destruct (Nat.eq_dec (frequency d L) top) as [E|E]; [|lia]. exfalso.
    destruct (I2 d D) as (d' & D1 & D2). assert (X : In d' [m']) by (apply MEM; split; auto; rewrite <- (frequency_same d d'); auto).
    destruct X as [->|[]]. apply N. apply same_class_sym. auto.
  - right. split; [discriminate|]. intros c (P & H). assert (XY := pairs_distinct _ _ _ _ FO).
    assert (X : In x L /\ frequency x L = top) by (destruct (proj1 (MEM x)) as (X1 & X2); [left; auto|]; auto).
    assert (Y : In y L /\ frequency y L = top) by (destruct (proj1 (MEM y)) as (Y1 & Y2); [right; left; auto|]; auto).
    assert (C : (frequency c L <= top)%nat).
    { apply frequency_pos in P as (d & D1 & D2). rewrite (frequency_same c d) by auto. auto. }
    destruct (same_class_dec c x) as [Cx|Cx].
    + destruct (same_class_dec c y) as [Cy|Cy].
      * apply XY. eapply same_class_trans; [apply same_class_sym; exact Cx|exact Cy].
      * pose proof (H y (proj1 Y) Cy). lia.
    + pose proof (H x (proj1 X) Cx). lia.
Qed.

Lemma leads_same L c d : leads L c -> same_class c d -> leads L d.
Proof.
  intros (P & H) S. unfold leads. rewrite <- (frequency_same c d) by auto. split; auto. intros x X N. apply H; auto.
  intros Y. apply N. eapply same_class_trans; [apply same_class_sym; exact S|exact Y].
Qed.

(** ** From rows to votes *)

(** The classes [L] are those of the ballots [T]. *)
Definition classes_of (T : list (ballot label)) (L : list label) : Prop := Forall2 (fun b x => same_class (b_value b) x) T L.

Lemma classes_frequency T L i c : classes_of T L -> (forall b, In b T -> active i b /\ b_weight b = 1%Q) ->
  (favor i c T == inject_Z (Z.of_nat (frequency c L)))%Q.
Proof.
  intros C. induction C as [|b x T L S _ IH]; intros H; [reflexivity|]. rewrite favor_cons.
  destruct (H b) as (A & W); [left; auto|]. assert (E : backs i c b = label_eqb c x).
  { destruct (label_eqb c x) eqn:X.
    - apply label_eqb_spec in X. apply backs_spec. split; auto. eapply same_class_trans; [exact X|apply same_class_sym; auto].
    - apply label_eqb_false in X. apply not_true_is_false. intros Y. apply backs_spec in Y. apply X.
      eapply same_class_trans; [exact (proj2 Y)|auto]. }
  rewrite E, W. unfold frequency in *. cbn [filter]. assert (IH' := IH (fun b B => H b (or_intror B))).
  destruct (label_eqb c x); auto. cbn [List.length]. rewrite Nat2Z.inj_succ. unfold Z.succ. rewrite inject_Z_plus, IH'.
  change (inject_Z 1) with 1%Q. ring.
Qed.

Lemma leads_wins T L i c : classes_of T L -> (forall b, In b T -> active i b /\ b_weight b = 1%Q) -> leads L c <-> wins i T c.
Proof.
  intros C H. assert (FR := fun c => classes_frequency T L i c C H). split.
  - intros (P & M). exists (favor i c T). split; [apply favor_favors|]. split.
    + rewrite FR. change 0%Q with (inject_Z 0). rewrite <- Zlt_Qlt. lia.
    + intros b p B N F. apply favors_favor in F. rewrite F, !FR. rewrite <- Zlt_Qlt.
      assert (X : exists x, In x L /\ same_class (b_value b) x).
      { clear -C B. induction C as [|d x T L S _ IH]; [contradiction|]. destruct B as [->|B]; [exists x; split; [left; auto|auto]|].
        destruct (IH B) as (y & Y1 & Y2). exists y. split; [right; auto|auto]. }
      destruct X as (x & X1 & X2). rewrite (frequency_same (b_value b) x) by auto.
      assert (frequency x L < frequency c L)%nat; [|lia]. apply M; auto. intros Y. apply N. eapply same_class_trans; [exact Y|].
      apply same_class_sym. auto.
  - intros (q & F & P & M). apply favors_favor in F. rewrite F in P. rewrite FR in P. change 0%Q with (inject_Z 0) in P. rewrite <- Zlt_Qlt in P.
    split; [lia|]. intros d D N.
    assert (X : exists b, In b T /\ same_class (b_value b) d).
    { clear -C D. induction C as [|b x T L S _ IH]; [contradiction|]. destruct D as [->|D]; [exists b; split; [left; auto|auto]|].
      destruct (IH D) as (y & Y1 & Y2). exists y. split; [right; auto|auto]. }
    destruct X as (b & B1 & B2). assert (Y : ~ same_class c (b_value b)).
    { intros Y. apply N. eapply same_class_trans; [exact Y|auto]. }
    specialize (M b _ B1 Y (favor_favors _ _ _)). rewrite F, !FR in M. rewrite <- Zlt_Qlt in M.
    rewrite <- (frequency_same (b_value b) d) by auto. lia.
Qed.

(** Only the active ballots matter. *)
Lemma wins_at_row i bs c : fair bs -> wins i bs c <-> wins i (at_row i bs) c.
Proof.
  intros F. assert (E : forall d, favor i d (at_row i bs) = favor i d bs).
  { intros d. unfold favor, at_row. f_equal. f_equal. clear. induction bs as [|b t IH]; auto. cbn [filter].
    unfold backs at 2. destruct (nth i (b_active b) 0 =? 1) eqn:A; cbn [andb filter]; rewrite ?IH; auto.
    unfold backs at 1. rewrite A. cbn [andb]. auto. }
  split; intros (q & Q1 & Q2 & Q3); apply favors_favor in Q1; exists (favor i c bs).
  - rewrite <- (E c) at 1. split; [apply favor_favors|]. split; [rewrite <- Q1; auto|]. intros b p B N P. apply favors_favor in P.
    rewrite P, E, <- Q1. apply (Q3 b); auto; [|apply favor_favors]. apply filter_In in B. tauto.
  - rewrite E in Q1. split; [apply favor_favors|]. split; [rewrite <- Q1; auto|]. intros b p B N P. apply favors_favor in P. rewrite P.
    destruct (Qlt_le_dec 0 (favor i (b_value b) bs)) as [Y|Y]; [|rewrite <- Q1; lra].
    apply favor_pos in Y as (d & D1 & D2 & D3); auto. rewrite (favor_same i _ (b_value d)) by auto. rewrite <- E, <- Q1.
    apply (Q3 d); [apply filter_In; split; auto; apply Z.eqb_eq; auto| |apply favor_favors].
    intros Z. apply N. eapply same_class_trans; [exact Z|apply same_class_sym; auto].
Qed.

(** ** The result from the rows *)

Definition row_class (o : option label) : outcome := Class (match o with Some c => c | None => nan_label end).

(** [W i c]: the class [c] wins the row [i] *)
Definition rows_decided (n : nat) (W : nat -> label -> Prop) (rs : list (option label)) : Prop :=
  List.length rs = n /\ forall i, (i < n)%nat ->
    match nth i rs None with Some c => W i c | None => forall c, ~ W i c end.

Definition finish (rows : list (option label)) : list outcome :=
  let decided := filter (fun o => match o with Some _ => true | None => false end) rows in
  let first o := o :: map (fun _ => Class nan_label) (tl rows) in
  match rows, decided with
  | [], _ => []
  | _, [] => first Frame
  | _, [Some c] => first (Class c)
  | _, _ => map row_class rows
  end.

Definition is_some {A} (o : option A) : bool := match o with Some _ => true | None => false end.

Lemma two_filtered {A} (f : A -> bool) (d : A) l i j : (i < j)%nat -> (j < List.length l)%nat -> f (nth i l d) = true -> f (nth j l d) = true ->
  exists x y t, filter f l = x :: y :: t.
Proof.
  revert i j. induction l as [|a l IH]; intros i j I J Fi Fj; [cbn in J; lia|]. cbn [filter]. destruct j as [|j]; [lia|].
  cbn [nth List.length] in *. destruct i as [|i].
  - rewrite Fi. assert (X : In (nth j l d) (filter f l)) by (apply filter_In; split; auto; apply nth_In; lia).
    destruct (filter f l) as [|y t]; [contradiction|]. eauto.
  - destruct (IH i j) as (x & y & t & E); auto; try lia. rewrite E. destruct (f a); eauto.
Qed.

Lemma none_filtered {A} (f : A -> bool) (d : A) l : (forall i, (i < List.length l)%nat -> f (nth i l d) = false) -> filter f l = [].
Proof.
  induction l as [|a l IH]; intros H; auto. cbn [filter]. rewrite (H O ltac:(cbn; lia) : f a = false). apply IH. intros i I. apply (H (S i)). cbn. lia.
Qed.

Lemma one_filtered {A} (f : A -> bool) (d : A) l j : (j < List.length l)%nat -> f (nth j l d) = true ->
  (forall i, (i < List.length l)%nat -> i <> j -> f (nth i l d) = false) -> filter f l = [nth j l d].
Proof.
  revert j. induction l as [|a l IH]; intros j J F H; [cbn in J; lia|]. cbn [filter]. destruct j as [|j].
  - cbn [nth] in *. rewrite F. f_equal. apply (none_filtered f d). intros i I. apply (H (S i)); cbn; lia.
  - rewrite (H O ltac:(cbn; lia) ltac:(lia) : f a = false). cbn [nth]. apply IH; auto; [cbn in J; lia|]. intros i I N. apply (H (S i)); cbn; lia.
Qed.

Lemma finish_two n W rs i j : rows_decided n W rs -> (i < j)%nat -> (j < n)%nat -> (exists c, W i c) -> (exists c, W j c) ->
  each_row n Frame (finish rs) (verdict W).
Proof.
  intros (L & D) I J (ci & Wi) (cj & Wj).
  assert (S : forall k, (k < n)%nat -> (exists c, W k c) -> is_some (nth k rs None) = true).
  { intros k K (c & C). specialize (D k K). destruct (nth k rs None); auto. destruct (D c C). }
  destruct (two_filtered is_some None rs i j) as (x & y & t & E); auto; try lia; try (apply S; eauto; lia).
  assert (F : finish rs = map row_class rs).
  { unfold finish. change (fun o : option label => match o with Some _ => true | None => false end) with (@is_some label). rewrite E.
    destruct rs as [|r rs]; [cbn in L; lia|]. destruct x; auto. }
  rewrite F. split; [rewrite map_length; auto|]. intros k K. rewrite nth_map with (d := None) by lia. specialize (D k K).
  unfold verdict, row_class. destruct (nth k rs None) as [c|]; eauto.
Qed.

Lemma finish_one n W rs j c : rows_decided n W rs -> (j < n)%nat -> W j c -> (forall i, (i < n)%nat -> i <> j -> forall d, ~ W i d) ->
  exists c', W j c' /\ each_row n Frame (finish rs) (fun i x => x = Class (if (i =? 0)%nat then c' else LNum NaN)).
Proof.
  intros (L & D) J Wj H. assert (Dj := D j J). destruct (nth j rs None) as [c'|] eqn:N; [|destruct (Dj c Wj)].
  exists c'. split; auto. assert (E : filter is_some rs = [nth j rs None]).
  { apply one_filtered; [lia|rewrite N; auto|]. intros i I X. specialize (D i ltac:(lia)). destruct (nth i rs None) as [d|]; auto.
    destruct (H i ltac:(lia) X d D). }
  rewrite N in E.
  assert (F : finish rs = Class c' :: map (fun _ => Class nan_label) (tl rs)).
  { unfold finish. change (fun o : option label => match o with Some _ => true | None => false end) with (@is_some label). rewrite E.
    destruct rs as [|r rs]; [cbn in L; lia|]. auto. }
  rewrite F. destruct rs as [|r rs]; [cbn in L; lia|]. cbn [tl]. split; [cbn [List.length] in *; rewrite map_length; auto|].
  intros [|k] K; auto. cbn [nth Nat.eqb]. cbn [List.length] in L. rewrite nth_map with (d := None) by lia. auto.
Qed.

Lemma finish_none n W rs : rows_decided n W rs -> (0 < n)%nat -> (forall i, (i < n)%nat -> forall d, ~ W i d) ->
  each_row n Frame (finish rs) (fun i x => x = if (i =? 0)%nat then Frame else Class (LNum NaN)).
Proof.
  intros (L & D) P H. assert (E : filter is_some rs = []).
  { apply (none_filtered is_some None). intros i I. specialize (D i ltac:(lia)). destruct (nth i rs None) as [d|]; auto.
    destruct (H i ltac:(lia) d D). }
  assert (F : finish rs = Frame :: map (fun _ => Class nan_label) (tl rs)).
  { unfold finish. change (fun o : option label => match o with Some _ => true | None => false end) with (@is_some label). rewrite E.
    destruct rs as [|r rs]; [cbn in L; lia|]. auto. }
  rewrite F. destruct rs as [|r rs]; [cbn in L; lia|]. cbn [tl]. split; [cbn [List.length] in *; rewrite map_length; auto|].
  intros [|k] K; auto. cbn [nth Nat.eqb]. cbn [List.length] in L. rewrite nth_map with (d := None) by lia. auto.
Qed.

(** ** The columns *)

(** The cells [g] of the column of a rule: its class where it is active *)
Definition shows (n : nat) (r : rule) (c : string * list Z) (g : list label) : Prop :=
  exists k, getattr r "prediction" = Ok (class_object k) /\ List.length g = n /\
    forall i, (i < n)%nat ->
      if nth i (snd c) 0 =? 1
      then comparable k -> same_class k (nth i g nan_label) /\ clean (nth i g nan_label) = nth i g nan_label
      else nth i g nan_label = nan_label.

Lemma class_object_inj c d : class_object c = class_object d -> c = d.
Proof. destruct c, d; cbn; intros H; try discriminate; injection H as ->; auto. Qed.

Lemma text_column n r c s (l : list (string * label)) : getattr r "prediction" = Ok (OVal (XText s)) -> s <> "nan" -> bits (snd c) ->
  List.length (snd c) = n -> dget (fst c) l = Some (LText s) -> shows n r c (snd (product_column nan_label (fun _ x => x) l c)).
Proof.
  intros P S B L D. exists (LText s). split; [auto|]. unfold product_column. rewrite D. cbn [snd]. split; [rewrite map_length; auto|].
  intros i I. rewrite nth_map with (d := 0) by lia. destruct (nth_bits _ i B) as [X|X]; rewrite X; cbn [Z.eqb Pos.eqb]; auto.
  intros _. split; [apply comparable_same; discriminate|]. cbn [clean]. rewrite str_neq by auto. auto.
Qed.

Lemma number_column n r c x (l : series) : getattr r "prediction" = Ok (number x) -> bits (snd c) ->
  List.length (snd c) = n -> dget (fst c) l = Some x ->
  shows n r c (snd (product_column nan_label (fun a x => LNum (nmul (numz a) x)) l c)).
Proof.
  intros P B L D. exists (LNum x). split; [auto|]. unfold product_column. rewrite D. cbn [snd]. split; [rewrite map_length; auto|].
  intros i Hi. rewrite nth_map with (d := 0) by lia. destruct (nth_bits _ i B) as [X|X]; rewrite X; cbn [Z.eqb Pos.eqb]; auto.
  intros C. split; auto. constructor; [intros ->; destruct C; auto|]. destruct x as [| |q|]; [destruct C; auto|vm_compute; auto| |vm_compute; auto].
  cbn [numz nmul same_num]. change (inject_Z 1) with 1%Q. ring.
Qed.

Lemma texts_listed E rules columns : Forall2 (fun r c => called E r (fst c)) rules columns -> NoDup (map fst columns) ->
  predicts_texts rules ->
  exists l s, by_name E prediction rules = Ok l /\ text_series l = Ok s /\ map fst s = map fst (columns : list (string * list Z)) /\
    Forall2 (fun r c => exists p, getattr r "prediction" = Ok (OVal (XText p)) /\ p <> "nan" /\ dget (fst c) s = Some (LText p)) rules columns.
Proof.
  intros F N P.
  assert (X : exists ps, Forall2 (fun r p => called E r (fst p) /\ getattr r "prediction" = Ok (OVal (XText (snd p))) /\ snd p <> "nan") rules ps /\
    map fst ps = map fst columns).
  { clear N. induction F as [|r c rules columns C _ IH].
    - exists []. auto.
    - destruct IH as (ps & F & M); [intros r' I; apply P; right; auto|]. destruct (P r) as (p & Q1 & Q2); [left; auto|].
      exists ((fst c, p) :: ps). split; [constructor; auto|]. cbn. f_equal. auto. }
  destruct X as (ps & FP & M). exists (map (fun p => (fst p, OVal (XText (snd p)))) ps), (map (fun p => (fst p, LText (snd p))) ps).
  assert (NP : NoDup (map fst ps)) by (rewrite M; auto). split; [|split; [|split]].
  - apply by_name_ok; [|rewrite map_map; auto]. apply forall2_map. cbn [fst snd].
    eapply forall2_weaken; [|exact FP]. intros r p (C & Q & _). rewrite prediction_attr in Q. split; auto. apply called_name. auto.
  - unfold text_series. rewrite map_map. clear -FP. cbn. induction FP as [|r [a b] rules ps _ _ IH]; auto.
    cbn [map rseq rbind fst snd]. rewrite IH. auto.
  - rewrite map_map. auto.
  - assert (Z : forall p, In p ps -> dget (fst p) (map (fun p => (fst p, LText (snd p))) ps) = Some (LText (snd p))).
    { intros p I. apply dget_in; [rewrite map_map; auto|]. apply in_map_iff. exists p. auto. }
    assert (G : forall qs cs, incl qs ps -> map fst qs = map fst cs ->
      Forall2 (fun r p => called E r (fst p) /\ getattr r "prediction" = Ok (OVal (XText (snd p))) /\ snd p <> "nan") rules qs ->
      Forall2 (fun r (c : string * list BinNums.Z) => exists p, getattr r "prediction" = Ok (OVal (XText p)) /\ p <> "nan" /\
        dget (fst c) (map (fun p => (fst p, LText (snd p))) ps) = Some (LText p)) rules cs).
    { clear -Z. intros qs cs I Mq FQ. revert cs I Mq. induction FQ as [|r q rules qs (_ & Q1 & Q2) _ IH]; intros [|c cs] I Mq; try discriminate; constructor.
      - exists (snd q). split; auto. split; auto. cbn in Mq. injection Mq as Mq _. rewrite <- Mq. apply Z. apply I. left. auto.
      - apply IH; [intros x X; apply I; right; auto|]. cbn in Mq. injection Mq. auto. }
    apply (G ps columns); auto. intros x; auto.
Qed.

(** What the stacked prediction of classes works on *)
Lemma classes_listed E rules n xs columns w : vectors E xs rules n columns -> rules <> [] -> predicts_texts rules \/ predicts_numbers rules ->
  exists (A : Type) (f : Z -> A -> label) (s : list (string * A)),
    map fst s = map fst columns /\
    Forall2 (fun r c => shows n r c (snd (product_column nan_label f s c))) rules columns /\
    predict_stacked E KClassification rules (mkFrame n columns) w =
    match w with
    | None => Ok (Outcomes (equal_classificator_stacked (frame_times nan_label f (mkFrame n columns) s)))
    | Some w => rbind (weights_of E rules w) (fun ws => rmap Outcomes (weighted_classificator_stacked
        (frame_times nan_label f (mkFrame n columns) s) (frame_times NaN (fun a x => nmul (numz a) x) (mkFrame n columns) ws)))
    end.
Proof.
  intros V RN P. destruct (vectors_called _ _ _ _ _ V) as (F & NC).
  pose proof (vectors_nonempty _ _ _ _ _ V RN) as CN. destruct V as (FV & _ & n0).
  destruct P as [P|P].
  - destruct (texts_listed E rules columns F NC P) as (l & s & L1 & L2 & L3 & L4). exists label, (fun _ c => c), s. split; auto. split.
    + eapply forall2_weaken; [|exact (forall2_both _ _ _ _ FV L4)]. intros r c ((_ & _ & B & L) & p & P1 & P2 & P3).
      eapply text_column; eauto.
    + unfold predict_stacked. rewrite L1. cbn [rbind]. destruct rules as [|r rules]; [congruence|].
      destruct (P r) as (p & Q & _); [left; auto|]. rewrite prediction_attr in Q. rewrite Q. cbn [rbind]. rewrite L2. cbn [rmap rbind].
      rewrite product_not_empty by auto. auto.
  - destruct (numbers_listed E rules columns F NC RN P) as (l & s & L1 & L2 & L3 & L4).
    exists num, (fun a x => LNum (nmul (numz a) x)), s. split; auto. split.
    + eapply forall2_weaken; [|exact (forall2_both _ _ _ _ FV L4)]. intros r c ((_ & _ & B & L) & p & P1 & P2).
      eapply number_column; eauto.
    + unfold predict_stacked. rewrite L1. cbn [rbind]. destruct rules as [|r rules]; [congruence|].
      destruct (P r) as (p & Q); [left; auto|]. rewrite prediction_attr in Q. rewrite Q. cbn [rbind]. rewrite number_not_text, L2. cbn [rmap rbind].
      rewrite product_not_empty by auto. auto.
Qed.

(** ** Rows of classes *)

Definition seen (l : list label) : list label := filter (fun c => negb (is_nan_label c)) (map clean l).

Lemma same_comparable c d : same_class c d -> is_nan_label d = false.
Proof. intros H. inversion H as [x y X Y|]; subst; auto. destruct x, y; cbn in *; tauto || congruence. Qed.

Lemma seen_comparable l c : In c (seen l) -> comparable c.
Proof. intros I. apply filter_In in I as (_ & I). intros ->. discriminate. Qed.

Lemma modes_seen l : modes (map clean l) = top_classes (seen l).
Proof. reflexivity. Qed.

Lemma rows_decided_frame {A} (g : A -> string * list label) n K W :
  (forall i, (i < n)%nat -> forall c, leads (seen (map (fun c => nth i (snd (g c)) nan_label) K)) c <-> W i c) ->
  exists rs, equal_classificator_stacked (mkFrame n (map g K)) = finish rs /\ rows_decided n W rs.
Proof.
  intros H. eexists. split; [reflexivity|]. unfold by_rows. cbn [f_rows]. split; [rewrite map_length, seq_length; auto|].
  intros i I. rewrite nth_map with (d := O) by (rewrite seq_length; auto). rewrite seq_nth by auto. cbn [Nat.add].
  replace (line nan_label (mkFrame n (map g K)) i) with (map (fun x => nth i (snd (g x)) nan_label) K)
    by (unfold line; cbn [f_columns]; rewrite map_map; auto).
  set (l := map (fun x => nth i (snd (g x)) nan_label) K) in *.
  rewrite modes_seen. specialize (H i I). fold l in H. destruct (top_classes_spec (seen l)) as [(c & T & L)|(T & L)]; [apply seen_comparable| |].
  - rewrite T. apply H; auto.
  - destruct (top_classes (seen l)) as [|a [|b t]]; [|destruct (T a); auto|]; intros c C; apply (L c); apply H; auto.
Qed.

Section Rows.
Variables (E : env) (xs : option table) (n : nat) (g : string * list Z -> list label).

Definition placed (r : rule) (c : string * list Z) : Prop :=
  called E r (fst c) /\ working r xs (snd c) /\ bits (snd c) /\ List.length (snd c) = n /\ (0 < n)%nat /\ shows n r c (g c).

Lemma seen_cons l x : seen (x :: l) = if is_nan_label (clean x) then seen l else clean x :: seen l.
Proof. unfold seen. cbn [map filter]. destruct (is_nan_label (clean x)); auto. Qed.

Lemma row_classes rules columns bs : Forall2 placed rules columns -> collected (casts_one class_object xs) rules bs ->
  (forall b, In b bs -> comparable (b_value b)) ->
  forall i, (i < n)%nat -> classes_of (at_row i bs) (seen (map (fun c => nth i (g c) nan_label) columns)).
Proof.
  intros F. revert bs. induction F as [|r c rules columns F _ IH]; intros bs C CM i I.
  - inversion C; subst. constructor.
  - destruct F as (F1 & F2 & F3 & F4 & F5 & k & P & L & G).
    inversion C as [|r' t bs' Cr Ct|r' t b bs' Cr Ct]; subst.
    + exfalso. inversion Cr as [D|]; subst. destruct D as [(-> & N)|W].
      * destruct F2 as (a & A & _). congruence.
      * pose proof (working_fun _ _ _ _ F2 W) as X. rewrite X in F5. cbn in F5. lia.
    + assert (IH' := IH bs' Ct (fun b B => CM b (or_intror B)) i I). inversion Cr as [|q v (_ & Q & K & _ & _)]; subst.
      assert (X : v = snd c) by (apply (working_fun r xs); auto). subst v. rewrite P in Q. injection Q as Q. apply class_object_inj in Q. subst q.
      unfold at_row in *. cbn [filter b_active map]. rewrite seen_cons. specialize (G i I). destruct (nth i (snd c) 0 =? 1).
      * destruct G as (G1 & G2); [apply (CM (mkBallot 1 k (snd c))); left; auto|]. rewrite G2, (same_comparable _ _ G1).
        constructor; auto.
      * rewrite G. cbn. auto.
Qed.

End Rows.

(** ** Without weights *)

Lemma put_finish n W rs : rows_decided n W rs -> put_rows n W (finish rs).
Proof.
  intros D. split; [|split].
  - intros i j. apply finish_two. auto.
  - intros j c J Wj H. eapply finish_one; eauto.
  - intros P H. apply (finish_none n W); auto.
Qed.

Lemma equal_votes_stacked E shared rules st xs bs n :
  stacks E xs rules n st -> rules <> [] -> predicts_texts rules \/ predicts_numbers rules ->
  collected (casts_one class_object xs) rules bs -> (forall b, In b bs -> comparable (b_value b)) ->
  exists l, fst (predict_rules E true shared (Some KClassification) rules (Some st) xs None) = Ok (Outcomes l) /\
    put_rows n (fun i => wins i bs) l.
Proof.
  intros (columns & V & X) RN P C CM. rewrite (stacked_frame E rules n st xs KClassification None shared columns); auto.
  destruct (classes_listed E rules n xs columns None V RN P) as (A & f & s & S & SH & ->).
  rewrite frame_times_columns, no_extra by auto. rewrite app_nil_r.
  assert (FP : Forall2 (placed E xs n (fun c => snd (product_column nan_label f s c))) rules columns).
  { destruct V as (FV & _ & n0). eapply forall2_weaken; [|exact (forall2_both _ _ _ _ FV SH)].
    intros r c ((X1 & X2 & X3 & X4) & X5). unfold placed. auto 10. }
  destruct (rows_decided_frame (product_column nan_label f s) n columns (fun i => wins i bs)) as (rs & -> & D).
  { intros i I c. assert (FA : fair bs).
    { intros b B. split; auto. destruct (one_weight _ _ _ _ C b B) as (-> & _). reflexivity. }
    rewrite (wins_at_row i bs c FA).
    apply leads_wins; [exact (row_classes _ _ _ _ _ _ _ FP C CM i I)|]. intros b B. apply filter_In in B as (B1 & B2).
    split; [apply Z.eqb_eq; auto|]. apply (one_weight _ _ _ _ C b B1). }
  eexists. split; [reflexivity|]. apply put_finish. auto.
Qed.

(** ** With weights *)

Section Weighted.
Variables (E : env) (ws : series) (xs : option table) (n : nat) (g : string * list Z -> list label).
Hypothesis distinct_weights : NoDup (map fst ws).

Definition class_weights (c : string * list Z) : list num :=
  zip_with (fun x w => if is_nan_label x then NaN else w) (g c) (weights_at ws c).

Lemma weights_at_length c : List.length (weights_at ws c) = List.length (snd c).
Proof. unfold weights_at. rewrite map_length. apply product_length. Qed.

Lemma class_not_kept r c : placed E xs n g r c -> casts E ws class_object xs r None -> keep ws c = false.
Proof.
  intros (F1 & F2 & F3 & F4 & F5 & _) C. inversion C as [s' S U|s' S G|]; subst.
  - apply ignored_column. rewrite (called_fun E r _ _ F1 S). auto.
  - exfalso. destruct G as [(-> & N)|W].
    + destruct F2 as (a & A & _). congruence.
    + pose proof (working_fun _ _ _ _ F2 W) as X. rewrite X in F5. cbn in F5. lia.
Qed.

Lemma class_cells r c b : placed E xs n g r c -> casts E ws class_object xs r (Some b) -> comparable (b_value b) ->
  b_active b = snd c /\
  (keep ws c = true <-> exists i, (i < n)%nat /\ active i b) /\
  forall i, (i < n)%nat ->
    nth i (class_weights c) NaN = (if nth i (snd c) 0 =? 1 then Fin (1 * b_weight b) else NaN) /\
    if nth i (snd c) 0 =? 1
    then same_class (b_value b) (nth i (g c) nan_label) /\ clean (nth i (g c) nan_label) = nth i (g c) nan_label
    else nth i (g c) nan_label = nan_label.
Proof.
  intros (F1 & F2 & F3 & F4 & F5 & k & P & L & G) C CM. inversion C as [| |s' w q v S I W (_ & Q & K & _ & _)]; subst. cbn [b_active b_value b_weight] in *.
  assert (X : v = snd c) by (apply (working_fun r xs); auto). subst v. split; auto.
  rewrite P in Q. injection Q as Q. apply class_object_inj in Q. subst k. pose proof (called_fun E r _ _ S F1) as Y. subst s'.
  pose proof (dget_in _ _ _ distinct_weights I) as DW. split.
  - unfold keep, weights_at. rewrite (weight_column_kept ws c w); auto. unfold active. cbn [b_active]. tauto.
  - intros i Hi. specialize (G i Hi).
    assert (Z : nth i (weights_at ws c) NaN = if nth i (snd c) 0 =? 1 then Fin (1 * w) else NaN)
      by (apply (weight_column ws c w i); auto).
    unfold class_weights. rewrite zip_nth with (a := nan_label) (b := NaN); [|rewrite weights_at_length; auto|lia].
    rewrite Z. destruct (nth i (snd c) 0 =? 1).
    + destruct (G CM) as (G1 & G2). rewrite (same_comparable _ _ G1). auto.
    + rewrite G. auto.
Qed.

(** The weights of a row *)
Lemma row_weights rules columns bs : Forall2 (placed E xs n g) rules columns -> collected (casts E ws class_object xs) rules bs ->
  (forall b, In b bs -> comparable (b_value b)) -> forall i, (i < n)%nat ->
  drop_nan (map (fun c => nth i (class_weights c) NaN) (filter (keep ws) columns)) = map (fun b => Fin (1 * b_weight b)) (at_row i bs).
Proof.
  intros F. revert bs. induction F as [|r c rules columns F _ IH]; intros bs C CM i I.
  - inversion C; subst. auto.
  - inversion C as [|r' t bs' Cr Ct|r' t b bs' Cr Ct]; subst; cbn [filter].
    + rewrite (class_not_kept r c); auto.
    + destruct (class_cells r c b F Cr (CM b (or_introl eq_refl))) as (A & K & V).
      assert (IH' := IH bs' Ct (fun b B => CM b (or_intror B)) i I). destruct (V i I) as (V1 & _).
      unfold at_row in *. cbn [filter]. rewrite A. destruct (keep ws c) eqn:Kc.
      * cbn [map]. rewrite V1. destruct (nth i (snd c) 0 =? 1); [|auto]. cbn. f_equal. auto.
      * destruct (nth i (snd c) 0 =? 1) eqn:Y; auto. exfalso. apply Z.eqb_eq in Y.
        assert (false = true) by (apply K; exists i; split; auto; unfold active; rewrite A; auto). discriminate.
Qed.

Definition retained (i : nat) (best : num) (c : string * list Z) : label :=
  if neqb (nth i (class_weights c) NaN) best then nth i (g c) nan_label else nan_label.

Lemma row_retained rules columns bs best : Forall2 (placed E xs n g) rules columns -> collected (casts E ws class_object xs) rules bs ->
  (forall b, In b bs -> comparable (b_value b)) -> forall i, (i < n)%nat ->
  classes_of (filter (fun b => neqb (Fin (1 * b_weight b)) best) (at_row i bs))
    (seen (map (retained i best) (filter (keep ws) columns))).
Proof.
  intros F. revert bs. induction F as [|r c rules columns F _ IH]; intros bs C CM i I.
  - inversion C; subst. constructor.
  - inversion C as [|r' t bs' Cr Ct|r' t b bs' Cr Ct]; subst; cbn [filter].
    + rewrite (class_not_kept r c); auto.
    + destruct (class_cells r c b F Cr (CM b (or_introl eq_refl))) as (A & K & V).
      assert (IH' := IH bs' Ct (fun b B => CM b (or_intror B)) i I). destruct (V i I) as (V1 & V2).
      unfold at_row in *. cbn [filter]. rewrite A. destruct (keep ws c) eqn:Kc.
      * cbn [map]. rewrite seen_cons. replace (retained i best c) with (if neqb (if nth i (snd c) 0 =? 1 then Fin (1 * b_weight b) else NaN) best then nth i (g c) nan_label else nan_label) by (unfold retained; rewrite V1; auto). destruct (nth i (snd c) 0 =? 1); [|cbn; auto]. cbn [filter].
        destruct (neqb (Fin (1 * b_weight b)) best); [|cbn; auto]. destruct V2 as (V2 & V3). rewrite V3, (same_comparable _ _ V2).
        constructor; auto.
      * destruct (nth i (snd c) 0 =? 1) eqn:Y; auto. exfalso. apply Z.eqb_eq in Y.
        assert (false = true) by (apply K; exists i; split; auto; unfold active; rewrite A; auto). discriminate.
Qed.

Lemma class_some_kept rules columns bs : Forall2 (placed E xs n g) rules columns -> collected (casts E ws class_object xs) rules bs ->
  (forall b, In b bs -> comparable (b_value b)) -> somebody n bs -> filter (keep ws) columns <> [].
Proof.
  intros F. revert bs. induction F as [|r c rules columns F _ IH]; intros bs C CM (b & i & Ib & I & A).
  - inversion C; subst. contradiction.
  - inversion C as [|r' t bs' Cr Ct|r' t b' bs' Cr Ct]; subst; cbn [filter].
    + rewrite (class_not_kept r c); auto. apply (IH bs); auto. exists b, i. auto.
    + destruct (class_cells r c b' F Cr (CM b' (or_introl eq_refl))) as (A' & K & V). destruct Ib as [->|Ib].
      * replace (keep ws c) with true; [discriminate|]. symmetry. apply K. eauto.
      * destruct (keep ws c); [discriminate|]. apply (IH bs'); auto; [intros x X; apply CM; right; auto|]. exists b, i. auto.
Qed.

(** The heaviest ballots are those with the largest weight of the row. *)
Lemma heaviest_best i (bs : list (ballot label)) l : drop_nan l = map (fun b => Fin (1 * b_weight b)) (at_row i bs) ->
  filter (fun b => neqb (Fin (1 * b_weight b)) (largest l)) (at_row i bs) = heaviest i bs.
Proof.
  intros D. unfold heaviest. destruct (at_row i bs) as [|b0 t] eqn:R; auto. rewrite <- R in *.
  destruct (largest_fin (map (fun b => Fin (1 * b_weight b)) (at_row i bs)) (map (fun b => (1 * b_weight b)%Q) (at_row i bs))) as (m & M1 & M2 & M3).
  { rewrite map_map. auto. }
  { rewrite R. discriminate. }
  assert (L : largest l = Fin m).
  { rewrite <- M1. unfold largest. rewrite D. replace (drop_nan (map (fun b => Fin (1 * b_weight b)) (at_row i bs))) with
      (map (fun b => Fin (1 * b_weight b)) (at_row i bs)); auto. clear. induction (at_row i bs); cbn; f_equal; auto. }
  rewrite L. apply in_map_iff in M2 as (bm & B1 & B2).
  assert (M4 : forall b, In b (at_row i bs) -> (b_weight b <= b_weight bm)%Q).
  { intros b B. assert (X := M3 (1 * b_weight b)%Q (in_map (fun b => (1 * b_weight b)%Q) _ _ B)). rewrite <- B1 in X.
    rewrite !Qmult_1_l in X. auto. }
  apply filter_ext_in. intros b B. cbn [neqb]. destruct (Qeq_bool (1 * b_weight b) m) eqn:X.
  - symmetry. apply Qeq_bool_iff in X. rewrite <- B1 in X. rewrite !Qmult_1_l in X. apply forallb_forall. intros b' B'. apply Qle_bool_iff.
    rewrite X. auto.
  - symmetry. apply not_true_is_false. intros Y. rewrite forallb_forall in Y. specialize (Y bm B2). apply Qle_bool_iff in Y.
    assert (Z : (1 * b_weight b == m)%Q) by (rewrite <- B1, !Qmult_1_l; apply Qle_antisym; auto).
    apply Qeq_bool_iff in Z. congruence.
Qed.

End Weighted.

Lemma dget_columns {A} (h : string * list Z -> A) K c : NoDup (map fst K) -> In c K ->
  dget (fst c) (map (fun c : string * list Z => (fst c, h c)) K) = Some (h c).
Proof. intros N I. apply dget_in; [rewrite map_map; auto|]. apply in_map_iff. exists c. auto. Qed.

Lemma nodup_filter_keys {A} (f : string * A -> bool) l : NoDup (map fst l) -> NoDup (map fst (filter f l)).
Proof.
  induction l as [|x t IH]; intros N; auto. cbn [map] in N. inversion N as [|? ? N1 N2]. subst. cbn [filter].
  destruct (f x); auto. cbn [map]. constructor; auto. intros I. apply N1. apply in_map_iff in I as (y & Y1 & Y2).
  apply filter_In in Y2. rewrite <- Y1. apply in_map. tauto.
Qed.

Lemma triple_nth {A B C} (f : A * (B * C) -> A) (x : list A) (y : list B) (z : list C) i a b c d :
  List.length x = List.length y -> List.length y = List.length z -> (i < List.length x)%nat ->
  nth i (map f (combine x (combine y z))) d = f (nth i x a, (nth i y b, nth i z c)).
Proof.
  intros L1 L2 I. rewrite nth_map with (d := (a, (b, c))).
  - rewrite combine_nth; [rewrite combine_nth by auto; auto|rewrite combine_length; lia].
  - rewrite combine_length, combine_length. lia.
Qed.

Lemma unit_active {A} i (bs : list (ballot A)) : forall b, In b (unit_weights (heaviest i bs)) -> active i b /\ b_weight b = 1%Q.
Proof.
  intros b B. apply in_map_iff in B as (d & <- & D). cbn. split; auto. apply filter_In in D as (D & _). apply filter_In in D as (_ & D).
  apply Z.eqb_eq. auto.
Qed.

Lemma classes_unit T L : classes_of T L -> classes_of (unit_weights T) L.
Proof. induction 1; constructor; auto. Qed.

Lemma weighted_votes_stacked E shared rules st xs ws bs n :
  stacks E xs rules n st -> predicts_texts rules \/ predicts_numbers rules -> NoDup (map fst ws) ->
  collected (casts E ws class_object xs) rules bs -> (forall b, In b bs -> comparable (b_value b)) -> somebody n bs ->
  exists l, fst (predict_rules E true shared (Some KClassification) rules (Some st) xs (Some (WSeries ws))) = Ok (Outcomes l) /\
    put_rows n (fun i => wins i (unit_weights (heaviest i bs))) l.
Proof.
  intros (columns & V & X) P N C CM SB. pose proof (collected_nonempty _ _ _ _ C SB) as RN.
  rewrite (stacked_frame E rules n st xs KClassification (Some (WSeries ws)) shared columns); auto.
  destruct (classes_listed E rules n xs columns (Some (WSeries ws)) V RN P) as (A & f & s & S & SH & ->).
  cbn [weights_of rbind]. unfold weighted_classificator_stacked.
  set (g := fun c => snd (product_column nan_label f s c)).
  assert (FP : Forall2 (placed E xs n g) rules columns).
  { destruct V as (FV & _ & n0). eapply forall2_weaken; [|exact (forall2_both _ _ _ _ FV SH)].
    intros r c ((X1 & X2 & X3 & X4) & X5). unfold placed. auto 10. }
  assert (NC : NoDup (map fst columns)) by (destruct V as (_ & V & _); auto).
  assert (n0 : (0 < n)%nat) by (destruct V as (_ & _ & V); auto).
  rewrite init_ok; auto. 2: { apply (class_some_kept E ws xs n g N rules columns bs); auto. }
  cbn [rbind rmap f_rows f_columns].
  set (K := filter (fun c => kept (fst c, map zero_nan (snd (product_column NaN (fun a x => nmul (numz a) x) ws c)))) columns).
  change K with (filter (keep ws) columns) in *. clear K. set (K := filter (keep ws) columns).
  assert (NK : NoDup (map fst K)) by (apply nodup_filter_keys; auto).
  change (map (fun c => (fst c, zip_with (fun x w => if is_nan_label x then NaN else w) (snd (product_column nan_label f s c))
    (map zero_nan (snd (product_column NaN (fun a x => nmul (numz a) x) ws c))))) K) with
    (map (fun c => (fst c, class_weights ws g c)) K).
  set (best := by_rows largest NaN (mkFrame n (map (fun c => (fst c, class_weights ws g c)) K))).
  assert (BL : List.length best = n) by (unfold best, by_rows; rewrite map_length, seq_length; auto).
  assert (BN : forall i, (i < n)%nat -> nth i best NaN = largest (map (fun c => nth i (class_weights ws g c) NaN) K)).
  { intros i I. unfold best, by_rows. rewrite nth_map with (d := O) by (rewrite seq_length; auto).
    cbn [f_rows]. rewrite seq_nth by auto. cbn [Nat.add]. rewrite row_line. auto. }
  assert (PL : forall c, In c columns -> List.length (snd c) = n /\ List.length (g c) = n).
  { clear -FP. induction FP as [|r c rules columns F _ IH]; [intros c []|]. intros d [<-|D]; auto.
    destruct F as (_ & _ & _ & F & _ & k & _ & G & _). auto. }
  rewrite map_map.
  match goal with |- context [map ?h K] => set (row := h) end.
  destruct (rows_decided_frame row n K (fun i => wins i (unit_weights (heaviest i bs)))) as (rs & -> & D).
  { intros i I c. assert (RW := row_weights E ws xs n g N rules columns bs FP C CM i I).
    assert (HB := heaviest_best i bs _ RW). fold K in HB. rewrite <- BN in HB by auto.
    assert (RR := row_retained E ws xs n g N rules columns bs (nth i best NaN) FP C CM i I). rewrite HB in RR. fold K in RR.
    replace (map (fun c => nth i (snd (row c)) nan_label) K) with (map (retained ws g i (nth i best NaN)) K).
    - apply leads_wins; [apply classes_unit; auto|apply unit_active].
    - apply map_ext_in. intros d Dk. assert (Dc : In d columns) by (apply filter_In in Dk; tauto). destruct (PL d Dc) as (L1 & L2).
      unfold row. cbn [fst snd].
      change (fst (product_column nan_label f s d)) with (fst d).
      change (snd (product_column nan_label f s d)) with (g d).
      rewrite (dget_columns (class_weights ws g) K d NK Dk).
      assert (L3 : List.length (class_weights ws g d) = n).
      { unfold class_weights. rewrite zip_length by (rewrite weights_at_length; lia). auto. }
      rewrite triple_nth with (a := nan_label) (b := NaN) (c := NaN) by lia. cbn [fst snd]. auto. }
  eexists. split; [reflexivity|]. apply put_finish. auto.
Qed.
