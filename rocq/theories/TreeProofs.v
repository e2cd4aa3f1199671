(** The conditions built along the paths of a tree. *)
From Coq Require Import List ZArith QArith Bool String Lia.
From Coq Require Import Sorting.Sorted Sorting.Permutation.
From Coq Require Import List.
From Verif Require Import Base Num CondModel CondSpec CondBase CondProofs CondAnd CondEval CondMore.
From Verif Require Import MetModel RuleModel PredModel SetModel TreeModel TreeSpec.
Import ListNotations.
Open Scope string_scope.
Open Scope list_scope.
Open Scope Z_scope.

Lemma py_index_nth {A} (l : list A) i x : 0 <= i -> (py_index l i = Ok x <-> nth_error l (Z.to_nat i) = Some x).
Proof.
  intros P. unfold py_index, at_pos. destruct (Z.leb_spec 0 i); [|lia]. cbn [andb].
  destruct (Z.ltb_spec i (Z.of_nat (List.length l))).
  - destruct (nth_error l (Z.to_nat i)); split; congruence.
  - destruct (Z.ltb_spec i 0); [lia|]. rewrite andb_false_r. split; [discriminate|].
    intros E. assert (Z.to_nat i < List.length l)%nat by (apply nth_error_Some; congruence). lia.
Qed.

Lemma rbind_inv {A B} (m : res A) (f : A -> res B) b : rbind m f = Ok b -> exists a, m = Ok a /\ f a = Ok b.
Proof. destruct m; cbn; [eauto|discriminate]. Qed.

Tactic Notation "pull" hyp(H) ident(x) ident(K) := apply rbind_inv in H; destruct H as (x & K & H).

(** ** Bounds along a path *)

Definition low_of (q : request) (f : Z) : num := nth (Z.to_nat f) (q_xmins q) NaN.
Definition high_of (q : request) (f : Z) : num := nth (Z.to_nat f) (q_xmaxs q) NaN.

Definition bounds := Z -> option (num * num).

Definition update (q : request) (st : bounds) (d : step) : bounds := fun f =>
  if f =? on d then
    Some (match goes d, st f with
          | Below, None => (low_of q f, bound d)
          | Below, Some (lo, hi) => (lo, py_min (bound d) hi)
          | Above, None => (bound d, high_of q f)
          | Above, Some (lo, hi) => (py_max (bound d) lo, py_max (high_of q f) hi)
          end)
  else st f.

Definition along (q : request) (p : list step) : bounds := fold_left (update q) p (fun _ => None).

Lemma along_snoc q p d : along q (p ++ [d]) = update q (along q p) d.
Proof. unfold along. rewrite fold_left_app. auto. Qed.

Lemma along_none q p f : along q p f = None <-> (forall d, In d p -> on d <> f).
Proof.
  induction p as [|d p IH] using rev_ind; [split; auto; intros _ d []|].
  rewrite along_snoc. unfold update. destruct (Z.eqb_spec f (on d)) as [->|N].
  - split; [discriminate|]. intros H. exfalso. apply (H d); auto. apply in_app_iff. right. left. auto.
  - rewrite IH. split.
    + intros H e He. apply in_app_iff in He. destruct He as [He|[ <- |[]]]; auto.
    + intros H e He. apply H. apply in_app_iff. auto.
Qed.

(** The condition of a path *)
Definition describes (sett : settings) (q : request) (p : list step) (c : cond) : Prop :=
  exists fs, lists c fs /\ distinct fs /\ in_order sett fs /\
    (forall g, In g fs -> feature_name q (f_index g) (f_name g) /\
                          along q p (f_index g) = Some (f_low g, f_high g)) /\
    (forall f, along q p f <> None -> In f (map f_index fs)) /\
    (c_imp c = true -> exists p1 p2 f lo hi, p = p1 ++ p2 /\ along q p1 f = Some (lo, hi) /\ nlt hi lo).

(** The argument [condition] of visitor *)
Definition so_far (sett : settings) (q : request) (p : list step) (o : option cond) : Prop :=
  match o with None => p = [] | Some c => p <> [] /\ describes sett q p c end.

Lemma tree_names_spec q f name : 0 <= f -> (nth_error (tree_names q) (Z.to_nat f) = Some name <-> feature_name q f name).
Proof.
  intros P. unfold tree_names, feature_name. destruct (q_names q) as [names|]; [tauto|].
  destruct (Z.ltb_spec f (Z.of_nat (q_features q))) as [L|L].
  - assert (E : nth_error (seq 0 (q_features q)) (Z.to_nat f) = Some (Z.to_nat f)).
    { rewrite (nth_error_nth' _ O) by (rewrite seq_length; lia). rewrite seq_nth by lia. auto. }
    apply (map_nth_error (fun i => ("X_" ++ show_int (Z.of_nat i))%string)) in E. rewrite E, Z2Nat.id by lia.
    split; [intros H; injection H as <-; auto|intros (_ & ->); auto].
  - split; [|lia]. intros E. assert (N : nth_error (map (fun i => ("X_" ++ show_int (Z.of_nat i))%string) (seq 0 (q_features q))) (Z.to_nat f) <> None)
      by congruence. apply nth_error_Some in N. rewrite map_length, seq_length in N. lia.
Qed.

Lemma feature_name_unique q f n m : feature_name q f n -> feature_name q f m -> n = m.
Proof. unfold feature_name. destruct (q_names q); [congruence|]. intros (_ & ->) (_ & ->). auto. Qed.

Lemma one_feature_ok sett q f lo hi c : known sett -> 0 <= f -> one_feature sett q f lo hi = Ok c ->
  exists name, feature_name q f name /\ condition c [mkFeat name f lo hi].
Proof.
  intros K P H. unfold one_feature in H. pull H name N. apply py_index_nth in N; auto. apply tree_names_spec in N; auto.
  exists name. split; auto.
  destruct (rebuild_ok sett [mkFeat name f lo hi]) as (c' & E & C); auto.
  { split; repeat constructor; auto. }
  cbn [map f_index f_low f_high f_name] in E. rewrite H in E. injection E as <-.
  rewrite arranged_short in C by (cbn; lia). auto.
Qed.

Lemma one_in_order sett f : known sett -> in_order sett [f].
Proof. intros [-> | ->]; [apply CondSpec.by_index|apply CondSpec.by_name]; auto; repeat constructor. Qed.

(** The feature is new. *)
Lemma fresh_step sett q p o d c new name lo hi :
  known sett -> so_far sett q p o -> feature_name q (on d) name ->
  condition new [mkFeat name (on d) lo hi] ->
  (forall e, In e p -> on e <> on d) ->
  update q (along q p) d (on d) = Some (lo, hi) ->
  (match o with None => Ok new | Some c => band sett c new end) = Ok c ->
  describes sett q (p ++ [d]) c.
Proof.
  intros K S N C F U H. rewrite <- along_snoc in U.
  assert (X : forall f, f <> on d -> along q (p ++ [d]) f = along q p f).
  { intros f Hf. rewrite along_snoc. unfold update. destruct (Z.eqb_spec f (on d)); [contradiction|auto]. }
  destruct o as [c0|].
  - destruct S as (_ & fs & L & D & O & B & A & _).
    destruct (band_cases sett c0 new fs [mkFeat name (on d) lo hi]) as [(CO & c' & gs & E & CC & OO & PP)|(_ & E)]; auto.
    { apply C. } { apply C. } 2: congruence.
    rewrite H in E. injection E as <-.
    assert (NI : ~ In (on d) (map f_index fs)).
    { intros I. apply in_map_iff in I. destruct I as (g & Eg & Ig). destruct (B g Ig) as (_ & Bg).
      rewrite Eg in Bg. rewrite (proj2 (along_none q p (on d)) F) in Bg. discriminate. }
    assert (NN : ~ In name (map f_name fs)).
    { intros I. apply in_map_iff in I. destruct I as (g & Eg & Ig). apply NI. apply in_map_iff. exists g. split; auto.
      destruct (CO g (mkFeat name (on d) lo hi)) as (Z & _); [auto|left; auto|]. apply Z. auto. }
    assert (M : map (meet [mkFeat name (on d) lo hi]) fs = fs).
    { rewrite <- (map_id fs) at 2. apply map_ext_in. intros g Ig. unfold meet.
      rewrite (proj2 (partner_none _ g)); auto. cbn. intros [E|[]]. apply NN. rewrite E. apply in_map; auto. }
    assert (BS : beside fs [mkFeat name (on d) lo hi] = [mkFeat name (on d) lo hi]).
    { apply beside_none. intros g [ <- |[]]. auto. }
    rewrite M, BS in PP.
    exists gs. destruct CC as (L' & D' & I'). split; auto. split; auto. split; auto. split; [|split].
    + intros g Ig. apply (Permutation_in _ PP) in Ig. apply in_app_iff in Ig. destruct Ig as [Ig|[ <- |[]]].
      * destruct (B g Ig) as (B1 & B2). split; auto. rewrite X; auto. intros Z. apply NI. rewrite <- Z. apply in_map; auto.
      * cbn. auto.
    + intros f Hf. apply (Permutation_in _ (Permutation_map f_index (Permutation_sym PP))). rewrite map_app. apply in_app_iff.
      destruct (Z.eq_dec f (on d)) as [->|Nf]; [right; left; auto|]. left. apply A. rewrite <- X; auto.
    + intros Im. apply I' in Im. destruct Im as (g & Ig & Hg). exists (p ++ [d]), [], (f_index g), (f_low g), (f_high g).
      rewrite app_nil_r. split; auto. split; auto.
      apply (Permutation_in _ PP) in Ig. apply in_app_iff in Ig. destruct Ig as [Ig|[ <- |[]]]; [|auto].
      rewrite X; [apply B; auto|]. intros Z. apply NI. rewrite <- Z. apply in_map; auto.
  - injection H as <-. cbn in S. subst p. destruct C as (L & D & I). exists [mkFeat name (on d) lo hi].
    split; auto. split; auto. split; [apply one_in_order; auto|]. split; [|split].
    + intros g [ <- |[]]. cbn. auto.
    + intros f Hf. destruct (Z.eq_dec f (on d)) as [->|Nf]; [left; auto|]. rewrite X in Hf by auto. destruct Hf. auto.
    + intros Im. apply I in Im. destruct Im as (g & [ <- |[]] & Hg). exists [d], [], (on d), lo, hi. cbn in Hg. auto.
Qed.

(** The bounds of a feature are replaced. *)
Definition reset (f : Z) (lo hi : num) (g : feature) : feature :=
  if f_index g =? f then mkFeat (f_name g) (f_index g) lo hi else g.

Lemma reset_index f lo hi g : f_index (reset f lo hi g) = f_index g.
Proof. unfold reset. destruct (f_index g =? f); auto. Qed.
Lemma reset_name f lo hi g : f_name (reset f lo hi g) = f_name g.
Proof. unfold reset. destruct (f_index g =? f); auto. Qed.

Lemma index_of_place f fs i : index_of Z.eqb f (map f_index fs) = Some i ->
  exists g, nth_error fs i = Some g /\ f_index g = f.
Proof.
  revert i. induction fs as [|g t IH]; intros i H; cbn in H; [discriminate|].
  destruct (Z.eqb_spec f (f_index g)) as [E|E].
  - injection H as <-. exists g. auto.
  - destruct (index_of Z.eqb f (map f_index t)) as [j|]; [|discriminate]. injection H as <-. apply IH. auto.
Qed.

Lemma index_of_absent f l : index_of Z.eqb f l = None -> ~ In f l.
Proof.
  induction l as [|g t IH]; cbn; intros H I; auto. destruct (Z.eqb_spec f g) as [E|E]; [discriminate|].
  destruct (index_of Z.eqb f t); [discriminate|]. destruct I as [I|I]; [congruence|]. apply IH; auto.
Qed.

Lemma set_nth_reset {A} (h : feature -> A) f lo hi fs i :
  NoDup (map f_index fs) -> index_of Z.eqb f (map f_index fs) = Some i ->
  forall v, (forall g, f_index g = f -> h (reset f lo hi g) = v) ->
  set_nth i v (map h fs) = map h (map (reset f lo hi) fs).
Proof.
  revert i. induction fs as [|g t IH]; intros i N H v V; cbn in H; [discriminate|].
  inversion N as [|? ? N1 N2]. subst. destruct (Z.eqb_spec f (f_index g)) as [E|E].
  - injection H as <-. cbn [map set_nth]. f_equal; [symmetry; auto|]. rewrite map_map. apply map_ext_in.
    intros k Ik. f_equal. unfold reset. destruct (Z.eqb_spec (f_index k) f) as [E'|E']; auto. exfalso. apply N1.
    rewrite <- E, <- E'. apply in_map; auto.
  - destruct (index_of Z.eqb f (map f_index t)) as [j|] eqn:J; [|discriminate]. injection H as <-.
    cbn [map set_nth]. f_equal; [|apply IH; auto]. f_equal. unfold reset.
    destruct (Z.eqb_spec (f_index g) f) as [E'|E']; [congruence|auto].
Qed.

Lemma sorted_map {A} (R : A -> A -> Prop) (f : A -> A) l :
  (forall x y, R x y -> R (f x) (f y)) -> StronglySorted R l -> StronglySorted R (map f l).
Proof.
  intros M. induction 1 as [|x t S IH F]; cbn; constructor; auto. rewrite Forall_forall in *. intros y I.
  apply in_map_iff in I. destruct I as (z & <- & I). auto.
Qed.

Lemma reset_order sett f lo hi fs : in_order sett fs -> in_order sett (map (reset f lo hi) fs).
Proof.
  intros [E S|E S]; [apply CondSpec.by_index|apply CondSpec.by_name]; auto; apply sorted_map; auto; intros x y;
    rewrite ?reset_index, ?reset_name; auto.
Qed.

Definition describes_by (sett : settings) (q : request) (p : list step) (c : cond) (fs : list feature) : Prop :=
  lists c fs /\ distinct fs /\ in_order sett fs /\
  (forall g, In g fs -> feature_name q (f_index g) (f_name g) /\
                        along q p (f_index g) = Some (f_low g, f_high g)) /\
  (forall f, along q p f <> None -> In f (map f_index fs)) /\
  (c_imp c = true -> exists p1 p2 f lo hi, p = p1 ++ p2 /\ along q p1 f = Some (lo, hi) /\ nlt hi lo).

Lemma reset_step sett q p c fs d lo hi mins maxs :
  describes_by sett q p c fs -> In (on d) (map f_index fs) ->
  update q (along q p) d (on d) = Some (lo, hi) ->
  mins = map f_low (map (reset (on d) lo hi) fs) -> maxs = map f_high (map (reset (on d) lo hi) fs) ->
  describes sett q (p ++ [d]) (mkCond (c_idx c) (Some mins) (Some maxs) (c_names c) (c_imp c)).
Proof.
  intros ((L1 & L2 & L3 & L4) & (D1 & D2) & O & B & A & I) Hd U -> ->. rewrite <- along_snoc in U.
  assert (X : forall f, f <> on d -> along q (p ++ [d]) f = along q p f).
  { intros f Hf. rewrite along_snoc. unfold update. destruct (Z.eqb_spec f (on d)); [contradiction|auto]. }
  assert (EI : map f_index (map (reset (on d) lo hi) fs) = map f_index fs)
    by (rewrite map_map; apply map_ext; intros; apply reset_index).
  assert (EN : map f_name (map (reset (on d) lo hi) fs) = map f_name fs)
    by (rewrite map_map; apply map_ext; intros; apply reset_name).
  exists (map (reset (on d) lo hi) fs). split; [|split; [|split; [|split; [|split]]]].
  - unfold lists. cbn [c_idx c_min c_max c_names]. rewrite EI, EN. auto.
  - split; rewrite ?EI, ?EN; auto.
  - apply reset_order. auto.
  - intros g Ig. apply in_map_iff in Ig. destruct Ig as (h & <- & Ih). rewrite reset_index, reset_name.
    destruct (B h Ih) as (B1 & B2). split; auto. unfold reset.
    destruct (Z.eqb_spec (f_index h) (on d)) as [E|E]; [rewrite E; auto|rewrite X; auto].
  - intros f Hf. rewrite EI. destruct (Z.eq_dec f (on d)) as [->|E]; auto. apply A. rewrite <- X; auto.
  - cbn [c_imp]. intros Im. destruct (I Im) as (p1 & p2 & f & l & h & -> & Y & Z). exists p1, (p2 ++ [d]), f, l, h.
    rewrite <- app_assoc. auto.
Qed.

Lemma nth_low q f x : nth_error (q_xmins q) (Z.to_nat f) = Some x -> low_of q f = x.
Proof. intros H. unfold low_of. apply nth_error_nth; auto. Qed.
Lemma nth_high q f x : nth_error (q_xmaxs q) (Z.to_nat f) = Some x -> high_of q f = x.
Proof. intros H. unfold high_of. apply nth_error_nth; auto. Qed.

Lemma at_nth {A} (l : list A) i x : at_pos l i = Ok x <-> nth_error l i = Some x.
Proof. unfold at_pos. destruct (nth_error l i); split; congruence. Qed.

Lemma left_step sett q p o f th c :
  known sett -> 0 <= f -> so_far sett q p o -> left_condition sett q o f th = Ok c ->
  describes sett q (p ++ [mkStep f th Below]) c.
Proof.
  intros K P S H. unfold left_condition in H. pull H xmin X. apply py_index_nth in X; auto. apply nth_low in X.
  pull H new Nw. destruct (one_feature_ok _ _ _ _ _ _ K P Nw) as (name & Fn & C).
  set (d := mkStep f th Below).
  assert (New : (forall e, In e p -> on e <> f) -> (match o with None => Ok new | Some c => band sett c new end) = Ok c ->
                describes sett q (p ++ [d]) c).
  { intros F B. apply (fresh_step sett q p o d c new name xmin th); auto.
    unfold update. cbn [on d goes bound]. rewrite Z.eqb_refl. rewrite (proj2 (along_none q p f) F), X. auto. }
  destruct o as [c0|]; [|apply New; auto; cbn in S; subst p; intros e []].
  pose proof S as (_ & fs & (L1 & L2 & L3 & L4) & (D1 & D2) & O & B & A & I).
  rewrite L1 in H. cbn [need rbind] in H.
  destruct (index_of Z.eqb f (map f_index fs)) as [place|] eqn:Pl.
  - rewrite L3 in H. cbn [need rbind] in H. pull H old Od. injection H as <-.
    destruct (index_of_place _ _ _ Pl) as (g & Ng & Eg). apply at_nth in Od.
    rewrite (map_nth_error f_high _ _ Ng) in Od. injection Od as <-.
    assert (Ig : In g fs) by (eapply nth_error_In; eauto). destruct (B g Ig) as (B1 & B2). rewrite Eg in B2.
    rewrite L2, <- L1. apply (reset_step sett q p c0 fs d (f_low g) (py_min th (f_high g))); cbn [on d].
    + repeat (split; auto).
    + rewrite <- Eg. apply in_map; auto.
    + unfold update. cbn [on d goes bound]. rewrite Z.eqb_refl, B2. auto.
    + rewrite map_map. apply map_ext_in. intros h Ih. unfold reset.
      destruct (Z.eqb_spec (f_index h) f) as [E|E]; auto. cbn. f_equal.
      apply (NoDup_map_inj f_index fs); auto. congruence.
    + apply set_nth_reset; auto. intros h Eh. unfold reset. rewrite Eh, Z.eqb_refl. auto.
  - apply New; auto. intros e Ie Ee. apply index_of_absent in Pl. apply Pl. apply A. intros Z.
    apply (proj1 (along_none q p f) Z e); auto.
Qed.

Lemma right_step sett q p o f th c :
  known sett -> 0 <= f -> so_far sett q p o -> right_condition sett q o f th = Ok c ->
  describes sett q (p ++ [mkStep f th Above]) c.
Proof.
  intros K P S H. unfold right_condition in H. pull H xmax X. apply py_index_nth in X; auto. apply nth_high in X.
  pull H new Nw. destruct (one_feature_ok _ _ _ _ _ _ K P Nw) as (name & Fn & C).
  set (d := mkStep f th Above).
  assert (New : (forall e, In e p -> on e <> f) -> (match o with None => Ok new | Some c => band sett c new end) = Ok c ->
                describes sett q (p ++ [d]) c).
  { intros F B. apply (fresh_step sett q p o d c new name th xmax); auto.
    unfold update. cbn [on d goes bound]. rewrite Z.eqb_refl. rewrite (proj2 (along_none q p f) F), X. auto. }
  destruct o as [c0|]; [|apply New; auto; cbn in S; subst p; intros e []].
  pose proof S as (_ & fs & (L1 & L2 & L3 & L4) & (D1 & D2) & O & B & A & I).
  rewrite L1 in H. cbn [need rbind] in H.
  destruct (index_of Z.eqb f (map f_index fs)) as [place|] eqn:Pl.
  - rewrite L2, L3 in H. cbn [need rbind] in H. pull H old Od. pull H oldm Om. injection H as <-.
    destruct (index_of_place _ _ _ Pl) as (g & Ng & Eg). apply at_nth in Od. apply at_nth in Om.
    rewrite (map_nth_error f_low _ _ Ng) in Od. injection Od as <-.
    rewrite (map_nth_error f_high _ _ Ng) in Om. injection Om as <-.
    assert (Ig : In g fs) by (eapply nth_error_In; eauto). destruct (B g Ig) as (B1 & B2). rewrite Eg in B2.
    rewrite <- L1. apply (reset_step sett q p c0 fs d (py_max th (f_low g)) (py_max xmax (f_high g))); cbn [on d].
    + repeat (split; auto).
    + rewrite <- Eg. apply in_map; auto.
    + unfold update. cbn [on d goes bound]. rewrite Z.eqb_refl, B2, X. auto.
    + apply set_nth_reset; auto. intros h Eh. unfold reset. rewrite Eh, Z.eqb_refl. auto.
    + apply set_nth_reset; auto. intros h Eh. unfold reset. rewrite Eh, Z.eqb_refl. auto.
  - apply New; auto. intros e Ie Ee. apply index_of_absent in Pl. apply Pl. apply A. intros Z.
    apply (proj1 (along_none q p f) Z e); auto.
Qed.

(** ** Success of the steps *)

Definition names_differ (q : request) (p : list step) (f : Z) : Prop :=
  forall e name, In e p -> feature_name q (on e) name -> feature_name q f name -> on e = f.

Lemma one_feature_succeeds sett q f lo hi name : 0 <= f -> known sett -> feature_name q f name ->
  exists c, one_feature sett q f lo hi = Ok c /\ condition c [mkFeat name f lo hi].
Proof.
  intros P K N. unfold one_feature. rewrite (proj2 (py_index_nth (tree_names q) f name P)) by (apply tree_names_spec; auto).
  cbn [rbind]. destruct (rebuild_ok sett [mkFeat name f lo hi]) as (c & E & C); auto.
  { split; repeat constructor; auto. }
  exists c. split; [exact E|]. rewrite arranged_short in C by (cbn; lia). auto.
Qed.

Lemma band_succeeds sett q p c new f name lo hi :
  known sett -> describes sett q p c -> (forall e, In e p -> on e <> f) -> feature_name q f name ->
  names_differ q p f -> condition new [mkFeat name f lo hi] -> exists c', band sett c new = Ok c'.
Proof.
  intros K (fs & L & D & O & B & A & _) F N ND C.
  destruct (band_cases sett c new fs [mkFeat name f lo hi]) as [(_ & c' & gs & E & _)|(Z & _)]; eauto; try apply C.
  exfalso. apply Z. intros g h Ig [ <- |[]]. cbn.
  assert (X : exists e, In e p /\ on e = f_index g).
  { destruct (B g Ig) as (_ & Bg). destruct (in_dec Z.eq_dec (f_index g) (map on p)) as [I|I].
    - apply in_map_iff in I. destruct I as (e & E & I). eauto.
    - exfalso. rewrite (proj2 (along_none q p (f_index g))) in Bg; [discriminate|]. intros e Ie Ee. apply I. rewrite <- Ee. apply in_map; auto. }
  destruct X as (e & Ie & Ee). destruct (B g Ig) as (Bn & _). split; intros Eq.
  - rewrite <- Ee. apply (ND e name); auto. rewrite Ee, <- Eq. auto.
  - exfalso. apply (F e); auto. congruence.
Qed.

Lemma place_at {A} (h : feature -> A) fs f i : index_of Z.eqb f (map f_index fs) = Some i ->
  exists g, at_pos (map h fs) i = Ok (h g).
Proof.
  intros H. destruct (index_of_place _ _ _ H) as (g & Ng & _). exists g. apply at_nth. apply map_nth_error. auto.
Qed.

Lemma left_succeeds sett q p o f th : known sett -> 0 <= f -> so_far sett q p o ->
  f < Z.of_nat (List.length (q_xmins q)) -> (exists name, feature_name q f name) -> names_differ q p f ->
  exists c, left_condition sett q o f th = Ok c.
Proof.
  intros K P S L (name & N) ND. unfold left_condition.
  destruct (nth_error (q_xmins q) (Z.to_nat f)) as [xmin|] eqn:X; [|apply nth_error_None in X; lia].
  rewrite (proj2 (py_index_nth _ _ _ P) X). cbn [rbind].
  destruct (one_feature_succeeds sett q f xmin th name P K N) as (new & -> & C). cbn [rbind].
  destruct o as [c0|]; [|eauto]. destruct S as (_ & S). pose proof S as (fs & (L1 & L2 & L3 & L4) & D & O & B & A & _).
  rewrite L1. cbn [need rbind]. destruct (index_of Z.eqb f (map f_index fs)) as [place|] eqn:Pl.
  - rewrite L3. cbn [need rbind]. destruct (place_at f_high _ _ _ Pl) as (g & ->). cbn. eauto.
  - apply (band_succeeds sett q p c0 new f name xmin th); auto. intros e Ie Ee. apply index_of_absent in Pl. apply Pl.
    apply A. intros Z. apply (proj1 (along_none q p f) Z e); auto.
Qed.

Lemma right_succeeds sett q p o f th : known sett -> 0 <= f -> so_far sett q p o ->
  f < Z.of_nat (List.length (q_xmaxs q)) -> (exists name, feature_name q f name) -> names_differ q p f ->
  exists c, right_condition sett q o f th = Ok c.
Proof.
  intros K P S L (name & N) ND. unfold right_condition.
  destruct (nth_error (q_xmaxs q) (Z.to_nat f)) as [xmax|] eqn:X; [|apply nth_error_None in X; lia].
  rewrite (proj2 (py_index_nth _ _ _ P) X). cbn [rbind].
  destruct (one_feature_succeeds sett q f th xmax name P K N) as (new & -> & C). cbn [rbind].
  destruct o as [c0|]; [|eauto]. destruct S as (_ & S). pose proof S as (fs & (L1 & L2 & L3 & L4) & D & O & B & A & _).
  rewrite L1. cbn [need rbind]. destruct (index_of Z.eqb f (map f_index fs)) as [place|] eqn:Pl.
  - rewrite L2, L3. cbn [need rbind]. destruct (place_at f_low _ _ _ Pl) as (g & ->).
    destruct (place_at f_high _ _ _ Pl) as (h & ->). cbn. eauto.
  - apply (band_succeeds sett q p c0 new f name th xmax); auto. intros e Ie Ee. apply index_of_absent in Pl. apply Pl.
    apply A. intros Z. apply (proj1 (along_none q p f) Z e); auto.
Qed.
