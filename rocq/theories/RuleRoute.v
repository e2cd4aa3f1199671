(** Proofs about the attributes of rules, their thresholds and the comparison of
    their activations. *)
From Coq Require Import List ZArith QArith Bool String Ascii Lia Lqa.
From Coq Require Import List.
From Verif Require ActModel ActSpec ActCodec.
From Verif Require Import Base Num Arith CondModel CondSpec CondBase ThrModel ThrSpec ThrProofs MetModel MetSpec
  MetReg MetClass RuleModel RuleSpec RuleProofs RuleFit RuleValues RuleEval RuleMisc.
Import ListNotations.
Open Scope string_scope.
Open Scope list_scope.
Open Scope Z_scope.

(** ** Inclusion *)

Definition ones (v : list Z) : nat := List.length (filter (fun x => x =? 1) v).

Lemma ones_cons x t : ones (x :: t) = ((if (x =? 1)%Z then 1 else 0) + ones t)%nat.
Proof. unfold ones. cbn [filter]. destruct (x =? 1); auto. Qed.

Lemma ones_product u v : bits u -> bits v -> List.length u = List.length v ->
  (ones (product u v) <= ones u)%nat /\ (ones (product u v) = ones u <-> included u v).
Proof.
  intros Bu. revert v. induction Bu as [|a t Ha Bt IH]; intros v Bv L.
  - destruct v; [|discriminate]. cbn. split; [lia|]. split; auto. constructor.
  - destruct v as [|b s]; [discriminate|]. inversion Bv as [|? ? Hb Bs]; subst. injection L as L.
    destruct (IH s Bs L) as (I1 & I2). cbn [product]. rewrite !ones_cons.
    destruct Ha as [->| -> ], Hb as [->| -> ]; cbn -[ones]; (split; [lia|]).
    + split; [intros E; constructor; [discriminate|]; apply I2; lia|intros K; inversion K; subst; apply I2 in H4; lia].
    + split; [intros E; constructor; [discriminate|]; apply I2; lia|intros K; inversion K; subst; apply I2 in H4; lia].
    + split; [lia|intros K; inversion K; subst; specialize (H2 eq_refl); discriminate].
    + split; [intros E; constructor; [auto|]; apply I2; lia|intros K; inversion K; subst; apply I2 in H4; lia].
Qed.

Lemma product_comm u v : product u v = product v u.
Proof. revert v. induction u as [|a t IH]; intros [|b s]; cbn; auto. rewrite IH, Z.mul_comm. auto. Qed.

Lemma rule_contains_ok r1 r2 v1 v2 : working r1 None v1 -> working r2 None v2 -> bits v1 -> bits v2 -> v1 <> [] ->
  List.length v1 = List.length v2 ->
  exists b, rule_contains r1 r2 = Ok b /\ (b = true <-> included v1 v2 \/ included v2 v1).
Proof.
  intros (a1 & A1 & R1) (a2 & A2 & R2) B1 B2 N L. unfold rule_contains. rewrite A1, A2.
  destruct (raw_inv _ _ R1) as (_ & V1). destruct (raw_inv _ _ R2) as (_ & V2).
  unfold act_contains, act_and, alen, nones. rewrite V1, V2, R1, R2, <- L, Z.eqb_refl.
  assert (Z : Z.of_nat (List.length v1) =? 0 = false) by (destruct v1; [congruence|auto]). rewrite Z.
  cbn [orb negb rbind new_activation v_bits]. rewrite and_product. eexists. split; [reflexivity|].
  fold (ones (product v1 v2)). fold (ones v1). fold (ones v2).
  destruct (ones_product v1 v2 B1 B2 L) as (I1 & E1).
  destruct (ones_product v2 v1 B2 B1 (eq_sym L)) as (I2 & E2). rewrite product_comm in I2, E2.
  rewrite negb_true_iff, Z.ltb_ge, <- E1, <- E2. lia.
Qed.

Lemma rule_contains_missing r1 r2 : r_act r1 = None \/ r_act r2 = None -> rule_contains r1 r2 = Ok false.
Proof. intros [A|A]; unfold rule_contains; rewrite A; auto. destruct (r_act r1); auto. Qed.

Lemma rule_contains_lengths r1 r2 v1 v2 : working r1 None v1 -> working r2 None v2 -> v1 <> [] -> v2 <> [] ->
  List.length v1 <> List.length v2 -> rule_contains r1 r2 = Err EValue.
Proof.
  intros (a1 & A1 & R1) (a2 & A2 & R2) N1 N2 L. unfold rule_contains. rewrite A1, A2.
  destruct (raw_inv _ _ R1) as (_ & V1). destruct (raw_inv _ _ R2) as (_ & V2).
  unfold act_contains, act_and, alen. rewrite V1, V2.
  assert (Z1 : Z.of_nat (List.length v1) =? 0 = false) by (destruct v1; [congruence|auto]). rewrite Z1.
  assert (Z2 : Z.of_nat (List.length v2) =? 0 = false) by (destruct v2; [congruence|auto]). rewrite Z2.
  cbn [orb]. destruct (Z.eqb_spec (Z.of_nat (List.length v1)) (Z.of_nat (List.length v2))); [lia|auto].
Qed.

(** ** Correlation *)

Lemma agreements_count u v : List.length u = List.length v ->
  agreements u v (List.length (filter (fun p => fst p =? snd p) (combine u v))).
Proof.
  revert v. induction u as [|a t IH]; intros [|b s] L; try discriminate; [constructor|].
  injection L as L. cbn [combine filter fst snd]. destruct (Z.eqb_spec a b).
  - subst b. cbn [List.length]. constructor. auto.
  - constructor; auto.
Qed.

Lemma sign_of_fin q s : unit_sign q s -> exists t, sign_of (number (Fin q)) = Ok (Fin t) /\ (t == s)%Q.
Proof.
  intros U. unfold sign_of, number. cbn [nabs ndiv].
  assert (A : ~ (Qabs.Qabs q == 0)%Q).
  { destruct U as [(P & _)|(P & _)]; [rewrite Qabs.Qabs_pos by lra|rewrite Qabs.Qabs_neg by lra]; lra. }
  destruct (Qeq_bool (Qabs.Qabs q) 0) eqn:Z; [apply Qeq_bool_iff in Z; contradiction|].
  eexists. split; [reflexivity|].
  destruct U as [(P & ->)|(P & ->)].
  - rewrite Qabs.Qabs_pos in * by lra. field. auto.
  - rewrite Qabs.Qabs_neg in * by lra. field. lra.
Qed.

Lemma correlation_ok r1 r2 c1 c2 v1 v2 q1 q2 s1 s2 :
  r_cond r1 = Some c1 -> r_cond r2 = Some c2 -> clen c1 = clen c2 ->
  working r1 None v1 -> working r2 None v2 -> List.length v1 = List.length v2 -> v1 <> [] ->
  getattr r1 "prediction" = Ok (number (Fin q1)) -> getattr r2 "prediction" = Ok (number (Fin q2)) ->
  unit_sign q1 s1 -> unit_sign q2 s2 ->
  exists k x, agreements v1 v2 k /\ get_correlation r1 r2 = Ok x /\
    same_num x (Fin (s1 * s2 * (inject_Z (Z.of_nat k) / inject_Z (Z.of_nat (List.length v1))))).
Proof.
  intros C1 C2 LC (a1 & A1 & R1) (a2 & A2 & R2) L N P1 P2 U1 U2.
  rewrite prediction_attr in P1, P2. unfold get_correlation, rule_len. rewrite C1, C2. cbn [rbind].
  rewrite LC, Nat.eqb_refl. cbn [negb]. rewrite P1, P2. cbn [rbind].
  destruct (sign_of_fin _ _ U1) as (t1 & -> & T1). destruct (sign_of_fin _ _ U2) as (t2 & -> & T2). cbn [rbind].
  rewrite A1, A2. unfold act_correlation, alen.
  destruct (raw_inv _ _ R1) as (_ & V1). destruct (raw_inv _ _ R2) as (_ & V2).
  rewrite V1, V2, R1, R2, <- L, Z.eqb_refl.
  assert (Z : Z.of_nat (List.length v1) =? 0 = false) by (destruct v1; [congruence|auto]). rewrite Z.
  cbn [negb rbind rmap]. exists (List.length (filter (fun p => fst p =? snd p) (combine v1 v2))). eexists.
  split; [apply agreements_count; auto|]. split; [reflexivity|]. cbn. rewrite T1, T2. ring.
Qed.

Lemma correlation_refused r1 r2 c1 c2 : r_cond r1 = Some c1 -> r_cond r2 = Some c2 ->
  (clen c1 <> clen c2 -> get_correlation r1 r2 = Err EValue) /\
  (forall v1 v2 q1 q2, clen c1 = clen c2 -> working r1 None v1 -> working r2 None v2 ->
     List.length v1 <> List.length v2 ->
     getattr r1 "prediction" = Ok (number q1) -> getattr r2 "prediction" = Ok (number q2) ->
     get_correlation r1 r2 = Err EValue).
Proof.
  intros C1 C2. rewrite !prediction_attr. unfold get_correlation, rule_len. rewrite C1, C2. cbn [rbind].
  split.
  - intros N. apply Nat.eqb_neq in N. rewrite N. auto.
  - intros v1 v2 q1 q2 LC (a1 & A1 & R1) (a2 & A2 & R2) L P1 P2. rewrite LC, Nat.eqb_refl, P1, P2. cbn [negb rbind sign_of number].
    rewrite A1, A2. unfold act_correlation, alen.
    destruct (raw_inv _ _ R1) as (_ & V1). destruct (raw_inv _ _ R2) as (_ & V2). rewrite V1, V2.
    destruct (Z.eqb_spec (Z.of_nat (List.length v1)) (Z.of_nat (List.length v2))); [lia|auto].
Qed.

(** ** Reading *)

(** The rule has no attribute [n] of its own. *)
Lemma delegated_read r n : dget n (properties (r_kind r)) = None -> dget n (fields r) = None ->
  dget n (constants (r_kind r)) = None -> ~ In n (map fst (r_dict r)) -> getattr r n = delegated r n.
Proof.
  intros P F C N. unfold getattr. rewrite P.
  assert (D : dget n (r_dict r ++ fields r ++ constants (r_kind r)) = None); [|rewrite D; auto].
  apply dget_none. intros v. rewrite !in_app_iff. intros [K|[K|K]].
  - apply N. apply (in_map fst) in K. auto.
  - eapply dget_none in F; eauto.
  - eapply dget_none in C; eauto.
Qed.

Lemma bits_vec v : bits v -> exists w, v = ActSpec.as_01 w.
Proof.
  intros B. induction B as [|a t Ha Bt (w & ->)]; [exists []; auto|].
  destruct Ha as [->| -> ]; [exists (false :: w)|exists (true :: w)]; auto.
Qed.

Lemma nones_vec w b c : nones (mkActv (ActSpec.as_01 w) b c) = ActSpec.n_ones w.
Proof. rewrite <- ActCodec.count_ones_as_01. reflexivity. Qed.

Lemma read_activation r a w : r_act r = Some a -> v_bits a = ActSpec.as_01 w ->
  (forall n, In n ["nones"; "length"; "entropy"; "rel_entropy"; "raw"; "ones"] -> ~ In n (map fst (r_dict r))) ->
  getattr r "nones" = Ok (integer (ActSpec.n_ones w)) /\
  getattr r "length" = Ok (integer (ActSpec.size w)) /\
  (w <> [] -> getattr r "entropy" = Ok (integer (Z.of_nat (List.length (ActSpec.switches w)) + 2))) /\
  (w <> [] -> getattr r "rel_entropy" =
     Ok (number (Fin (ActSpec.fraction (Z.of_nat (List.length (ActSpec.switches w)) + 2) (ActSpec.size w))))) /\
  (v_here a = true -> getattr r "raw" = Ok (OInts (ActSpec.as_01 w)) /\
     getattr r "ones" = Ok (OInts (ActSpec.positions w))) /\
  (v_here a = false -> getattr r "raw" = Err EFileNotFound /\ getattr r "ones" = Err EFileNotFound).
Proof.
  intros A B N.
  assert (Rd : forall n f, dget n activation_attributes = Some f ->
    In n ["nones"; "length"; "entropy"; "rel_entropy"; "raw"; "ones"] ->
    match f a with Err EAttr => True | v => getattr r n = v end).
  { intros n f D I. assert (X : getattr r n = delegated r n).
    { apply delegated_read; auto; cbn [In] in I; 
        repeat (destruct I as [<-|I]; [destruct (r_kind r); reflexivity|]); contradiction. }
    rewrite X. unfold delegated, find_attribute. rewrite A, D. destruct (f a) as [|[]]; auto. }
  assert (SzL : alen a = ActSpec.size w).
  { unfold alen, ActSpec.size. rewrite B. unfold ActSpec.as_01. rewrite map_length. auto. }
  assert (SzN : nones a = ActSpec.n_ones w) by (rewrite <- (nones_vec w (v_here a) (v_coverage a)), <- B; destruct a; auto).
  assert (En : w <> [] -> Z.of_nat (List.length (ActModel.compress_list (v_bits a))) =
    Z.of_nat (List.length (ActSpec.switches w)) + 2).
  { intros Ne. rewrite B, ActCodec.compress_list_runs by auto. unfold ActSpec.run_lengths. cbn [List.length].
    rewrite app_length. cbn [List.length]. lia. }
  split. { rewrite (Rd "nones" _ eq_refl) by (cbn; tauto). rewrite SzN. auto. }
  split. { rewrite (Rd "length" _ eq_refl) by (cbn; tauto). rewrite SzL. auto. }
  split. { intros Ne. rewrite (Rd "entropy" _ eq_refl) by (cbn; tauto). rewrite En; auto. }
  split.
  { intros Ne. pose proof (Rd "rel_entropy" _ eq_refl) as X. cbv beta in X. rewrite SzL in X.
    assert (Z : ActSpec.size w =? 0 = false) by (destruct w; [congruence|auto]). rewrite Z in X.
    rewrite X by (cbn; tauto). rewrite En by auto. auto. }
  pose proof (Rd "raw" _ eq_refl) as X. pose proof (Rd "ones" _ eq_refl) as Y. cbv beta in X, Y. unfold raw in X, Y.
  split; intros H; rewrite H in X, Y; cbn [rmap] in X, Y; (split; [rewrite X by (cbn; tauto)|rewrite Y by (cbn; tauto)]);
    rewrite ?B, ?ActCodec.where_one_positions; auto.
Qed.

Lemma read_coverage r a w : r_act r = Some a -> v_bits a = ActSpec.as_01 w -> w <> [] -> v_coverage a = XNone ->
  getattr r "coverage" = Ok (number (Fin (ActSpec.fraction (ActSpec.n_ones w) (ActSpec.size w)))).
Proof.
  intros A B N C. rewrite getattr_measure by (destruct (r_kind r); left; auto).
  change (measure_read r "coverage") with (coverage r). unfold coverage, act_coverage. rewrite A, C.
  assert (SzL : alen a = ActSpec.size w).
  { unfold alen, ActSpec.size. rewrite B. unfold ActSpec.as_01. rewrite map_length. auto. }
  assert (SzN : nones a = ActSpec.n_ones w) by (rewrite <- (nones_vec w (v_here a) (v_coverage a)), <- B; destruct a; auto).
  rewrite SzL, SzN. assert (Z : ActSpec.size w =? 0 = false) by (destruct w; [congruence|auto]). rewrite Z. auto.
Qed.

Definition condition_names : list string := ["features_names"; "features_indexes"; "bmins"; "bmaxs"; "impossible"].

Lemma read_condition r c fs : r_cond r = Some c -> lists c fs ->
  (forall n, In n condition_names -> ~ In n (map fst (r_dict r))) ->
  getattr r "features_names" = Ok (OTexts (map f_name fs)) /\
  getattr r "features_indexes" = Ok (OInts (map f_index fs)) /\
  getattr r "bmins" = Ok (ONums (map f_low fs)) /\
  getattr r "bmaxs" = Ok (ONums (map f_high fs)) /\
  getattr r "impossible" = Ok (boolean (c_imp c)).
Proof.
  intros C (L1 & L2 & L3 & L4) N.
  assert (Rd : forall n f, dget n condition_attributes = Some f -> dget n activation_attributes = None ->
    In n condition_names -> match f c with Err EAttr => True | v => getattr r n = v end).
  { intros n f D D2 I. assert (X : getattr r n = delegated r n).
    { apply delegated_read; auto; cbn [condition_names In] in I;
        repeat (destruct I as [<-|I]; [destruct (r_kind r); reflexivity|]); contradiction. }
    rewrite X. unfold delegated, find_attribute. rewrite C, D, D2. destruct (r_act r); destruct (f c) as [|[]]; auto. }
  split; [rewrite (Rd "features_names" _ eq_refl eq_refl) by (cbn; tauto); rewrite L4; auto|].
  split; [rewrite (Rd "features_indexes" _ eq_refl eq_refl) by (cbn; tauto); rewrite L1; auto|].
  split; [rewrite (Rd "bmins" _ eq_refl eq_refl) by (cbn; tauto); rewrite L2; auto|].
  split; [rewrite (Rd "bmaxs" _ eq_refl eq_refl) by (cbn; tauto); rewrite L3; auto|].
  rewrite (Rd "impossible" _ eq_refl eq_refl) by (cbn; tauto); auto.
Qed.

(** Nothing to read from *)
Lemma read_missing r n : ~ In n (map fst (r_dict r)) ->
  (In n ["nones"; "length"; "entropy"; "rel_entropy"; "raw"; "ones"] -> r_act r = None -> getattr r n = Err EAttr) /\
  (In n condition_names -> r_cond r = None -> getattr r n = Err EAttr).
Proof.
  intros N. split; intros I A; (rewrite delegated_read; auto;
    [unfold delegated, find_attribute; rewrite A| | |]); cbn [In condition_names] in I;
    repeat (destruct I as [<-|I]; [try (destruct (r_kind r); reflexivity); try (destruct (r_cond r); reflexivity);
      try (destruct (r_act r); reflexivity)|]); try contradiction.
Qed.

Lemma read_unknown r n : ~ In n (dir r) -> r_act r = None -> r_cond r = None -> getattr r n = Err EAttr.
Proof.
  intros N A C. unfold dir in N. rewrite sorted_In, set_of_In in N by apply seqb_spec.
  rewrite !in_app_iff in N. unfold getattr.
  destruct (dget n (properties (r_kind r))) as [f|] eqn:P.
  { apply dget_some, (in_map fst) in P. exfalso. apply N. left. auto. }
  destruct (dget n (r_dict r ++ fields r ++ constants (r_kind r))) as [v|] eqn:D.
  { apply dget_some, (in_map fst) in D. rewrite !map_app, !in_app_iff in D. tauto. }
  unfold delegated. rewrite A, C. auto.
Qed.

(** ** Writing *)

Lemma put_public n v r : public n -> dget n (properties (r_kind r)) = None ->
  getattr (put n v r) n = Ok v /\ same_attributes [n] r (put n v r).
Proof.
  intros Pu P. split.
  - unfold getattr. change (r_kind (put n v r)) with (r_kind r). rewrite P.
    assert (X : forall c, dget n (dset n v (r_dict r) ++ c) = Some v).
    { intros c. induction (r_dict r) as [|(k, w) t IH]; cbn [dset app dget]; [rewrite str_refl; auto|].
      destruct (str_eqb n k) eqn:K; cbn [app dget]; [rewrite str_refl; auto|rewrite K; auto]. }
    change (r_dict (put n v r)) with (dset n v (r_dict r)). rewrite X. auto.
  - intros m N. assert (N1 : m <> n) by (intros ->; apply N; left; auto).
    assert (S1 : forall m, (exists s, m = String "_" s) -> slot m (put n v r) = slot m r).
    { intros k (s & ->). apply slot_put_other. intros K. symmetry in K. revert K. apply (Pu s). }
    unfold getattr. change (r_kind (put n v r)) with (r_kind r).
    assert (Dl : forall m, delegated (put n v r) m = delegated r m) by reflexivity.
    destruct (dget m (properties (r_kind r))) as [f|] eqn:D.
    + assert (Ff : f (put n v r) = f r).
      { apply dget_some in D.
        unfold properties in D. apply in_app_or in D. destruct D as [D|D].
        - destruct (r_kind r); cbn [In] in D; unfold reads in D;
            repeat (destruct D as [D|D]; [injection D as <- <-; cbv beta; rewrite S1 by (eexists; reflexivity); reflexivity|]); contradiction.
        - cbn [In] in D. unfold reads in D.
          repeat (destruct D as [D|D]; [injection D as Dn Df; subst; first
            [reflexivity | cbv beta; rewrite S1 by (eexists; reflexivity); reflexivity
            | unfold coverage; rewrite S1 by (eexists; reflexivity); reflexivity
            | unfold prediction; rewrite S1 by (eexists; reflexivity); reflexivity]|]). contradiction. }
      rewrite Ff. reflexivity.
    + assert (X : forall d c, dget m (dset n v d ++ c) = dget m (d ++ c)).
      { intros d c. induction d as [|(k, w) t IH]; cbn [dset app dget].
        - rewrite str_neq by auto. auto.
        - destruct (str_eqb n k) eqn:K; cbn [app dget].
          + apply seqb_spec in K. subst k. rewrite str_neq by auto. auto.
          + destruct (str_eqb m k); auto. }
      change (r_dict (put n v r)) with (dset n v (r_dict r)). rewrite X.
      change (fields (put n v r)) with (fields r). reflexivity.
Qed.

Definition settable : list string := ["coverage"; "train_set_size"; "test_set_size"].

Lemma settable_property k n : In n settable -> dget n (properties k) <> None.
Proof. intros I. cbn [settable In] in I. destruct k; repeat (destruct I as [<-|I]; [discriminate|]); contradiction. Qed.

Lemma super_plain r n v : dget n (properties (r_kind r)) = None -> super_setattr r n v = (Ok tt, put n v r).
Proof.
  intros P. unfold super_setattr. rewrite P.
  rewrite !str_neq; auto; intros ->; (eapply settable_property; [|apply P]); cbn; tauto.
Qed.

(** A name that can be read and is not a property of the class is set on the
    rule. *)
Lemma assign_known r n v o : public n -> dget n (properties (r_kind r)) = None -> getattr r n = Ok o ->
  exists r', setattr r n v = (Ok tt, r') /\ getattr r' n = Ok v /\ same_attributes [n] r r' /\
    r_cond r' = r_cond r /\ r_act r' = r_act r.
Proof.
  intros Pu P G. exists (put n v r). unfold setattr, hasattr. rewrite G, super_plain by auto.
  split; auto. destruct (put_public n v r Pu P) as (A & B). auto.
Qed.

Lemma assign_unknown r n v : getattr r n = Err EAttr -> setattr r n v = (Err EAttr, r).
Proof.
  intros G. unfold setattr, hasattr. rewrite G.
  assert (D : delegated r n = Err EAttr).
  { unfold getattr in G. destruct (dget n (properties (r_kind r))) as [f|].
    - destruct (f r) as [|[]]; congruence.
    - destruct (dget n (r_dict r ++ fields r ++ constants (r_kind r))); congruence. }
  unfold delegated in D.
  assert (F : forall T (t : list (string * (T -> res obj))) o, find_attribute t o n <> Some (Err EAttr)).
  { intros T t o. unfold find_attribute. destruct o as [x|]; [|discriminate]. destruct (dget n t) as [f|]; [|discriminate].
    destruct (f x) as [|[]]; discriminate. }
  destruct (find_attribute activation_attributes (r_act r) n) eqn:X; [subst; destruct (F _ _ _ X)|].
  destruct (find_attribute condition_attributes (r_cond r) n) eqn:Y; [subst; destruct (F _ _ _ Y)|]. auto.
Qed.

Definition read_only : list string :=
  ["activation"; "activation_available"; "condition"; "prediction"; "thresholds"; "good"; "bad_because"; "time_fit";
   "time_predict"; "time_calc_activation"; "to_hash"].

Lemma assign_refused r n v :
  In n (read_only ++ match r_kind r with
    | KRule => []
    | KRegression => ["std"; "sign"; "criterion"; "zscore"; "time_calc_prediction"; "time_calc_criterion"; "time_calc_std"]
    | KClassification => ["criterion"] end) ->
  (exists e, setattr r n v = (Err e, r)) /\ (forall o, getattr r n = Ok o -> setattr r n v = (Err EAttr, r)).
Proof.
  intros I.
  assert (H : super_setattr r n v = (Err EAttr, r)).
  { unfold super_setattr. apply in_app_or in I. destruct I as [I|I].
    - cbn [read_only In] in I. destruct (r_kind r); repeat (destruct I as [<-|I]; [reflexivity|]); contradiction.
    - destruct (r_kind r); cbn [In] in I; repeat (destruct I as [<-|I]; [reflexivity|]); contradiction. }
  unfold setattr, hasattr. split.
  - destruct (getattr r n) as [o|e] eqn:G; [eauto|]. destruct e; eauto.
    destruct (find_attribute activation_attributes (r_act r) n); eauto.
    destruct (find_attribute condition_attributes (r_cond r) n); eauto.
  - intros o ->. auto.
Qed.

Lemma assign_sizes r n v : n = "train_set_size" \/ n = "test_set_size" ->
  exists r', setattr r n v = (Ok tt, r') /\ getattr r' n = Ok v /\
    r_cond r' = r_cond r /\ r_act r' = r_act r /\
    (forall m, In m (measures (r_kind r)) -> m <> n -> getattr r' m = getattr r m).
Proof.
  intros N. exists (put ("_" ++ n)%string v r).
  assert (M : In n (measures (r_kind r))) by (destruct N as [->| -> ]; destruct (r_kind r); cbn; tauto).
  assert (Rd : forall r, In n (measures (r_kind r)) -> getattr r n = Ok (slot ("_" ++ n)%string r)).
  { intros r0 M0. rewrite getattr_measure by auto. destruct N as [->| -> ]; auto. }
  split.
  { unfold setattr, hasattr. rewrite Rd by auto. unfold super_setattr. destruct N as [->| -> ]; reflexivity. }
  split. { rewrite Rd by auto. rewrite slot_put. auto. }
  split; auto. split; auto. intros m I D. apply (same_measure [("_" ++ n)%string]); auto.
  - apply same_put. left; auto.
  - intros [K|[]]. apply app_inj_str in K. congruence.
Qed.

Lemma assign_coverage r v o : getattr r "coverage" = Ok o -> v <> none -> (exists w, v = OVal w) ->
  exists r', setattr r "coverage" v = (Ok tt, r') /\ getattr r' "coverage" = Ok v /\
    r_cond r' = r_cond r /\ (forall u, working r None u <-> working r' None u) /\
    (forall m, In m (measures (r_kind r)) -> m <> "coverage" -> getattr r' m = getattr r m).
Proof.
  intros G N (w & ->). exists (set_coverage (OVal w) r). split; [|split; [|split; [|split]]].
  - unfold setattr, hasattr. rewrite G. auto.
  - rewrite getattr_measure by (destruct r as [[] ? [] ? ? ? ? ? ?]; left; auto).
    change (coverage (set_coverage (OVal w) r) = Ok (OVal w)). unfold coverage, set_coverage.
    destruct (r_act r) as [a|] eqn:A; cbn; [|rewrite A].
    + destruct w; auto. destruct N; reflexivity.
    + rewrite slot_put. auto.
  - unfold set_coverage. destruct (r_act r); auto.
  - intros u. unfold set_coverage. destruct (r_act r) as [a|] eqn:A; cbn; [|tauto].
    split; intros (b & B & R); [exists (mkActv (v_bits a) (v_here a) w)|exists a]; (split; [congruence || auto|]).
    + rewrite A in B. injection B as <-. unfold raw in *. cbn. auto.
    + injection B as <-. unfold raw in *. cbn in R. auto.
  - intros m I D.
    assert (K : r_kind (set_coverage (OVal w) r) = r_kind r) by (unfold set_coverage; destruct (r_act r); auto).
    rewrite !getattr_measure by (rewrite ?K; auto). unfold measure_read. rewrite str_neq by auto.
    assert (X : forall s, s <> "coverage" -> slot ("_" ++ s)%string (set_coverage (OVal w) r) = slot ("_" ++ s)%string r).
    { intros s Ns. unfold set_coverage. rewrite slot_put_other.
      - destruct (r_act r); auto.
      - intros E. apply Ns. apply (app_inj_str s "coverage"). auto. }
    destruct (str_eqb m "prediction"); [|rewrite X; auto].
    unfold prediction. rewrite K. specialize (X "prediction" ltac:(discriminate)). cbn [append] in X. rewrite X. auto.
Qed.

(** ** del_activation *)

Lemma deleted r v : working r None v -> v <> [] ->
  getattr (del_activation r) "activation" = Err EFileNotFound /\
  getattr (del_activation r) "activation_available" = Ok (boolean false) /\
  r_cond (del_activation r) = r_cond r /\
  (forall n, In n (measures (r_kind r)) -> getattr (del_activation r) n = getattr r n).
Proof.
  intros (a & A & R) N. destruct (raw_inv _ _ R) as (_ & V). unfold del_activation. rewrite A.
  split; [|split; [|split]]; auto.
  - rewrite activation_attr. unfold activation_vector. cbn. unfold alen. cbn. rewrite V.
    destruct v; [congruence|]. auto.
  - rewrite available_spec. auto.
  - intros n I. rewrite !getattr_measure by auto. unfold measure_read, coverage, prediction. cbn. rewrite A. auto.
Qed.

(** ** Thresholds *)

Lemma check_decides E th n row v x r :
  class_thresholds (e_classes E) (r_kind r) = Some th -> well_formed th -> limits_of th n row ->
  attributes_of r n = Ok v -> present v -> measured (e_lib E) row v x -> all_numbers (attributes_of r) row ->
  exists r', check_attribute E n r = (Ok tt, r') /\
    (meets (attributes_of r) row x -> r' = r) /\
    (~ meets (attributes_of r) row x -> is_bad r' /\ blames r' n).
Proof.
  intros T W L V P M N.
  destruct (judged_meets E th n row v x r r) as (b & J & B); auto.
  unfold check_attribute. rewrite T, J. destruct b; eexists; (split; [reflexivity|]); split; auto.
  - intros K. destruct K. apply B. auto.
  - intros K. apply B in K. discriminate.
  - intros _. split; [apply is_bad_spec|apply blames_spec]; auto.
Qed.

Lemma check_free E r :
  (class_thresholds (e_classes E) (r_kind r) = None ->
     (forall n, check_attribute E n r = (Ok tt, r)) /\ check_all E r = (Ok tt, r)) /\
  (forall th n, class_thresholds (e_classes E) (r_kind r) = Some th -> well_formed th ->
     (forall row, ~ limits_of th n row) -> check_attribute E n r = (Ok tt, r)).
Proof.
  split.
  - intros T. unfold check_attribute, check_all. rewrite T. auto.
  - intros th n T W H. unfold check_attribute. rewrite T.
    assert (J : judge E th n r = Ok true); [|rewrite J; auto].
    unfold judge. rewrite (proj1 (call_eq (e_lib E) th n _ (proj1 (proj2 W)))).
    destruct (row_of th n) as [row|] eqn:R; auto. apply row_of_spec in R; auto. destruct (H row). auto.
Qed.

Lemma check_all_limits E th n row v x r r' :
  check_all E r = (Ok tt, r') -> is_good r' ->
  class_thresholds (e_classes E) (r_kind r) = Some th -> well_formed th ->
  In n (measures (r_kind r)) -> limits_of th n row ->
  attributes_of r n = Ok v -> present v -> measured (e_lib E) row v x -> all_numbers (attributes_of r) row ->
  meets (attributes_of r) row x.
Proof.
  intros C G T W I L V P M N. apply is_good_spec in G.
  destruct (check_all_cases _ _ _ C) as [(-> & J)|(m & th' & _ & -> & _)]; [|discriminate].
  destruct (judged_meets E th n row v x r r) as (b & Jb & B); auto.
  apply B. rewrite (J th n) in Jb; [congruence|auto|]. apply dir_measure. auto.
Qed.

Lemma set_thresholds_cases path r :
  (path = None -> r_thr r = None -> set_thresholds path r = (Err EAttr, r)) /\
  (path = None -> r_thr r <> None -> set_thresholds path r = (Ok tt, r)) /\
  (forall f, path = Some f -> exists r', set_thresholds path r = (Ok tt, r') /\
     r_thr r' = Some (load f) /\ r_good r' = r_good r /\ r_bad r' = r_bad r /\ r_act r' = r_act r /\
     r_cond r' = r_cond r /\ r_dict r' = r_dict r /\ r_kind r' = r_kind r).
Proof.
  unfold set_thresholds. split; [|split].
  - intros -> ->. auto.
  - intros ->. destruct (r_thr r); [auto|congruence].
  - intros f ->. eexists. split; [reflexivity|]. cbn. tauto.
Qed.

Lemma class_limits k k' path cs :
  class_thresholds (SET_THRESHOLDS k path cs) k = match path with None => None | Some f => Some (load f) end /\
  (k' <> k -> k <> KRule -> class_thresholds (SET_THRESHOLDS k path cs) k' = class_thresholds cs k').
Proof. destruct k, k'; cbn; split; auto; congruence. Qed.

Lemma inherited calls : forall cs k,
  (forall c, In c calls -> fst c <> k) -> k <> KRule ->
  (match k with KRegression => c_regression cs | _ => c_classification cs end = None) ->
  class_thresholds (limits_after calls cs) k = class_thresholds (limits_after calls cs) KRule.
Proof.
  induction calls as [|(c, p) t IH]; intros cs k H N O; cbn [limits_after].
  - destruct k; cbn; auto; rewrite O; auto.
  - apply IH; auto.
    + intros x I. apply H. right; auto.
    + specialize (H (c, p) (or_introl eq_refl)). cbn in H. destruct c, k; cbn; auto; congruence.
Qed.

Lemma own_kept calls : forall cs k path,
  (forall c, In c calls -> fst c <> k) ->
  class_thresholds (limits_after calls (SET_THRESHOLDS k path cs)) k = match path with None => None | Some f => Some (load f) end.
Proof.
  assert (G : forall calls cs k t, (forall c, In c calls -> fst c <> k) ->
    match k with KRule => c_rule cs = t | KRegression => c_regression cs = Some t | KClassification => c_classification cs = Some t end ->
    class_thresholds (limits_after calls cs) k = t).
  { induction calls0 as [|(c, p) u IH]; intros cs k t H O; cbn [limits_after].
    - destruct k; cbn [class_thresholds]; rewrite O; auto.
    - apply IH; [intros x I; apply H; right; auto|]. specialize (H (c, p) (or_introl eq_refl)). cbn [fst] in H.
      destruct c, k; cbn; auto; congruence. }
  intros cs k path H. apply G; auto. destruct k; auto.
Qed.
