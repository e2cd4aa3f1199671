(** Tables that load can read. *)
From Coq Require Import List ZArith QArith Bool String Ascii Lia Relations Permutation.
From Coq Require Import List.
From Verif Require Import Base Num CondModel CondSpec CondBase CondProofs CondMore ThrModel ThrProofs MetModel
  RuleModel RuleSpec RuleProofs RuleMisc PredModel PredStack SetModel SetSpec SetBase SerialModel SerialSpec SerialProofs
  SerialSave SerialLoad SerialMore SerialRow.
Import ListNotations.
Open Scope string_scope.
Open Scope list_scope.
Open Scope Z_scope.

Lemma some_statistics k a : In a (statistics k) -> In a (statistics KRegression).
Proof. destruct k; cbn; intuition. Qed.

Lemma read_one_total X a t conds r : (In a conditions -> exists l, x_eval X t = Ok l) ->
  (In a (statistics KRegression) -> exists v, literally X a t v) ->
  exists conds' r', read_attribute X a t (conds, r) = Ok (conds', r').
Proof.
  intros HC HS. unfold read_attribute. rewrite rule_index_names. change condition_index with conditions.
  destruct (mem str_eqb a conditions) eqn:C.
  - apply mem_in in C. destruct (HC C) as (l & ->). cbn [rmap rbind]. eauto.
  - destruct (mem str_eqb a (statistics (r_kind r))) eqn:S; [|eauto]. apply mem_in in S.
    destruct (HS (some_statistics _ _ S)) as (v & L). destruct (str_eqb t "nan") eqn:N; [cbn [rmap rbind]; eauto|].
    destruct (str_eqb a "prediction") eqn:P.
    + destruct L as [-> |v NN EV|NN EQ EV]; [discriminate N| |]; rewrite EV; cbn [rmap rbind]; eauto.
    + destruct L as [-> |v NN EV|NN EQ EV]; [discriminate N| |].
      * rewrite EV; cbn [rmap rbind]; eauto.
      * subst a. discriminate P.
Qed.

Lemma read_total X : forall srule conds r, (forall a w, In (a, w) srule -> In a conditions -> exists l, x_eval X (x_str X w) = Ok l) ->
  (forall a w, In (a, w) srule -> In a (statistics KRegression) -> exists v, literally X a (x_str X w) v) ->
  exists conds' r', read_attributes X srule (conds, r) = Ok (conds', r').
Proof.
  induction srule as [|(a, w) rest IH]; intros conds r HC HS; [cbn; eauto|]. cbn [read_attributes].
  destruct (read_one_total X a (x_str X w) conds r (HC a w (or_introl eq_refl)) (HS a w (or_introl eq_refl))) as (c1 & r1 & ->).
  cbn [rbind]. apply IH; intros b v I; [apply HC|apply HS]; right; auto.
Qed.

Lemma argument_is v o : as_argument v o -> items v = Ok o.
Proof. intros []; reflexivity. Qed.

Lemma series_total X E srule : NoDup (map fst srule) -> readable X E srule -> exists r, series_to_rule X E srule = Ok r.
Proof.
  intros ND [SO CO CE PR (c & idx & mins & maxs & names & l & G1 & G2 & G3 & G4 & BU & _)].
  unfold series_to_rule. rewrite (proj2 (valid_names _) CO). cbn [negb].
  set (k := kind_of_columns (map fst srule)).
  assert (W : new_rule E k CNone VNone =
    Ok (regression_dict (mkRule k None None (class_thresholds (e_classes E) k) true None false false (initial_dict k))))
    by reflexivity.
  rewrite W. cbn [rbind]. set (r0 := regression_dict _).
  assert (K0 : forall t, r_kind (put "_name" t r0) = k) by (intros t; unfold r0; generalize k; intros []; reflexivity).
  destruct (map fst srule) as [|first rest] eqn:CN; [destruct srule; [destruct (SO eq_refl)|discriminate CN]|]. rewrite <- CN in *.
  destruct (read_total X srule [] (put "_name" (text first) r0)) as (conds & r1 & R); auto.
  { intros a w I J. assert (Q : exists o, given X srule a o) by (destruct J as [<-|[<-|[<-|[<-|[]]]]]; eauto).
    destruct Q as (o & [w' v o' I' EV _|NI]).
    - rewrite (same_cell _ _ _ _ ND I I'). eauto.
    - destruct NI. apply in_map_iff. exists (a, w). auto. }
  rewrite R. cbn [rbind]. destruct (read_all X _ _ _ _ _ ND R) as ((F1 & _) & A & B & C & _).
  assert (ARG : forall a o, In a conditions -> given X srule a o -> argument a conds = Ok o).
  { intros a o I G. unfold argument. destruct G as [w v o J EV AR|NI].
    - destruct (A a w J I) as (v' & EV' & ->). rewrite EV in EV'. injection EV' as <-. apply argument_is. auto.
    - rewrite B by auto. reflexivity. }
  rewrite (ARG _ _ (or_intror (or_introl eq_refl)) G1), (ARG _ _ (or_intror (or_intror (or_introl eq_refl))) G2),
    (ARG _ _ (or_intror (or_intror (or_intror (or_introl eq_refl)))) G3), (ARG _ _ (or_introl eq_refl) G4).
  cbn [rbind]. rewrite BU. cbn [rbind].
  destruct (getattr (with_cond c r1) "prediction") as [v|e] eqn:GP.
  - destruct v as [[]| | | |]; eauto.
  - exfalso. rewrite prediction_attr in GP. pose proof (proj2 (prediction_error _ _ GP)) as K.
    change (r_kind (with_cond c r1)) with (r_kind r1) in K. rewrite F1, K0 in K.
    assert (NS : ~ In "std" (map fst srule)).
    { intros I. unfold k, kind_of_columns in K. rewrite <- CN, (proj2 (mem_in _ _) I) in K. discriminate K. }
    assert (SP : slot "_prediction" (with_cond c r1) = slot "_prediction" r1) by reflexivity.
    unfold prediction in GP. change (r_kind (with_cond c r1)) with (r_kind r1) in GP. rewrite F1, K0 in GP.
    rewrite K, SP in GP.
    destruct (slot "_prediction" r1) as [| | | |p] eqn:SL; try discriminate GP.
    rewrite K0 in C.
    destruct (in_dec string_dec "prediction" (map fst srule)) as [I|I].
    + apply in_map_iff in I as ((a, w) & EQ & I). cbn in EQ. subst a.
      assert (L : literally X "prediction" (x_str X w) (slot ("_" ++ "prediction") r1)) by (apply C; auto; rewrite K; left; auto).
      change ("_" ++ "prediction")%string with "_prediction" in L. rewrite SL in L. inversion L as [|v NN EV|]; subst.
      destruct (PR w p I) as [Q|Q]; [destruct (NS Q)|destruct (Q EV)].
    + destruct (read_all X _ _ _ _ _ ND R) as (_ & _ & _ & _ & D). assert (Z : slot "_prediction" r1 = none).
      { rewrite D; [unfold r0; rewrite K; reflexivity|]. intros a J _ EQ. change "_prediction" with ("_" ++ "prediction")%string in EQ.
        apply app_inj_str in EQ. subst a. auto. }
      rewrite Z in SL. discriminate SL.
Qed.

Lemma look_total label l : (forall row, In row l -> hd_error row = Some (text label) -> (2 <= List.length row)%nat) ->
  exists o, look label l = Ok o.
Proof.
  intros H. unfold look. destruct (find (labelled label) l) as [row|] eqn:F; [|eauto]. apply find_some in F as (I & L).
  apply labelled_iff in L. specialize (H row I L). destruct row as [|a [|b rest]]; cbn in *; try lia. eauto.
Qed.

Lemma size_total X set v s : (forall t, v = Some (text t) -> exists z, x_int X t = Ok z) -> exists s', assign_size X set v s = (Ok tt, s').
Proof.
  intros H. unfold assign_size. destruct v as [[[]| | | |]|]; try (eexists; reflexivity).
  destruct (H _ eq_refl) as (z & ->). cbn [use]. eexists; reflexivity.
Qed.

Lemma attributes_total X l s : (forall row, In row l -> ~ plain_row row -> (2 <= List.length row)%nat) ->
  (forall label t, In label ["ruleset train set size"; "ruleset test set size"] -> row_value label l (Some (text t)) -> exists z, x_int X t = Ok z) ->
  exists m s', load_attributes X l s = (Ok m, s').
Proof.
  intros HL HS. assert (LK : forall label, In label labels -> exists o, look label l = Ok o).
  { intros label I. apply look_total. intros row J E. apply HL; auto. intros P. destruct row as [|a rest]; [discriminate E|].
    injection E as ->. exact (P label rest eq_refl I). }
  unfold load_attributes.
  destruct (LK "ruleset coverage") as (v1 & E1); [cbn; auto|]. rewrite E1. cbn [use].
  destruct (LK "ruleset criterion") as (v2 & E2); [cbn; auto|]. rewrite look_drop by discriminate. rewrite E2. cbn [use].
  destruct (LK "ruleset train set size") as (v3 & E3); [cbn; auto|]. rewrite !look_drop by discriminate. rewrite E3. cbn [use].
  destruct (size_total X with_train v3 (assigned with_criterion v2 (assigned with_coverage v1 s))) as (s1 & ->).
  { intros t ->. apply HS with (label := "ruleset train set size"); [cbn; auto|]. apply look_value. auto. }
  cbn [chain]. destruct (LK "ruleset test set size") as (v4 & E4); [cbn; auto|]. rewrite ?look_drop by discriminate. rewrite E4. cbn [use].
  destruct (size_total X with_test v4 s1) as (s2 & ->).
  { intros t ->. apply HS with (label := "ruleset test set size"); [cbn; auto|]. apply look_value. auto. }
  cbn [chain]. eauto.
Qed.

Lemma rseq_total {A B} (f : A -> res B) l : (forall x, In x l -> exists y, f x = Ok y) -> exists m, rseq (map f l) = Ok m.
Proof.
  induction l as [|x l IH]; intros H; [cbn; eauto|]. cbn [map rseq]. destruct (H x (or_introl eq_refl)) as (y & ->).
  destruct IH as (m & E); [intros z I; apply H; right; auto|]. cbn [rbind]. rewrite E. cbn. eauto.
Qed.

Lemma rest_total G s : (forall r, In r (s_rules s) -> r_act r = None /\ exists c l, r_cond r = Some c /\ c_names c = Some l) ->
  exists s', load_rest G s = (Ok tt, s').
Proof.
  intros H. unfold load_rest.
  assert (AV : forall r l, s_rules s = r :: l -> forallb activation_available (r :: l) = false).
  { intros r l E. cbn [forallb]. unfold activation_available at 1. rewrite (proj1 (H r ltac:(rewrite E; left; auto))). reflexivity. }
  set (s1 := match s_rules s with [] => s | r :: _ => with_type (Some (r_kind r)) s end).
  assert (R1 : s_rules s1 = s_rules s) by (unfold s1; destruct (s_rules s) eqn:Q; cbn; auto).
  assert (CS : exists s2, compute_self_activation None s1 = (Ok tt, s2) /\ s_rules s2 = s_rules s).
  { unfold compute_self_activation, evaluate_self_activation. rewrite R1. destruct (s_rules s) as [|r l] eqn:Q; [|rewrite (AV r l eq_refl)];
      cbn [rbind use]; eexists; (split; [reflexivity|]); exact R1. }
  destruct CS as (s2 & -> & R2). cbn [chain].
  assert (CK : exists s3, (if s_stack s2 then compute_stacked_activation G None s2 else done s2) = (Ok tt, s3) /\ s_rules s3 = s_rules s).
  { destruct (s_stack s2); [|exists s2; auto]. unfold compute_stacked_activation, evaluate_stacked_activations, stack. rewrite R2.
    destruct (s_rules s) as [|r l] eqn:Q; [|rewrite (AV r l eq_refl)]; cbn [rbind use]; eexists; (split; [reflexivity|]); exact R2. }
  destruct CK as (s3 & -> & R3). cbn [chain]. rewrite R3.
  destruct (rseq_total (fun r => rbind (rule_names r) need) (s_rules s)) as (names & ->); [|cbn [use]; eexists; reflexivity].
  intros r I. destruct (H r I) as (_ & c & l & RC & CN). unfold rule_names. rewrite RC. cbn [rbind]. rewrite CN. cbn. eauto.
Qed.

Lemma given_fun X srule a o o' : NoDup (map fst srule) -> given X srule a o -> given X srule a o' -> o = o'.
Proof.
  intros ND [w v o1 I E A|N] [w' v' o2 I' E' A'|N'].
  - rewrite (same_cell _ _ _ _ ND I I'), E' in E. injection E as ->. apply argument_is in A, A'. congruence.
  - destruct N'. apply in_map_iff. exists (a, w). auto.
  - destruct N. apply in_map_iff. exists (a, w'). auto.
  - auto.
Qed.

(** Loading a table whose rows can be read *)
Lemma load_total X G w t : NoDup (w_columns w) -> w_columns w <> [] ->
  (forall row, In row (w_rows w) -> ~ plain_row row -> (2 <= List.length row)%nat) ->
  (forall label t, In label ["ruleset train set size"; "ruleset test set size"] -> row_value label (w_rows w) (Some (text t)) ->
     exists z, x_int X t = Ok z) ->
  (forall row, In row (w_rows w) -> plain_row row -> readable X (g_env G) (combine (w_columns w) row)) ->
  exists t', load X G w t = (Ok tt, t').
Proof.
  intros ND NE HL HS HR. unfold load. destruct (w_columns w) as [|c0 cols] eqn:CW; [destruct (NE eq_refl)|]. rewrite <- CW in *.
  destruct (attributes_total X (w_rows w) t HL HS) as (m & s1 & E1). rewrite E1. cbn [use].
  destruct (attributes_loaded _ _ _ _ _ E1) as (_ & _ & _ & _ & _ & _ & _ & _ & _ & _ & _ & _ & RR & _).
  assert (RM : forall row, In row m -> In row (w_rows w) /\ plain_row row).
  { clear - RR. induction RR as [|q l m Q R IH|q l m Q R IH]; intros row I; [destruct I| |].
    - destruct I as [<-|I]; [split; [left|]; auto|]. destruct (IH _ I). split; [right|]; auto.
    - destruct (IH _ I). split; [right|]; auto. }
  unfold load_rules.
  destruct (rseq_total (fun row => series_to_rule X (g_env G) (combine (w_columns w) row)) m) as (rules & E2).
  { intros row I. destruct (RM row I) as (I1 & P1). apply series_total; [apply names_rows; auto|auto]. }
  rewrite E2. cbn [use]. apply rseq_map_ok in E2.
  assert (FR : forall r, In r rules -> slot "_train_set_size" r = none /\ slot "_test_set_size" r = none /\ r_act r = None /\
     exists c l, r_cond r = Some c /\ c_names c = Some l).
  { intros r I. destruct (proj2 (forall2_in _ _ _ E2) r I) as (row & J & E). destruct (RM row J) as (J1 & P1).
    pose proof (names_rows _ row ND) as ND1.
    destruct (series_reads _ _ _ _ ND1 E) as (RD & Z1 & Z2). split; auto. split; auto. split; [apply (rr_fresh _ _ _ _ RD)|].
    destruct (rr_cond _ _ _ _ RD) as (c & idx & mins & maxs & names & RC & G1 & G2 & G3 & G4 & BU).
    destruct (rd_cond _ _ _ (HR row J1 P1)) as (c' & idx' & mins' & maxs' & names' & l & H1 & H2 & H3 & H4 & BU' & CN).
    rewrite (given_fun _ _ _ _ _ ND1 G1 H1), (given_fun _ _ _ _ _ ND1 G2 H2), (given_fun _ _ _ _ _ ND1 G3 H3), (given_fun _ _ _ _ _ ND1 G4 H4), BU' in BU.
    injection BU as <-. eauto. }
  destruct (rseq_total (fill_sizes X s1) rules) as (rules2 & E3).
  { intros r I. destruct (FR r I) as (Z1 & Z2 & _). unfold fill_sizes. rewrite fill_none by auto. cbn [rbind].
    rewrite fill_none by (rewrite slot_put_other; auto; intros Q; discriminate Q). eauto. }
  rewrite E3. cbn [use chain done]. apply rest_total. cbn [with_rules s_rules]. intros r I.
  apply rseq_map_ok in E3. destruct (proj2 (forall2_in _ _ _ E3) r I) as (r1 & J & E). destruct (FR r1 J) as (Z1 & Z2 & AC & c & l & RC & CN).
  unfold fill_sizes in E. rewrite fill_none in E by auto. cbn [rbind] in E.
  rewrite fill_none in E by (rewrite slot_put_other; auto; intros Q; discriminate Q). injection E as <-. cbn. eauto.
Qed.
