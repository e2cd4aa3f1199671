(** What load makes of the rows of any table. *)
From Coq Require Import List ZArith QArith Bool String Ascii Lia Relations Permutation.
From Coq Require Import List.
From Verif Require Import Base Num CondModel CondSpec CondBase CondProofs CondMore ThrModel ThrProofs MetModel
  RuleModel RuleSpec RuleProofs RuleMisc PredModel PredStack SetModel SetSpec SetBase SerialModel SerialSpec SerialProofs
  SerialSave SerialLoad SerialMore.
Import ListNotations.
Open Scope string_scope.
Open Scope list_scope.
Open Scope Z_scope.

Lemma mem_in a l : mem str_eqb a l = true <-> In a l.
Proof.
  induction l as [|b l IH]; cbn; [split; [intros H; discriminate H|intros []]|].
  rewrite orb_true_iff, IH. split; (intros [H|H]; [left|right; auto]); [apply str_eqb_iff in H; auto|apply str_eqb_iff; auto].
Qed.

Lemma mem_not a l : mem str_eqb a l = false <-> ~ In a l.
Proof. rewrite <- mem_in. destruct (mem str_eqb a l); split; intros H; try discriminate; auto. destruct (H eq_refl). Qed.

Lemma rule_index_names k : rule_index k = statistics k.
Proof. destruct k; reflexivity. Qed.

Lemma stat_not_condition a k : In a (statistics k) -> ~ In a conditions.
Proof.
  intros I J. destruct J as [<-|[<-|[<-|[<-|[]]]]]; destruct k; cbn [statistics In] in I;
    repeat (destruct I as [I|I]; [discriminate I|]); exact I.
Qed.

Section Row.
Variable X : texts.

Lemma read_one a t conds r conds' r' : read_attribute X a t (conds, r) = Ok (conds', r') ->
  (In a conditions -> exists l, x_eval X t = Ok l /\ conds' = dset a l conds /\ r' = r) /\
  (In a (statistics (r_kind r)) -> exists v, literally X a t v /\ conds' = conds /\ r' = put ("_" ++ a) v r) /\
  (~ In a conditions -> ~ In a (statistics (r_kind r)) -> conds' = conds /\ r' = r).
Proof.
  unfold read_attribute. rewrite rule_index_names. change condition_index with conditions.
  destruct (mem str_eqb a conditions) eqn:C.
  - apply mem_in in C. intros E. destruct (x_eval X t) as [l|] eqn:EV; cbn [rmap rbind] in E; [|discriminate E].
    injection E as <- <-. split; [intros _; exists l; auto|]. split; [|intros H; destruct (H C)].
    intros I. destruct (stat_not_condition _ _ I C).
  - apply mem_not in C. destruct (mem str_eqb a (statistics (r_kind r))) eqn:S.
    + apply mem_in in S. intros E. split; [intros H; destruct (C H)|]. split; [|intros _ H; destruct (H S)]. intros _.
      destruct (str_eqb t "nan") eqn:N.
      * injection E as <- <-. apply str_eqb_iff in N. exists nan. split; auto. apply text_nan. auto.
      * assert (NN : t <> "nan") by (intros ->; discriminate N).
        destruct (str_eqb a "prediction") eqn:P.
        -- apply str_eqb_iff in P. destruct (x_eval X t) as [v|e] eqn:EV.
           ++ injection E as <- <-. exists v. split; auto. apply text_value; auto.
           ++ destruct e; try discriminate E. injection E as <- <-. exists (text t). split; auto. apply text_class; auto.
        -- destruct (x_eval X t) as [v|e] eqn:EV; [|discriminate E]. injection E as <- <-. exists v. split; auto. apply text_value; auto.
    + apply mem_not in S. intros E. injection E as <- <-. split; [intros H; destruct (C H)|]. split; [intros H; destruct (S H)|]. auto.
Qed.

Lemma read_all : forall srule conds r conds' r', NoDup (map fst srule) -> read_attributes X srule (conds, r) = Ok (conds', r') ->
  (r_kind r' = r_kind r /\ r_cond r' = r_cond r /\ r_act r' = r_act r /\ r_thr r' = r_thr r /\ r_good r' = r_good r /\
   r_bad r' = r_bad r /\ r_fitted r' = r_fitted r /\ r_evaluated r' = r_evaluated r) /\
  (forall a w, In (a, w) srule -> In a conditions -> exists l, x_eval X (x_str X w) = Ok l /\ dget a conds' = Some l) /\
  (forall a, ~ In a (map fst srule) -> dget a conds' = dget a conds) /\
  (forall a w, In (a, w) srule -> In a (statistics (r_kind r)) -> literally X a (x_str X w) (slot ("_" ++ a) r')) /\
  (forall n, (forall a, In a (map fst srule) -> In a (statistics (r_kind r)) -> n <> ("_" ++ a)%string) -> slot n r' = slot n r).
Proof.
  induction srule as [|(a0, w0) rest IH]; intros conds r conds' r' ND E.
  - injection E as <- <-. split; [repeat split|]. split; [intros a w []|]. split; auto. split; [intros a w []|]. auto.
  - cbn [map fst] in ND. inversion ND as [|? ? NI ND']; subst. cbn [read_attributes] in E.
    destruct (read_attribute X a0 (x_str X w0) (conds, r)) as [(conds1, r1)|] eqn:E1; cbn [rbind] in E; [|discriminate E].
    destruct (read_one _ _ _ _ _ _ E1) as (P1 & P2 & P3).
    destruct (IH _ _ _ _ ND' E) as ((F1 & F2 & F3 & F4 & F5 & F6 & F7 & F8) & A & B & C & D).
    assert (KK : r_kind r1 = r_kind r /\ r_cond r1 = r_cond r /\ r_act r1 = r_act r /\ r_thr r1 = r_thr r /\ r_good r1 = r_good r /\
       r_bad r1 = r_bad r /\ r_fitted r1 = r_fitted r /\ r_evaluated r1 = r_evaluated r).
    { destruct (in_dec string_dec a0 conditions) as [I|I]; [destruct (P1 I) as (l & _ & _ & ->); repeat split|].
      destruct (in_dec string_dec a0 (statistics (r_kind r))) as [J|J]; [destruct (P2 J) as (v & _ & _ & ->); repeat split|].
      destruct (P3 I J) as (_ & ->). repeat split. }
    destruct KK as (K1 & K2 & K3 & K4 & K5 & K6 & K7 & K8).
    split; [repeat split; congruence|]. split; [|split; [|split]].
    + intros a w [I|I] J; [|eauto]. injection I as -> ->. destruct (P1 J) as (l & EV & -> & ->). exists l. split; auto.
      rewrite B by auto. rewrite dset_get, str_refl. auto.
    + intros a N. cbn [map fst] in N. rewrite B by (intros I; apply N; right; auto).
      destruct (in_dec string_dec a0 conditions) as [I|I].
      * destruct (P1 I) as (l & _ & -> & _). rewrite dset_get, str_neq; auto. intros ->. apply N. left. auto.
      * destruct (in_dec string_dec a0 (statistics (r_kind r))) as [J|J]; [destruct (P2 J) as (v & _ & -> & _); auto|].
        destruct (P3 I J) as (-> & _). auto.
    + intros a w [I|I] J; [|apply C; auto; rewrite K1; auto]. injection I as -> ->. destruct (P2 J) as (v & L & _ & ->).
      rewrite D; [rewrite slot_put; auto|]. intros b Ib _ EQ. apply app_inj_str in EQ. subst b. auto.
    + intros n H. rewrite D.
      * destruct (in_dec string_dec a0 conditions) as [I|I]; [destruct (P1 I) as (l & _ & _ & ->); auto|].
        destruct (in_dec string_dec a0 (statistics (r_kind r))) as [J|J].
        -- destruct (P2 J) as (v & _ & _ & ->). apply slot_put_other. apply H; [left; auto|auto].
        -- destruct (P3 I J) as (_ & ->). auto.
      * intros a I J. rewrite K1 in J. apply H; [right; auto|auto].
Qed.

Lemma read_fails : forall srule conds r a w e, In (a, w) srule -> In a conditions -> x_eval X (x_str X w) = Err e ->
  exists e', read_attributes X srule (conds, r) = Err e'.
Proof.
  induction srule as [|(a0, w0) rest IH]; intros conds r a w e I J EV; [destruct I|]. cbn [read_attributes].
  destruct (read_attribute X a0 (x_str X w0) (conds, r)) as [(conds1, r1)|e1] eqn:E1; cbn [rbind]; [|eauto].
  destruct I as [I|I]; [|eauto]. injection I as -> ->. destruct (read_one _ _ _ _ _ _ E1) as (P1 & _).
  destruct (P1 J) as (l & L & _). rewrite L in EV. discriminate EV.
Qed.

End Row.

Lemma argument_of v o : items v = Ok o -> as_argument v o.
Proof. destruct v as [[]| | | |]; cbn; intros E; try discriminate E; injection E as <-; constructor. Qed.

Lemma valid_names columns : forallb valid_column columns = true <->
  forall a, In a columns -> a = "Unnamed: 0" \/ In a (conditions ++ statistics KRegression).
Proof.
  rewrite forallb_forall. assert (V : forall a, valid_column a = true <-> a = "Unnamed: 0" \/ In a (conditions ++ statistics KRegression)).
  { intros a. unfold valid_column. rewrite !orb_true_iff, !mem_in, str_eqb_iff, !index_names. split.
    - intros [[[H|H]|H]|H]; auto; right; apply in_app_or in H as [H|H]; apply in_or_app; auto; right; cbn in *; intuition.
    - intros [H|H]; auto. }
  split; intros H a I; apply V; auto.
Qed.

Lemma find_row_error {A B} (eqb : B -> B -> bool) m (rows : list (A * B)) e : find_row eqb m rows = Err e -> e = EValue.
Proof. induction rows as [|(c, p) t IH]; cbn; [congruence|]. destruct (eqb p m); [intros H; discriminate H|auto]. Qed.

Lemma prediction_error r e : prediction r = Err e -> e = EValue /\ r_kind r = KClassification.
Proof.
  unfold prediction. destruct (r_kind r); try (intros H; discriminate H). destruct (slot "_prediction" r) as [| | | |p]; try (intros H; discriminate H).
  intros H. split; auto. destruct (most_probable p) as [x|e'] eqn:M; cbn in H; [discriminate H|]. injection H as <-.
  destruct p as [[|(c, p) t]|[|(c, p) t]|[|(c, p) t]]; cbn [most_probable] in M; try congruence.
  - destruct (find_row _ _ _) eqn:F in M; cbn in M; [discriminate M|]. apply find_row_error in F. congruence.
  - destruct (find_row _ _ _) eqn:F in M; cbn in M; [discriminate M|]. apply find_row_error in F. congruence.
  - apply find_row_error in M. auto.
Qed.

Lemma series_reads X E srule r : NoDup (map fst srule) -> series_to_rule X E srule = Ok r -> reads_row X E srule r /\
  slot "_train_set_size" r = none /\ slot "_test_set_size" r = none.
Proof.
  intros ND. unfold series_to_rule. destruct (forallb valid_column (map fst srule)) eqn:V; cbn [negb]; [|intros H; discriminate H].
  set (k := kind_of_columns (map fst srule)).
  assert (W : new_rule E k CNone VNone =
    Ok (regression_dict (mkRule k None None (class_thresholds (e_classes E) k) true None false false (initial_dict k))))
    by reflexivity.
  rewrite W. cbn [rbind]. set (r0 := regression_dict _).
  destruct (map fst srule) as [|first rest] eqn:CO; [intros H; discriminate H|].
  destruct (read_attributes X srule ([], put "_name" (text first) r0)) as [(conds, r1)|] eqn:R; cbn [rbind]; [|intros H; discriminate H].
  rewrite <- CO in *.
  destruct (read_all X _ _ _ _ _ ND R) as ((F1 & F2 & F3 & F4 & F5 & F6 & F7 & F8) & A & B & C & D).
  destruct (argument "features_indexes" conds) as [idx|] eqn:EI; cbn [rbind]; [|intros H; discriminate H].
  destruct (argument "bmins" conds) as [mins|] eqn:EL; cbn [rbind]; [|intros H; discriminate H].
  destruct (argument "bmaxs" conds) as [maxs|] eqn:EH; cbn [rbind]; [|intros H; discriminate H].
  destruct (argument "features_names" conds) as [names|] eqn:EN; cbn [rbind]; [|intros H; discriminate H].
  destruct (build (e_sort E) idx mins maxs names false true) as [c|] eqn:BU; cbn [rbind]; [|intros H; discriminate H].
  assert (GIV : forall a o, In a conditions -> argument a conds = Ok o -> given X srule a o).
  { intros a o I G. unfold argument in G. destruct (in_dec string_dec a (map fst srule)) as [J|J].
    - apply in_map_iff in J as ((a', w) & EQ & J). cbn in EQ. subst a'. destruct (A a w J I) as (l & EV & DG). rewrite DG in G.
      eapply given_cell; eauto. apply argument_of. auto.
    - rewrite (B a J) in G. injection G as <-. apply not_given. auto. }
  assert (R0 : r_kind r0 = k /\ r_cond r0 = None /\ r_act r0 = None /\ r_thr r0 = class_thresholds (e_classes E) k /\ r_good r0 = true /\
     r_bad r0 = None /\ r_fitted r0 = false /\ r_evaluated r0 = false /\ forall a, In a (statistics k) -> slot ("_" ++ a) (put "_name" (text first) r0) = none).
  { unfold r0. clearbody k. destruct k; (split; [reflexivity|]); (split; [reflexivity|]); (split; [reflexivity|]); (split; [reflexivity|]);
      (split; [reflexivity|]); (split; [reflexivity|]); (split; [reflexivity|]); (split; [reflexivity|]); intros a I; cbn [statistics In] in I;
      repeat (destruct I as [<-|I]; [reflexivity|]); destruct I. }
  destruct R0 as (Z1 & Z2 & Z3 & Z4 & Z5 & Z6 & Z7 & Z8 & Z9).
  cbn [put r_kind r_cond r_act r_thr r_good r_bad r_fitted r_evaluated] in F1, F2, F3, F4, F5, F6, F7, F8, C, D.
  rewrite Z1 in F1, C, D.
  intros FIN.
  assert (Q : exists b, r = (if b : bool then with_fitted (with_cond c r1) else with_cond c r1) /\
                        (b = true <-> getattr (with_cond c r1) "prediction" <> Ok none)).
  { destruct (getattr (with_cond c r1) "prediction") as [v|e] eqn:GP.
    - destruct v as [[]| | | |]; injection FIN as <-; first [exists true; split; [reflexivity|split; [intros _ H; discriminate H|reflexivity]] | exists false; split; [reflexivity|split; [intros H; discriminate H|intros H; destruct (H eq_refl)]]].
    - rewrite prediction_attr in GP. destruct (prediction_error _ _ GP) as [-> _]. discriminate FIN. }
  destruct Q as (b & -> & Q).
  assert (SL : forall n, slot n (if b then with_fitted (with_cond c r1) else with_cond c r1) = slot n r1) by (destruct b; reflexivity).
  assert (KR : r_kind (if b then with_fitted (with_cond c r1) else with_cond c r1) = k) by (destruct b; cbn; auto).
  assert (GA : getattr (if b then with_fitted (with_cond c r1) else with_cond c r1) "prediction" = getattr (with_cond c r1) "prediction").
  { destruct b; auto. rewrite !prediction_attr. reflexivity. }
  assert (KC : (k = KRegression <-> In "std" (map fst srule)) /\ (k = KClassification <-> In "criterion" (map fst srule) /\ ~ In "std" (map fst srule))).
  { unfold k, kind_of_columns. rewrite <- CO. destruct (mem str_eqb "std" (map fst srule)) eqn:M.
    - apply mem_in in M. split; split; auto; try (intros H; discriminate H). intros (_ & H). destruct (H M).
    - apply mem_not in M. destruct (mem str_eqb "criterion" (map fst srule)) eqn:M2; [apply mem_in in M2|apply mem_not in M2].
      + split; split; auto; try (intros H; discriminate H). intros H. destruct (M H).
      + split; split; auto; try (intros H; discriminate H); [intros H; destruct (M H)|intros (H & _); destruct (M2 H)]. }
  destruct KC as (KC1 & KC2).
  assert (SZ : forall n, n = "_train_set_size" \/ n = "_test_set_size" -> slot n r1 = none).
  { intros n H. rewrite D.
    - unfold r0. clearbody k. destruct H as [-> | ->]; destruct k; reflexivity.
    - clear - H. clearbody k. intros a _ I. destruct k; cbn [statistics In] in I; destruct H as [-> | ->];
        repeat (destruct I as [<-|I]; [intros HH; discriminate HH|]); destruct I. }
  split; [|rewrite !SL; split; apply SZ; auto].
  constructor; rewrite ?GA, ?KR.
  - apply valid_names; auto.
  - exact KC1.
  - exact KC2.
  - intros a w I J. rewrite SL. apply C; auto.
  - intros a J NI. rewrite SL, D; [apply Z9; auto|]. intros a' I' _ EQ. apply app_inj_str in EQ. subst. auto.
  - exists c, idx, mins, maxs, names. split; [destruct b; reflexivity|].
    split; [apply GIV; auto; cbn; auto|]. split; [apply GIV; auto; cbn; auto|]. split; [apply GIV; auto; cbn; auto|].
    split; [apply GIV; auto; cbn; auto|]. auto.
  - rewrite <- Q. destruct b; cbn; [split; auto|]. rewrite F7, Z7. split; auto.
  - split; [destruct b; cbn; rewrite F3; auto|]. split; [destruct b; cbn; rewrite F5; auto|].
    split; [destruct b; cbn; rewrite F6; auto|]. destruct b; cbn; rewrite F8; auto.
  - destruct b; cbn; rewrite F4; auto.
Qed.

(** ** Tables *)

Lemma labelled_iff label row : labelled label row = true <-> hd_error row = Some (text label).
Proof.
  destruct row as [|[[]| | | |] rest]; cbn; try (split; intros H; discriminate H). rewrite str_eqb_iff.
  split; [intros ->; auto|intros H; injection H as ->; auto].
Qed.

Lemma labelled_not label row : labelled label row = false <-> hd_error row <> Some (text label).
Proof.
  rewrite <- labelled_iff. destruct (labelled label row); split; intros H; auto; [discriminate H|destruct (H eq_refl)].
Qed.

Lemma look_value label l o : look label l = Ok o -> row_value label l o.
Proof.
  unfold look. induction l as [|row l IH]; cbn [find].
  - intros H. injection H as <-. apply has_no_row. intros row [].
  - destruct (labelled label row) eqn:L.
    + apply labelled_iff in L. destruct row as [|c [|v rest]]; [discriminate L|intros H; discriminate H|].
      cbn [hd_error] in L. injection L as ->. cbn [nth_error]. intros H. injection H as <-.
      apply has_row with (l1 := []) (rest := rest) (l2 := l); auto.
    + apply labelled_not in L. intros H. destruct (IH H) as [l1 v rest l2 E F|F].
      * subst l. apply has_row with (l1 := row :: l1) (rest := rest) (l2 := l2); auto. intros q [<-|I]; auto.
      * apply has_no_row. intros q [<-|I]; auto.
Qed.

Lemma find_drop label other l : label <> other -> find (labelled label) (drop other l) = find (labelled label) l.
Proof.
  intros N. unfold drop. induction l as [|row l IH]; auto. cbn [filter find]. destruct (labelled other row) eqn:O; cbn [negb find].
  - rewrite IH. destruct (labelled label row) eqn:L; auto. apply labelled_iff in L, O. rewrite L in O. injection O as ->. destruct (N eq_refl).
  - destruct (labelled label row); auto.
Qed.

Lemma look_drop label other l : label <> other -> look label (drop other l) = look label l.
Proof. intros N. unfold look. rewrite find_drop; auto. Qed.

Lemma rows_of_rules l : rule_rows l
  (drop "ruleset test set size" (drop "ruleset train set size" (drop "ruleset criterion" (drop "ruleset coverage" l)))).
Proof.
  induction l as [|row l IH]; [constructor|]. unfold drop in *. cbn [filter].
  assert (RR : plain_row row <-> forall label, In label labels -> labelled label row = false).
  { split.
    - intros R label I. apply labelled_not. intros H. destruct row as [|c rest]; [discriminate H|]. injection H as ->. apply (R label rest); auto.
    - intros H label rest -> I. specialize (H _ I). apply labelled_not in H. apply H. reflexivity. }
  assert (NR : forall label, In label labels -> labelled label row = true -> ~ plain_row row).
  { intros label I L R. rewrite (proj1 RR R label I) in L. discriminate L. }
  destruct (labelled "ruleset coverage" row) eqn:L1; cbn [negb filter]; [apply skip_row; auto; refine (NR _ _ L1); cbn; auto|].
  destruct (labelled "ruleset criterion" row) eqn:L2; cbn [negb filter]; [apply skip_row; auto; refine (NR _ _ L2); cbn; auto|].
  destruct (labelled "ruleset train set size" row) eqn:L3; cbn [negb filter]; [apply skip_row; auto; refine (NR _ _ L3); cbn; auto|].
  destruct (labelled "ruleset test set size" row) eqn:L4; cbn [negb filter]; [apply skip_row; auto; refine (NR _ _ L4); cbn; auto|].
  apply keep_row; auto. apply RR. intros label [<-|[<-|[<-|[<-|[]]]]]; auto.
Qed.

Lemma size_assigned X set v s s' (get : ruleset -> obj) : (forall x t, get (set x t) = x) -> assign_size X set v s = (Ok tt, s') ->
  size_kept X v (get s) (get s') /\ exists u, s' = s \/ s' = set u s \/ exists w, s' = set u (set w s).
Proof.
  intros G. unfold assign_size. destruct v as [[[]| | | |]|]; cbn [assigned]; intros E;
    try (injection E as <-; split; [apply size_value; [intros u Q; discriminate Q|unfold value_kept; auto]|eexists; right; left; reflexivity]; fail).
  - destruct (x_int X s0) eqn:I; cbn [use] in E; [|discriminate E]. injection E as <-. split; [|exists (integer a); right; right; exists (text s0); reflexivity].
    apply size_text with (t := s0) (z := a); auto.
  - injection E as <-. split; [|exists none; auto]. apply size_value; [intros u Q; discriminate Q|reflexivity].
Qed.

Lemma attributes_loaded X l s m s' : load_attributes X l s = (Ok m, s') ->
  exists v1 v2 v3 v4, row_value "ruleset coverage" l v1 /\ row_value "ruleset criterion" l v2 /\
    row_value "ruleset train set size" l v3 /\ row_value "ruleset test set size" l v4 /\
    value_kept v1 (s_coverage s) (s_coverage s') /\ value_kept v2 (s_criterion s) (s_criterion s') /\
    size_kept X v3 (s_train s) (s_train s') /\ size_kept X v4 (s_test s) (s_test s') /\
    rule_rows l m /\
    s_idx s' = s_idx s /\ s_stack s' = s_stack s /\ s_compute s' = s_compute s /\ s_stacked s' = s_stacked s /\ s_type s' = s_type s.
Proof.
  unfold load_attributes. intros E.
  apply use_ok in E as (v1 & E1 & E). apply use_ok in E as (v2 & E2 & E). apply use_ok in E as (v3 & E3 & E).
  apply chain_ok in E as (s1 & A1 & E). apply use_ok in E as (v4 & E4 & E). apply chain_ok in E as (s2 & A2 & E).
  injection E as <- <-.
  rewrite look_drop in E2 by discriminate. rewrite !look_drop in E3 by discriminate. rewrite !look_drop in E4 by discriminate.
  apply look_value in E1, E2, E3, E4. exists v1, v2, v3, v4.
  destruct (size_assigned X with_train _ _ _ s_train (fun x t => eq_refl) A1) as (K1 & u1 & U1).
  destruct (size_assigned X with_test _ _ _ s_test (fun x t => eq_refl) A2) as (K2 & u2 & U2).
  set (s0 := assigned with_criterion v2 (assigned with_coverage v1 s)) in *.
  assert (I0 : s_coverage s0 = match v1 with Some v => v | None => s_coverage s end /\
    s_criterion s0 = match v2 with Some v => v | None => s_criterion s end /\
    s_train s0 = s_train s /\ s_test s0 = s_test s /\ s_idx s0 = s_idx s /\ s_stack s0 = s_stack s /\ s_compute s0 = s_compute s /\
    s_stacked s0 = s_stacked s /\ s_type s0 = s_type s) by (unfold s0; destruct v1, v2; repeat split).
  clearbody s0. destruct I0 as (J1 & J2 & J3 & J4 & J5 & J6 & J7 & J8 & J9).
  assert (I1 : s_coverage s1 = s_coverage s0 /\ s_criterion s1 = s_criterion s0 /\ s_test s1 = s_test s0 /\ s_idx s1 = s_idx s0 /\
    s_stack s1 = s_stack s0 /\ s_compute s1 = s_compute s0 /\ s_stacked s1 = s_stacked s0 /\ s_type s1 = s_type s0)
    by (destruct U1 as [->|[->|(w & ->)]]; repeat split).
  assert (I2 : s_coverage s2 = s_coverage s1 /\ s_criterion s2 = s_criterion s1 /\ s_train s2 = s_train s1 /\ s_idx s2 = s_idx s1 /\
    s_stack s2 = s_stack s1 /\ s_compute s2 = s_compute s1 /\ s_stacked s2 = s_stacked s1 /\ s_type s2 = s_type s1)
    by (destruct U2 as [->|[->|(w & ->)]]; repeat split).
  destruct I1 as (a1 & a2 & a3 & a4 & a5 & a6 & a7 & a8), I2 as (b1 & b2 & b3 & b4 & b5 & b6 & b7 & b8).
  split; auto. split; auto. split; auto. split; auto. unfold value_kept.
  split; [congruence|]. split; [congruence|]. split; [rewrite b3, <- J3; auto|]. split; [rewrite <- J4, <- a3; auto|].
  split; [apply rows_of_rules|]. repeat split; congruence.
Qed.

Lemma names_rows (columns : list string) (row : list obj) : NoDup columns -> NoDup (map fst (combine columns row)).
Proof.
  revert row. induction columns as [|c l IH]; intros [|v row] N; cbn; try constructor; inversion N; subst; auto.
  intros I. apply in_map_iff in I as ((c', w) & E & I). cbn in E. subst. apply in_combine_l in I. auto.
Qed.

Lemma fill_none X n v r : slot n r = none -> fill_size X n v r = Ok (put n v r).
Proof. intros E. unfold fill_size. rewrite E. reflexivity. Qed.

Lemma reads_put X E srule n v r : n = "_train_set_size" \/ n = "_test_set_size" -> reads_row X E srule r -> reads_row X E srule (put n v r).
Proof.
  intros N [A B C D F G H I J]. assert (ST : forall a, In a (statistics (r_kind r)) -> slot ("_" ++ a) (put n v r) = slot ("_" ++ a) r).
  { intros a K. apply slot_put_other. destruct (r_kind r); cbn [statistics In] in K; destruct N as [-> | ->];
      repeat (destruct K as [<-|K]; [intros HH; discriminate HH|]); destruct K. }
  assert (P : getattr (put n v r) "prediction" = getattr r "prediction").
  { rewrite !prediction_attr. unfold prediction. change (r_kind (put n v r)) with (r_kind r). rewrite slot_put_other; auto.
    destruct N as [-> | ->]; intros Q; discriminate Q. }
  constructor; auto; change (r_kind (put n v r)) with (r_kind r).
  - intros a w K L. rewrite ST; auto.
  - intros a K L. rewrite ST; auto.
  - rewrite P. exact H.
Qed.

(** Loading any table *)
Lemma loads X G w t t' : NoDup (w_columns w) -> load X G w t = (Ok tt, t') ->
  exists l, rule_rows (w_rows w) l /\
    Forall2 (fun row r => reads_row X (g_env G) (combine (w_columns w) row) r /\
      slot "_train_set_size" r = s_train t' /\ slot "_test_set_size" r = s_test t') l (s_rules t') /\
    (forall r rest, s_rules t' = r :: rest -> s_type t' = Some (r_kind r)) /\
    (s_rules t' = [] -> s_type t' = s_type t) /\
    (exists v1 v2 v3 v4, row_value "ruleset coverage" (w_rows w) v1 /\ row_value "ruleset criterion" (w_rows w) v2 /\
      row_value "ruleset train set size" (w_rows w) v3 /\ row_value "ruleset test set size" (w_rows w) v4 /\
      value_kept v1 (s_coverage t) (s_coverage t') /\ value_kept v2 (s_criterion t) (s_criterion t') /\
      size_kept X v3 (s_train t) (s_train t') /\ size_kept X v4 (s_test t) (s_test t')) /\
    (forall n, In n (s_names t') <-> feature_name (s_rules t') n) /\ NoDup (s_names t') /\
    s_idx t' = s_idx t /\ s_stack t' = s_stack t /\ s_compute t' = s_compute t.
Proof.
  intros ND E. unfold load in E. destruct (w_columns w) as [|c0 cols] eqn:CW; [discriminate E|]. rewrite <- CW in *.
  destruct (load_attributes X (w_rows w) t) as [o s1] eqn:LA. apply use_ok in E as (l & -> & E).
  destruct (attributes_loaded _ _ _ _ _ LA) as (v1 & v2 & v3 & v4 & R1 & R2 & R3 & R4 & K1 & K2 & K3 & K4 & RR & IX & SK & CP & ST & TY).
  apply chain_ok in E as (s2 & LR & E). unfold load_rules in LR.
  apply use_ok in LR as (rules1 & S1 & LR). apply use_ok in LR as (rules2 & S2 & LR). injection LR as <-.
  apply rseq_map_ok in S1. apply rseq_map_ok in S2.
  assert (F : Forall2 (fun row r => reads_row X (g_env G) (combine (w_columns w) row) r /\
      slot "_train_set_size" r = s_train s1 /\ slot "_test_set_size" r = s_test s1) l rules2).
  { clear -ND S1 S2. revert rules2 S2. induction S1 as [|row r l rules1 E1 S1 IH]; intros rules2 S2; inversion S2 as [|? r2 ? ? E2 S3]; subst; constructor; auto.
    destruct (series_reads _ _ _ _ (names_rows _ row ND) E1) as (R & Z1 & Z2). unfold fill_sizes in E2.
    rewrite fill_none in E2 by auto. cbn [rbind s_train s_test with_rules] in E2.
    rewrite fill_none in E2 by (rewrite slot_put_other; auto; intros Q; discriminate Q). injection E2 as <-.
    split; [apply reads_put; auto; apply reads_put; auto|]. split; [|apply slot_put].
    rewrite slot_put_other by (intros Q; discriminate Q). apply slot_put. }
  unfold load_rest in E. apply chain_ok in E as (s3 & CS & E). apply chain_ok in E as (s4 & CK & E). apply use_ok in E as (names & NM & E).
  rewrite atoms_names in E. injection E as <-. unfold compute_self_activation in CS. apply use_ok in CS as (a & _ & CS). injection CS as <-.
  cbn [with_rules s_rules] in *.
  set (s2 := match rules2 with [] => _ | r :: _ => _ end) in *.
  assert (I2 : s_rules s2 = rules2 /\ s_coverage s2 = s_coverage s1 /\ s_criterion s2 = s_criterion s1 /\ s_train s2 = s_train s1 /\
    s_test s2 = s_test s1 /\ s_idx s2 = s_idx s1 /\ s_stack s2 = s_stack s1 /\ s_compute s2 = s_compute s1 /\
    s_type s2 = match rules2 with [] => s_type s1 | r :: _ => Some (r_kind r) end) by (unfold s2; destruct rules2; repeat split).
  clearbody s2. destruct I2 as (i1 & i2 & i3 & i4 & i5 & i6 & i7 & i8 & i9).
  assert (I4 : s_rules s4 = rules2 /\ s_coverage s4 = s_coverage s1 /\ s_criterion s4 = s_criterion s1 /\ s_train s4 = s_train s1 /\
    s_test s4 = s_test s1 /\ s_idx s4 = s_idx s1 /\ s_stack s4 = s_stack s1 /\ s_compute s4 = s_compute s1 /\
    s_type s4 = match rules2 with [] => s_type s1 | r :: _ => Some (r_kind r) end).
  { destruct (s_stack (with_activation a s2)) eqn:KK.
    - unfold compute_stacked_activation in CK. apply use_ok in CK as (fr & _ & CK). injection CK as <-. cbn in *. repeat split; auto.
    - injection CK as <-. cbn in *. repeat split; auto. }
  clear CK i1 i2 i3 i4 i5 i6 i7 i8 i9. destruct I4 as (i1 & i2 & i3 & i4 & i5 & i6 & i7 & i8 & i9).
  cbn [with_names s_rules s_names s_idx s_act s_coverage s_criterion s_train s_test s_stacked s_stack s_type s_compute].
  rewrite i1, i2, i3, i4, i5, i6, i7, i8, i9.
  exists l. split; auto. split; auto. split; [intros r rest ->; auto|]. split; [intros ->; auto|].
  split; [exists v1, v2, v3, v4; auto 10|]. split; [|split; [apply set_of_NoDup; apply str_eqb_iff|auto]].
  intros n. rewrite set_of_In by (apply str_eqb_iff). rewrite in_concat. rewrite i1 in NM. apply rseq_map_ok in NM.
  split.
  - intros (m & I & J). destruct (proj2 (forall2_in _ _ _ NM) m I) as (r & Ir & Er). unfold rule_names in Er.
    destruct (r_cond r) as [c|] eqn:RC; cbn [rbind] in Er; [|discriminate Er]. destruct (c_names c) as [m'|] eqn:CN; cbn [need] in Er; [|discriminate Er].
    injection Er as ->. exists r, c, m. auto.
  - intros (r & c & m & Ir & RC & CN & J). destruct (proj1 (forall2_in _ _ _ NM) r Ir) as (m' & I & Er). unfold rule_names in Er.
    rewrite RC in Er. cbn [rbind] in Er. rewrite CN in Er. injection Er as <-. eauto.
Qed.

Lemma kept_rows l m row : rule_rows l m -> In row l -> plain_row row -> In row m.
Proof. intros R I P. induction R as [|q l m Q R IH|q l m Q R IH]; [destruct I|destruct I as [<-|I]; [left|right]; auto|destruct I as [<-|I]; [destruct (Q P)|auto]]. Qed.

Lemma same_cell {A B} (l : list (A * B)) a v w : NoDup (map fst l) -> In (a, v) l -> In (a, w) l -> v = w.
Proof.
  induction l as [|(b, x) l IH]; cbn; intros N I J; [destruct I|]. inversion N as [|? ? NI N']; subst.
  destruct I as [I|I], J as [J|J]; auto.
  - congruence.
  - injection I as -> ->. destruct NI. apply in_map_iff. exists (a, w). auto.
  - injection J as -> ->. destruct NI. apply in_map_iff. exists (a, v). auto.
Qed.

(** A cell that is not a literal *)
Lemma bad_cell X G w t row a v e : NoDup (w_columns w) -> In row (w_rows w) -> plain_row row ->
  In (a, v) (combine (w_columns w) row) -> In a conditions -> x_eval X (x_str X v) = Err e -> fst (load X G w t) <> Ok tt.
Proof.
  intros ND I P C A E H. destruct (load X G w t) as [o t'] eqn:L. cbn [fst] in H. subst o.
  destruct (loads _ _ _ _ _ ND L) as (l & RR & F & _). pose proof (kept_rows _ _ _ RR I P) as J.
  destruct (proj1 (forall2_in _ _ _ F) row J) as (r & _ & R & _).
  destruct (rr_cond _ _ _ _ R) as (c & idx & mins & maxs & names & _ & G1 & G2 & G3 & G4 & _).
  assert (Q : exists o, given X (combine (w_columns w) row) a o) by (destruct A as [<-|[<-|[<-|[<-|[]]]]]; eauto).
  destruct Q as (o & Q). destruct Q as [v' l' o J' E' _|N].
  - rewrite <- (same_cell _ _ _ _ (names_rows _ row ND) C J'), E in E'. discriminate E'.
  - apply N. apply in_map_iff. exists (a, v). auto.
Qed.

Lemma rseq_first {A B} (f : A -> res B) e l : l <> [] -> (forall x, In x l -> f x = Err e) -> rseq (map f l) = Err e.
Proof. destruct l as [|x l]; intros N H; [destruct (N eq_refl)|]. cbn [map rseq]. rewrite (H x (or_introl eq_refl)). reflexivity. Qed.

Lemma unlabelled label l : In label labels -> (forall row, In row l -> plain_row row) -> look label l = Ok None /\ drop label l = l.
Proof.
  intros I H. assert (L : forall row, In row l -> labelled label row = false).
  { intros row J. apply labelled_not. intros Q. destruct row as [|c rest]; [discriminate Q|]. injection Q as ->. apply (H _ J label rest); auto. }
  split.
  - unfold look. induction l as [|row l IH]; auto. cbn [find]. rewrite (L row (or_introl eq_refl)). apply IH; intros q J; [apply H|apply L]; right; auto.
  - unfold drop. induction l as [|row l IH]; auto. cbn [filter]. rewrite (L row (or_introl eq_refl)). cbn [negb]. f_equal.
    apply IH; intros q J; [apply H|apply L]; right; auto.
Qed.

(** A column that no type of rules has *)
Lemma unknown_column X G w t c : In c (w_columns w) -> c <> "Unnamed: 0" -> ~ In c (conditions ++ statistics KRegression) ->
  w_rows w <> [] -> (forall row, In row (w_rows w) -> plain_row row /\ List.length row = List.length (w_columns w)) ->
  fst (load X G w t) = Err EIndex.
Proof.
  intros I N NI NE H. unfold load. destruct (w_columns w) as [|c0 cols] eqn:CW; [destruct I|]. rewrite <- CW in *.
  assert (PL : forall row, In row (w_rows w) -> plain_row row) by (intros row J; apply H; auto).
  assert (LA : load_attributes X (w_rows w) t = (Ok (w_rows w), t)).
  { unfold load_attributes.
    destruct (unlabelled "ruleset coverage" (w_rows w)) as (-> & D1); [cbn; auto|auto|]. cbn [use]. rewrite D1. clear D1.
    destruct (unlabelled "ruleset criterion" (w_rows w)) as (-> & D1); [cbn; auto|auto|]. cbn [use]. rewrite D1. clear D1.
    destruct (unlabelled "ruleset train set size" (w_rows w)) as (-> & D1); [cbn; auto|auto|]. cbn [use assign_size assigned chain done]. rewrite D1. clear D1.
    destruct (unlabelled "ruleset test set size" (w_rows w)) as (-> & D1); [cbn; auto 10|auto|]. cbn [use assign_size assigned chain done]. rewrite D1. reflexivity. }
  rewrite LA. cbn [use]. unfold load_rules. rewrite rseq_first with (e := EIndex); [reflexivity|auto|].
  intros row J. unfold series_to_rule. destruct (H row J) as (_ & LE).
  assert (MF : map fst (combine (w_columns w) row) = w_columns w).
  { clear -LE. revert row LE. induction (w_columns w) as [|a l IH]; intros [|v row] LE; try discriminate LE; auto.
    cbn. f_equal. apply IH. injection LE; auto. }
  rewrite MF. destruct (forallb valid_column (w_columns w)) eqn:V; [|reflexivity].
  destruct (proj1 (valid_names _) V c I) as [Q|Q]; [destruct (N Q)|destruct (NI Q)].
Qed.

Lemma index_nodup k : NoDup ("Unnamed: 0" :: conditions ++ statistics k).
Proof.
  destruct k; repeat constructor; cbn; intros I; repeat (destruct I as [I|I]; [discriminate I|]); exact I.
Qed.

(** A rule that cannot be read back *)
Lemma not_readable X G k s t r a v e : lawful X -> s_rules s <> [] -> s_type s = Some k ->
  (forall r, In r (s_rules s) -> exists n, describable k r n) ->
  In r (s_rules s) -> (forall t, slot "_name" r = text t -> ~ In t labels) ->
  In a conditions -> getattr r a = Ok v -> x_missing X (x_str X v) = false -> x_number X (x_str X v) = None ->
  x_eval X (x_str X v) = Err e ->
  exists f s', save X s = (Ok f, s') /\ fst (load X G (read_csv X f) t) <> Ok tt.
Proof.
  intros LAW NE T D I NM A GA MS NN EV. destruct (table X k true s NE T D) as (co & rows & last & s' & E & _ & _ & ROWS & _).
  exists (to_csv X (mkSheet (conditions ++ statistics k) (rows ++ last))), s'. split; [unfold save; rewrite E; reflexivity|].
  apply In_nth_error in I as (j & J). destruct (ROWS j r J) as (n & label & cells & r' & DE & LO & RO & NR & _).
  set (f := to_csv _ _). assert (IL : In (label :: map (csv_cell X) cells) (f_lines f)).
  { unfold f, to_csv. cbn [f_lines]. apply in_map_iff. exists (label, cells). split; auto. apply in_or_app. left. eapply nth_error_In. exact NR. }
  assert (WC : w_columns (read_csv X f) = "Unnamed: 0" :: conditions ++ statistics k) by (destruct k; reflexivity).
  eapply (bad_cell X G (read_csv X f) t (read_line X (f_lines f) (label :: map (csv_cell X) cells)) a (text (x_str X v)) e).
  - rewrite WC. apply index_nodup.
  - unfold read_csv. cbn [w_rows]. apply in_map. exact IL.
  - intros l rest EQ. rewrite read_line_cons in EQ. injection EQ as EQ _. unfold read_cell in EQ.
    assert (NL : ~ In label labels).
    { destruct LO as [u Q|u Q Q'|Q Q']; [apply NM; auto| |]; intros [H|[H|[H|[H|[]]]]]; discriminate H. }
    destruct (x_missing X label); [discriminate EQ|]. destruct (SerialModel.numeric X _ 0) in EQ; [destruct (x_number X label); [discriminate EQ|]|];
      injection EQ as <-; exact NL.
  - rewrite WC, read_line_cons. cbn [combine]. right. unfold row_of in RO. assert (IN : In a (conditions ++ statistics k)) by (apply in_or_app; auto).
    clear -RO IN GA MS NN. set (lines := f_lines f). clearbody lines. generalize 1%nat as i. revert IN.
    induction RO as [|b o names cells (u & GB & ->) RO IH]; intros IN i; [destruct IN|].
    unfold read_cells. cbn [map List.length seq combine fst snd]. destruct IN as [->|IN].
    + left. f_equal. rewrite GA in GB. injection GB as <-. unfold read_cell. cbn [csv_cell text]. rewrite MS, NN. destruct (SerialModel.numeric X lines i); reflexivity.
    + right. apply (IH IN (S i)).
  - exact A.
  - rewrite (str_text X LAW). exact EV.
Qed.

(** Rows made by another function *)
Lemma custom_table X (custom : list string -> list (string * list obj)) k attributes s rows :
  s_rules s <> [] -> s_type s = Some k -> custom (conditions ++ statistics k) = rows ->
  (List.length (s_rules s) < List.length rows)%nat -> fst (to_df X (Some custom) attributes s) = Err EIndex.
Proof.
  intros NE T C L. unfold to_df. destruct (s_rules s) as [|r0 rest] eqn:RS; [destruct (NE eq_refl)|]. rewrite <- RS in *. rewrite T.
  rewrite index_names, C. cbn [use].
  assert (R : forall ls rs, (List.length rs < List.length ls)%nat -> rename ls rs = Err EIndex).
  { induction ls as [|x ls IH]; intros [|r rs] LT; cbn in *; try lia; auto. rewrite IH by lia. reflexivity. }
  rewrite R by (rewrite map_length; exact L). reflexivity.
Qed.

Lemma custom_rows X (custom : list string -> list (string * list obj)) k attributes s rows :
  s_rules s <> [] -> s_type s = Some k -> custom (conditions ++ statistics k) = rows ->
  (List.length rows <= List.length (s_rules s))%nat ->
  exists coverage last s', to_df X (Some custom) attributes s = (Ok (mkSheet (conditions ++ statistics k) (rows ++ last)), s') /\
    List.length (s_rules s') = List.length (s_rules s) /\
    (forall j r, nth_error (s_rules s) j = Some r -> exists r', nth_error (s_rules s') j = Some r' /\
       forall label cells, nth_error rows j = Some (label, cells) -> renamed label r r') /\
    (forall j r, nth_error (s_rules s) j = Some r -> nth_error rows j = None -> nth_error (s_rules s') j = Some r) /\
    same_but_rules s s' /\ ruleset_coverage s = Ok coverage /\
    (if attributes then last_rows k coverage (s_criterion s) (s_train s) (s_train s) last else last = []).
Proof.
  intros NE T C L. unfold to_df. destruct (s_rules s) as [|r0 rest] eqn:RS; [destruct (NE eq_refl)|]. rewrite <- RS in *. rewrite T.
  rewrite index_names, C. cbn [use].
  assert (R : forall (ls : list (string * list obj)) rs, (List.length ls <= List.length rs)%nat -> exists rs', rename (map fst ls) rs = Ok rs' /\
    List.length rs' = List.length rs /\
    (forall j r, nth_error rs j = Some r -> exists r', nth_error rs' j = Some r' /\
       forall label cells, nth_error ls j = Some (label, cells) -> renamed label r r') /\
    (forall j r, nth_error rs j = Some r -> nth_error ls j = None -> nth_error rs' j = Some r)).
  { clear. induction ls as [|(x, cs) ls IH]; intros rs LT.
    - exists rs. split; auto. split; auto. split; auto. intros j r H. exists r. split; auto. intros label cells Q. destruct j; discriminate Q.
    - destruct rs as [|r rs]; [cbn in LT; lia|]. destruct (IH rs ltac:(cbn in LT; lia)) as (rs' & E & LE & P & Q).
      cbn [map fst rename]. rewrite E. exists (put "_name" (text x) r :: rs'). split; auto. split; [cbn; lia|]. split.
      + intros [|j] r1 H; [|apply P; auto]. injection H as <-. eexists. split; [reflexivity|]. intros label cells K. injection K as <- <-. apply renamed_put.
      + intros [|j] r1 H K; [discriminate K|]. apply Q; auto. }
  destruct (R rows (s_rules s) L) as (rs' & E & LE & P & Q). rewrite E. cbn [use].
  destruct (coverage_ok s) as (v & CV).
  assert (CV' : ruleset_coverage (with_rules rs' s) = Ok v) by (rewrite <- CV; reflexivity).
  exists v. destruct attributes; cbn [negb].
  - rewrite CV'. cbn [use]. eexists. eexists. split; [reflexivity|].
    split; [exact LE|]. split; [exact P|]. split; [exact Q|]. split; [destruct s; repeat split|]. split; auto.
    destruct (extra_row "ruleset coverage" v k) as (c1 & E1 & V1).
    destruct (extra_row "ruleset criterion" (s_criterion s) k) as (c2 & E2 & V2).
    destruct (extra_row "ruleset train set size" (s_train s) k) as (c3 & E3 & V3).
    destruct (extra_row "ruleset test set size" (s_train s) k) as (c4 & E4 & V4).
    rewrite index_names in E1, E2, E3, E4. exists c1, c2, c3, c4.
    cbn [with_rules s_criterion s_train]. rewrite E1, E2, E3, E4. split; [reflexivity|]. auto.
  - exists []. eexists. rewrite app_nil_r. split; [reflexivity|].
    split; [exact LE|]. split; [exact P|]. split; [exact Q|]. split; [destruct s; repeat split|]. split; auto.
Qed.

(** ** Rulesets that cannot be described *)

Lemma no_rules_table X attributes custom s : s_rules s = [] -> to_df X custom attributes s = (Ok (mkSheet [] []), s).
Proof. intros E. unfold to_df. rewrite E. reflexivity. Qed.
