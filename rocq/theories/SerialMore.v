(** What saving and loading give and lose. *)
From Coq Require Import List ZArith QArith Bool String Ascii Lia Relations Permutation.
From Coq Require Import List.
From Verif Require Import Base Num CondModel CondSpec CondBase CondProofs CondMore ThrModel ThrProofs MetModel
  RuleModel RuleSpec RuleProofs RuleMisc PredModel PredStack SetModel SetSpec SetBase SerialModel SerialSpec SerialProofs
  SerialSave SerialLoad.
Import ListNotations.
Open Scope string_scope.
Open Scope list_scope.
Open Scope Z_scope.

(** ** Round trips *)

Lemma rules_back X G k s t fss size :
  lawful X -> known (e_sort (g_env G)) -> s_rules s <> [] -> s_type s = Some k ->
  Forall2 (storable X (e_sort (g_env G)) k) (s_rules s) fss -> as_size X (s_train s) size ->
  exists f s1 t', save X s = (Ok f, s1) /\ load X G (read_csv X f) t = (Ok tt, t') /\
    Forall2 (restored (g_env G) size size) (s_rules s) (s_rules t').
Proof.
  intros L K NE T S SZ. destruct (save_load X L G k s t fss size K NE T S SZ) as (v & f & s1 & t' & CV & E & LD & H & _).
  exists f, s1, t'. auto.
Qed.

Lemma ruleset_back X G k s t fss size f s1 t' :
  lawful X -> known (e_sort (g_env G)) -> s_rules s <> [] -> s_type s = Some k ->
  Forall2 (storable X (e_sort (g_env G)) k) (s_rules s) fss -> as_size X (s_train s) size ->
  save X s = (Ok f, s1) -> load X G (read_csv X f) t = (Ok tt, t') ->
  s_train t' = size /\ s_type t' = Some k /\
  (forall n, In n (s_names t') <-> feature_name (s_rules s) n) /\ NoDup (s_names t') /\
  s_act t' = None /\ s_stack t' = s_stack t /\ s_compute t' = s_compute t /\
  s_stacked t' = (if s_stack t then None else s_stacked t).
Proof.
  intros L K NE T S SZ EF EL. destruct (save_load X L G k s t fss size K NE T S SZ) as (v & f' & s1' & t2 & CV & E & LD & H).
  assert (f' = f) by congruence. subst f'. assert (t2 = t') by congruence. subst t2. unfold loaded in H. intuition.
Qed.

Lemma attributes_back X G k s t fss size coverage f s1 t' :
  lawful X -> known (e_sort (g_env G)) -> s_rules s <> [] -> s_type s = Some k ->
  Forall2 (storable X (e_sort (g_env G)) k) (s_rules s) fss -> as_size X (s_train s) size ->
  ruleset_coverage s = Ok coverage ->
  save X s = (Ok f, s1) -> load X G (read_csv X f) t = (Ok tt, t') ->
  as_text X coverage (s_coverage t') /\ as_text X (s_criterion s) (s_criterion t').
Proof.
  intros L K NE T S SZ CV EF EL. destruct (save_load X L G k s t fss size K NE T S SZ) as (v & f' & s1' & t2 & CV' & E & LD & H).
  assert (f' = f) by congruence. subst f'. assert (t2 = t') by congruence. subst t2. assert (v = coverage) by congruence. subst v.
  unfold loaded in H. intuition.
Qed.

Lemma test_size_back X G k s t fss size f s1 t' :
  lawful X -> known (e_sort (g_env G)) -> s_rules s <> [] -> s_type s = Some k ->
  Forall2 (storable X (e_sort (g_env G)) k) (s_rules s) fss -> as_size X (s_train s) size ->
  save X s = (Ok f, s1) -> load X G (read_csv X f) t = (Ok tt, t') -> s_test t' = size.
Proof.
  intros L K NE T S SZ EF EL. destruct (save_load X L G k s t fss size K NE T S SZ) as (v & f' & s1' & t2 & CV & E & LD & H).
  assert (f' = f) by congruence. subst f'. assert (t2 = t') by congruence. subst t2. unfold loaded in H. intuition.
Qed.

Lemma indexes_back X G k s t fss size f s1 t' :
  lawful X -> known (e_sort (g_env G)) -> s_rules s <> [] -> s_type s = Some k ->
  Forall2 (storable X (e_sort (g_env G)) k) (s_rules s) fss -> as_size X (s_train s) size ->
  save X s = (Ok f, s1) -> load X G (read_csv X f) t = (Ok tt, t') -> s_idx t' = s_idx t.
Proof.
  intros L K NE T S SZ EF EL. destruct (save_load X L G k s t fss size K NE T S SZ) as (v & f' & s1' & t2 & CV & E & LD & H).
  assert (f' = f) by congruence. subst f'. assert (t2 = t') by congruence. subst t2. unfold loaded in H. intuition.
Qed.

Lemma names_back X G k s t fss size f s1 t' :
  lawful X -> known (e_sort (g_env G)) -> s_rules s <> [] -> s_type s = Some k ->
  Forall2 (storable X (e_sort (g_env G)) k) (s_rules s) fss -> as_size X (s_train s) size ->
  save X s = (Ok f, s1) -> load X G (read_csv X f) t = (Ok tt, t') ->
  forall r, In r (s_rules t') -> slot "_name" r = text "Unnamed: 0".
Proof.
  intros L K NE T S SZ EF EL. destruct (save_load X L G k s t fss size K NE T S SZ) as (v & f' & s1' & t2 & CV & E & LD & H).
  assert (f' = f) by congruence. subst f'. assert (t2 = t') by congruence. subst t2. destruct H as (R & _).
  intros r I. destruct (proj2 (forall2_in _ _ _ R) r I) as (q & _ & Q). apply Q.
Qed.

(** ** An empty ruleset *)

Lemma empty_back X G s t : s_rules s = [] ->
  exists f t', save X s = (Ok f, s) /\ f_lines f = [] /\ load X G (read_csv X f) t = (Ok tt, t') /\
    s_rules t' = [] /\ s_coverage t' = s_coverage t /\ s_criterion t' = s_criterion t /\
    s_train t' = s_train t /\ s_test t' = s_test t /\ s_type t' = s_type t /\ s_names t' = [] /\ s_idx t' = s_idx t.
Proof.
  intros E. destruct s as [l n i a co cr tr te st sk ty cp]. cbn in E. subst l.
  eexists. destruct t as [l' n' i' a' co' cr' tr' te' st' sk' ty' cp']. eexists.
  split; [reflexivity|]. split; [reflexivity|]. split.
  { unfold load, read_csv. cbn -[load_rest compute_stacked_activation]. unfold load_rest.
    cbn -[compute_stacked_activation]. instantiate (1 := mkSet [] [] i' (Some (new_activation [])) co' cr' tr' te'
      (if sk' then Some (mkFrame 0 []) else st') sk' ty' cp'). destruct sk'; reflexivity. }
  repeat split.
Qed.

(** ** A second table *)

Lemma dset_twice {A} k (v : A) d : dset k v (dset k v d) = dset k v d.
Proof.
  induction d as [|(j, w) t IH]; cbn [dset].
  - rewrite (proj2 (str_eqb_iff k k) eq_refl). auto.
  - destruct (str_eqb k j) eqn:E; cbn [dset]; [rewrite (proj2 (str_eqb_iff k k) eq_refl); reflexivity|]. rewrite E. f_equal. exact IH.
Qed.

Lemma series_again X i r idx label cells : ~ In "_name" idx -> rule_to_series X i r idx = Ok (label, cells) ->
  rule_to_series X i (put "_name" (text label) r) idx = Ok (label, cells).
Proof.
  intros N E. unfold rule_to_series in *. assert (RN : rule_name X i (put "_name" (text label) r) = Ok label).
  { unfold rule_name. rewrite slot_put. reflexivity. }
  rewrite RN. cbn [rbind]. destruct (rule_name X i r); cbn [rbind] in E; [|discriminate E].
  assert (M : map (getattr (put "_name" (text label) r)) idx = map (getattr r) idx).
  { apply map_ext_in. intros a0 I. apply getattr_put_name. intros [<-|[]]. auto. }
  rewrite M. destruct (rseq (map (getattr r) idx)); cbn [rbind] in *; [|discriminate E]. injection E as -> <-. reflexivity.
Qed.

Lemma rows_again X idx : ~ In "_name" idx -> forall rules rules' rows i,
  rseq (map (fun p => rule_to_series X (fst p) (snd p) idx) (combine (seq i (List.length rules)) rules)) = Ok rows ->
  rename (map fst rows) rules = Ok rules' ->
  rseq (map (fun p => rule_to_series X (fst p) (snd p) idx) (combine (seq i (List.length rules')) rules')) = Ok rows /\
  rename (map fst rows) rules' = Ok rules' /\ List.length rules' = List.length rules.
Proof.
  intros N. induction rules as [|r rules IH]; intros rules' rows i E R; cbn [List.length seq combine map rseq] in E.
  - injection E as <-. cbn in R. injection R as <-. auto.
  - cbn [fst snd] in E. destruct (rule_to_series X i r idx) as [(label, cells)|] eqn:ER; cbn [rbind] in E; [|discriminate E].
    destruct (rseq _) as [rest|] eqn:EE in E; cbn [rbind] in E; [|discriminate E]. injection E as <-.
    cbn [map fst rename] in R. destruct (rename (map fst rest) rules) as [rules2|] eqn:RR; cbn [rmap rbind] in R; [|discriminate R].
    injection R as <-. destruct (IH _ _ _ EE RR) as (A & B & C).
    cbn [List.length seq combine map rseq fst snd rename]. rewrite (series_again _ _ _ _ _ _ N ER). cbn [rbind]. rewrite A. cbn [rbind].
    split; auto. rewrite B. cbn [rmap rbind]. split; [|auto]. f_equal. f_equal. unfold put at 1. cbn [put r_kind r_cond r_act r_thr r_good r_bad r_fitted r_evaluated r_dict].
    rewrite dset_twice. reflexivity.
Qed.

Lemma again X attributes s d s' : to_df X None attributes s = (Ok d, s') -> to_df X None attributes s' = (Ok d, s').
Proof.
  unfold to_df. destruct (s_rules s) as [|r0 rest] eqn:RS.
  - intros E. injection E as <- <-. rewrite RS. reflexivity.
  - destruct (s_type s) as [k|] eqn:TY; [|intros E; discriminate E].
    destruct (rseq _) as [rows|] eqn:ER; cbn [use]; [|intros E; discriminate E].
    destruct (rename _ _) as [rules'|] eqn:RN; cbn [use]; [|intros E; discriminate E].
    assert (NI : ~ In "_name" (index k)).
    { destruct k; cbn; intros I; repeat (destruct I as [I|I]; [discriminate I|]); exact I. }
    destruct (rows_again X (index k) NI _ _ _ _ ER RN) as (A & B & C).
    assert (FIN : forall s2, s2 = with_rules rules' s -> match s_rules s2 with
      | [] => (Ok (mkSheet [] []), s2)
      | rules => match s_type s2 with
        | None => (Err EAttr, s2)
        | Some k => use (rseq (map (fun p => rule_to_series X (fst p) (snd p) (index k)) (combine (seq 0 (List.length rules)) rules)))
            (fun rows s => use (rename (map fst rows) rules) (fun rules s =>
              if negb attributes then (Ok (mkSheet (index k) rows), with_rules rules s)
              else use (ruleset_coverage (with_rules rules s)) (fun coverage s =>
                (Ok (mkSheet (index k) (rows ++ [extra "ruleset coverage" coverage (index k);
                       extra "ruleset criterion" (s_criterion s) (index k);
                       extra "ruleset train set size" (s_train s) (index k);
                       extra "ruleset test set size" (s_train s) (index k)])), s)) (with_rules rules s)) s) s2
        end end =
      use (ruleset_coverage (with_rules rules' s)) (fun coverage s2 =>
         if negb attributes then (Ok (mkSheet (index k) rows), s2) else
                (Ok (mkSheet (index k) (rows ++ [extra "ruleset coverage" coverage (index k);
                       extra "ruleset criterion" (s_criterion s2) (index k);
                       extra "ruleset train set size" (s_train s2) (index k);
                       extra "ruleset test set size" (s_train s2) (index k)])), s2)) (with_rules rules' s)).
    { intros s2 ->. cbn [s_rules with_rules s_type]. rewrite TY.
      destruct rules' as [|r1 rest']; [discriminate C|].
      rewrite A. cbn [use]. rewrite B. cbn [use].
      destruct (coverage_ok (with_rules (r1 :: rest') s)) as (v & CV).
      assert (CV' : ruleset_coverage (with_rules (r1 :: rest') (with_rules (r1 :: rest') s)) = Ok v) by (rewrite <- CV; reflexivity).
      unfold with_rules in *. cbn [s_rules s_names s_idx s_act s_coverage s_criterion s_train s_test s_stacked s_stack s_type s_compute] in *.
      rewrite CV. cbn [use]. destruct attributes; reflexivity. }
    intros E. assert (S2 : s' = with_rules rules' s /\ use (ruleset_coverage (with_rules rules' s)) (fun coverage s2 =>
         if negb attributes then (Ok (mkSheet (index k) rows), s2) else
                (Ok (mkSheet (index k) (rows ++ [extra "ruleset coverage" coverage (index k);
                       extra "ruleset criterion" (s_criterion s2) (index k);
                       extra "ruleset train set size" (s_train s2) (index k);
                       extra "ruleset test set size" (s_train s2) (index k)])), s2)) (with_rules rules' s) = (Ok d, s')).
    { destruct (coverage_ok (with_rules rules' s)) as (v & CV). rewrite CV in *. cbn [use] in *.
      destruct attributes; cbn [negb] in *; injection E as <- <-; auto. }
    destruct S2 as (S2 & E2). rewrite <- E2. rewrite <- FIN with (s2 := s'); auto.
Qed.
