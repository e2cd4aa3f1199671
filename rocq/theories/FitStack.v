(** fit of rulesets with STACKED_FIT. *)
From Coq Require Import List ZArith QArith Bool String Ascii Permutation Lia.
From Coq Require Import List.
From Verif Require Import Base Num Arith CondModel CondSpec CondBase CondMore CondSet ThrModel ThrProofs MetModel MetSpec RuleModel RuleSpec RuleProofs RuleFit RuleEval RuleValues RuleMisc.
From Verif Require Import PredModel PredSpec PredReg PredStack PredMisc SetModel SetSpec SetBase SetSort SetAct SetAdd SetEq SetMisc FitModel FitSpec FitDrop FitMain.
Import ListNotations.
Open Scope string_scope.
Open Scope list_scope.
Open Scope Z_scope.

Lemma fa2_nth {A B} (P : A -> B -> Prop) l m : Forall2 P l m -> forall i x, nth_error l i = Some x -> exists y, nth_error m i = Some y /\ P x y.
Proof.
  induction 1 as [|a b l m H F IH]; intros [|i] x E; cbn in *; try discriminate.
  - injection E as <-. eauto.
  - auto.
Qed.

Lemma fa2_from_nth {A B} (P : A -> B -> Prop) l : forall m, List.length l = List.length m ->
  (forall i x y, nth_error l i = Some x -> nth_error m i = Some y -> P x y) -> Forall2 P l m.
Proof.
  induction l as [|a l IH]; intros [|b m] L H; try discriminate; constructor.
  - apply (H O); auto.
  - apply IH; [injection L; auto|]. intros i x y. apply (H (S i)).
Qed.

Lemma fa2_length {A B} (P : A -> B -> Prop) l m : Forall2 P l m -> List.length l = List.length m.
Proof. induction 1; cbn; auto. Qed.

(** ** The attributes of a rule *)

Definition slots (attrs : list (string * list (string * obj))) : list string := map (fun a => "_" ++ fst a)%string attrs.

Lemma check_keeps E a r r' : check_attribute E a r = (Ok tt, r') ->
  same_but [] r r' /\ worse r r' /\ r_fitted r' = r_fitted r /\ r_evaluated r' = r_evaluated r /\ r_dict r' = r_dict r.
Proof.
  intros H. destruct (check_cases _ _ _ _ _ H) as [(-> & _)|(_ & -> & _)].
  - split; [apply RuleProofs.same_refl|]. split; [apply worse_refl|]. auto.
  - split; [apply same_bad|]. split; [apply worse_with_bad|]. auto.
Qed.

Lemma slot_dict n r r' : r_dict r' = r_dict r -> slot n r' = slot n r.
Proof. unfold slot. intros ->. auto. Qed.

Lemma assign_ok E i attrs : forall r l r', assign E attrs i r = (Ok l, r') -> NoDup (map fst attrs) ->
  same_but (slots attrs) r r' /\ worse r r' /\ r_fitted r' = r_fitted r /\ r_evaluated r' = r_evaluated r /\
  (forall a series, In (a, series) attrs -> exists n v, nth_error series i = Some (n, v) /\ slot ("_" ++ a)%string r' = v) /\
  Forall (eq i) l /\ (r_good r' = true -> l = []) /\ (attrs <> [] -> l = [] -> r_good r' = true) /\
  (r_good r = false -> r_bad r' = r_bad r) /\
  (r_good r = true -> r_good r' = false -> exists a, In a (map fst attrs) /\ r_bad r' = Some a /\ guilty E r').
Proof.
  induction attrs as [|(a, series) t IH]; intros r l r' H N; cbn [assign] in H.
  - injection H as <- <-. split; [apply RuleProofs.same_refl|]. split; [apply worse_refl|]. do 2 (split; auto). split; [intros a s []|].
    split; [constructor|]. do 3 (split; auto). congruence.
  - destruct (nth_error series i) as [(n, v)|] eqn:Nt; [|discriminate].
    set (r1 := put ("_" ++ a)%string v r) in *.
    assert (C : exists r2, (if r_good r1 then check_attribute E a r1 else (Ok tt, r1)) = (Ok tt, r2)).
    { destruct (if r_good r1 then _ else _) as ([[]|] & r2); [eauto|discriminate]. }
    destruct C as (r2 & C). rewrite C in H.
    assert (K : same_but [] r1 r2 /\ worse r1 r2 /\ r_fitted r2 = r_fitted r1 /\ r_evaluated r2 = r_evaluated r1 /\ r_dict r2 = r_dict r1).
    { destruct (r_good r1); [apply (check_keeps E a); auto|]. injection C as <-. split; [apply RuleProofs.same_refl|]. split; [apply worse_refl|]. auto. }
    destruct K as (K1 & K2 & K3 & K4 & K5).
    destruct (assign E t i r2) as (o & r3) eqn:As. destruct o as [l'|]; [|discriminate]. cbn [rmap] in H.
    assert (L : l = (if r_good r2 then l' else i :: l') /\ r' = r3) by (injection H as <- <-; auto). clear H. destruct L as (-> & ->).
    cbn [map fst] in N. inversion N as [|x y Na Nt']; subst.
    destruct (IH r2 l' r3 As Nt') as (A1 & A2 & A3 & A4 & A5 & A6 & A7 & A8 & A9 & A10).
    assert (P : same_but (slots ((a, series) :: t)) r r1) by (apply same_put; left; auto).
    split; [|split; [|split; [|split; [|split; [|split; [|split; [|split; [|split]]]]]]]].
    + eapply same_trans; [exact P|]. eapply same_trans; [eapply same_more; [|exact K1]; intros m []|].
      eapply same_more; [|exact A1]. intros m I. right; auto.
    + eapply worse_trans; [apply worse_put|]. eapply worse_trans; eauto.
    + rewrite A3, K3. auto.
    + rewrite A4, K4. auto.
    + intros b sb [E0|I].
      * injection E0 as <- <-. exists n, v. split; auto. rewrite (same_slot _ _ _ _ A1).
        -- rewrite (slot_dict _ _ _ K5). unfold r1. apply slot_put.
        -- intros I. unfold slots in I. apply in_map_iff in I as ((b & sb) & E0 & I). cbn in E0. apply app_inj_str in E0. subst.
           apply Na. apply (in_map fst) in I. auto.
      * apply A5. auto.
    + destruct (r_good r2); auto.
    + intros G3. destruct (r_good r2) eqn:G2; auto. rewrite (w_bad _ _ A2 G2) in G3. discriminate.
    + intros _ E0. destruct (r_good r2) eqn:G2; [|discriminate]. destruct t as [|p t]; [|apply A8; auto; discriminate].
      cbn in As. injection As as _ <-. auto.
    + intros Gr. assert (X : r2 = r1). { change (r_good r1) with (r_good r) in C. rewrite Gr in C. congruence. } subst r2.
      rewrite A9; auto.
    + intros Gr G3. change (r_good r1) with (r_good r) in C. rewrite Gr in C. destruct (check_cases _ _ _ _ _ C) as [(-> & _)|(_ & -> & th & T & J)].
      * destruct (A10 Gr G3) as (b & I & B & Gu). exists b. split; [right; auto|]. auto.
      * assert (Bd : r_bad r3 = Some a) by (rewrite A9; auto).
        exists a. split; [left; auto|]. split; auto. exists a. split; auto.
        assert (Kd : r_kind r3 = r_kind r1) by apply (sb_kind _ _ _ A1).
        split; [destruct (call_row _ _ _ _ J) as (row & R); exists th, row; rewrite Kd; auto|].
        intros I. apply (denied_same E a r1); auto; [|eapply denied_judge; eauto].
        rewrite Kd in I. rewrite (same_measure (slots t) (with_bad a r1) r3 a); auto.
        -- apply (same_measure [] r1); auto.
        -- intros J'. unfold slots in J'. apply in_map_iff in J' as ((b & sb) & E0 & J'). cbn in E0. apply app_inj_str in E0. subst.
           apply Na. apply (in_map fst) in J'. auto.
Qed.

Definition marks (mark : rule -> rule) : Prop := forall r, same_but [] r (mark r) /\ r_good (mark r) = r_good r /\ r_bad (mark r) = r_bad r.

Lemma marks_fitted : marks with_fitted.
Proof. intros r. split; [apply same_fitted|auto]. Qed.

Lemma marks_evaluated : marks with_evaluated.
Proof. intros r. split; [apply same_evaluated|auto]. Qed.

(** What is left of a rule *)
Record assigned (E : env) (mark : rule -> rule) (attrs : list (string * list (string * obj))) (i : nat) (r : rule) (l : list nat) (r' : rule)
    : Prop := mkAssigned {
  an_same : same_but (slots attrs) r r';
  an_worse : worse r r';
  an_flags : r_fitted r' = r_fitted (mark r) /\ r_evaluated r' = r_evaluated (mark r);
  an_values : forall a series, In (a, series) attrs -> exists n v, nth_error series i = Some (n, v) /\ slot ("_" ++ a)%string r' = v;
  an_drop : Forall (eq i) l;
  an_good : r_good r' = true -> l = [];
  an_bad : attrs <> [] -> r_good r = false -> l <> [];
  an_blame : r_good r = false -> r_bad r' = r_bad r;
  an_checked : attrs <> [] -> r_good r' = true -> check_all E r' = (Ok tt, r');
  an_guilty : r_good r = true -> r_good r' = false -> guilty E r' /\ (l <> [] -> exists a, In a (map fst attrs) /\ r_bad r' = Some a);
  an_more : attrs <> [] -> l = [] -> r_good r' = true \/
    exists n th q, r' = with_bad n q /\ r_good q = true /\ In n (dir q) /\ class_thresholds (e_classes E) (r_kind q) = Some th /\ judge E th n q = Ok false /\
      same_but [] q r' /\ r_dict r' = r_dict q }.

Lemma assign_rule_ok E mark attrs i r l r' : marks mark -> NoDup (map fst attrs) -> assign_rule E mark attrs i r = (Ok l, r') ->
  assigned E mark attrs i r l r'.
Proof.
  intros M N H. unfold assign_rule in H. destruct (assign E attrs i (mark r)) as ([l1|] & r1) eqn:A; [|discriminate].
  destruct (assign_ok _ _ _ _ _ _ A N) as (A1 & A2 & A3 & A4 & A5 & A6 & A7 & A8 & A9 & A10). destruct (M r) as (M1 & M2 & M3).
  assert (W : worse r (mark r)). { apply worse_same; auto. apply (sb_kind _ _ _ M1). }
  assert (S : same_but (slots attrs) r r1). { eapply same_trans; [|exact A1]. eapply same_more; [|exact M1]. intros m []. }
  destruct (r_good r1) eqn:G1.
  - destruct (check_all E r1) as (o & r2) eqn:C. destruct o as [[]|]; [|discriminate]. cbn in H. injection H as <- <-.
    rewrite (A7 eq_refl) in *. destruct (check_all_cases _ _ _ C) as [(-> & _)|(n & th & I & B & T & J)].
    + apply mkAssigned; auto.
      * eapply worse_trans; eauto.
      * intros _ G. assert (X := w_bad _ _ A2). rewrite M2 in X. rewrite X in G1; [discriminate|auto].
      * intros G. assert (X := w_bad _ _ A2). rewrite M2 in X. rewrite X in G1; [discriminate|auto].
      * congruence.
    + apply mkAssigned.
      * eapply same_trans; [exact S|]. rewrite B. apply same_bad.
      * eapply worse_trans; [exact W|]. eapply worse_trans; [exact A2|]. rewrite B. apply worse_with_bad.
      * rewrite B. auto.
      * rewrite B. exact A5.
      * auto.
      * auto.
      * intros _ G. assert (X := w_bad _ _ A2). rewrite M2 in X. rewrite X in G1; [discriminate|auto].
      * intros G. assert (X := w_bad _ _ A2). rewrite M2 in X. rewrite X in G1; [discriminate|auto].
      * intros _ G. rewrite B in G. discriminate.
      * intros _ _. split; [|congruence]. rewrite B. exists n. split; auto. destruct (call_row _ _ _ _ J) as (row & Rw).
        split; [exists th, row; auto|]. intros In_. apply (denied_same E n r1); auto; [|eapply denied_judge; eauto].
        apply (same_measure [] r1); auto. apply same_bad.
      * intros _ _. right. exists n, th, r1. rewrite B. do 5 (split; auto). split; [apply same_bad|auto].
  - injection H as <- <-. apply mkAssigned; auto.
    + eapply worse_trans; eauto.
    + congruence.
    + intros Ne _ ->. specialize (A8 Ne eq_refl). congruence.
    + intros G. rewrite <- M3. apply A9. congruence.
    + congruence.
    + intros G _. rewrite <- M2 in G. destruct (A10 G eq_refl) as (a & X1 & X2 & X3). split; auto. eauto.
    + intros Ne E0. left. rewrite G1. auto.
Qed.

Lemma assign_rules_ok E mark attrs : marks mark -> NoDup (map fst attrs) -> forall rules i d rules', assign_rules E mark attrs i rules = (Ok d, rules') ->
  exists ls, d = concat ls /\ List.length rules' = List.length rules /\ List.length ls = List.length rules /\
    forall j r, nth_error rules j = Some r -> exists l r', nth_error ls j = Some l /\ nth_error rules' j = Some r' /\ assigned E mark attrs (i + j) r l r'.
Proof.
  intros M N. induction rules as [|r t IH]; intros i d rules' H; cbn [assign_rules] in H.
  - injection H as <- <-. exists []. do 3 (split; auto). intros [|j] r; discriminate.
  - destruct (assign_rule E mark attrs i r) as ([l|] & r') eqn:A; [|discriminate].
    destruct (assign_rules E mark attrs (S i) t) as (o & t') eqn:B. destruct o as [d'|]; [|discriminate]. cbn [rmap] in H. injection H as <- <-.
    destruct (IH _ _ _ B) as (ls & -> & L1 & L2 & K). exists (l :: ls). cbn [concat List.length]. do 3 (split; auto).
    intros [|j] q Q; cbn [nth_error] in Q.
    + injection Q as <-. exists l, r'. cbn. do 2 (split; auto). rewrite Nat.add_0_r. apply assign_rule_ok; auto.
    + destruct (K j q Q) as (l1 & r1 & X1 & X2 & X3). exists l1, r1. cbn. do 2 (split; auto). replace (i + S j)%nat with (S i + j)%nat by lia. auto.
Qed.

(** The rules to drop *)
Lemma numbers_from rules d j q : In (j, q) (numbers_rules rules d) -> nth_error rules j = Some q.
Proof.
  unfold numbers_rules. intros I. apply in_flat_map in I as (i & _ & I). destruct (nth_error rules i) eqn:N; [|destruct I].
  destruct I as [I|[]]. injection I as <- <-. auto.
Qed.

Lemma numbers_in rules d j q : nth_error rules j = Some q -> In j d -> In (j, q) (numbers_rules rules d).
Proof. intros N I. unfold numbers_rules. apply in_flat_map. exists j. split; auto. rewrite N. left; auto. Qed.

Lemma numbers_only rules d j q : In (j, q) (numbers_rules rules d) -> In j d.
Proof.
  unfold numbers_rules. intros I. apply in_flat_map in I as (i & D & I). destruct (nth_error rules i) eqn:N; [|destruct I].
  destruct I as [I|[]]. injection I as <- <-. auto.
Qed.

(** What becomes of the rules of a ruleset *)
Lemma assign_all_ok E mark attrs s d s' : marks mark -> NoDup (map fst attrs) -> attrs <> [] -> assign_all E mark attrs s = (Ok d, s') ->
  let dropped := map snd (numbers_rules (s_rules s') d) in
  s' = with_rules (s_rules s') s /\ List.length (s_rules s') = List.length (s_rules s) /\
  (forall i r, nth_error (s_rules s) i = Some r -> exists l r', nth_error (s_rules s') i = Some r' /\ assigned E mark attrs i r l r' /\
     (l <> [] -> In r' dropped)) /\
  (forall q, In q dropped -> In q (s_rules s') /\ r_good q = false).
Proof.
  intros M N Ne H. unfold assign_all in H. destruct (assign_rules E mark attrs 0 (s_rules s)) as (o & rules') eqn:A. injection H as -> <-.
  destruct (assign_rules_ok _ _ _ M N _ _ _ _ A) as (ls & -> & L1 & L2 & K). cbn [s_rules with_rules]. cbv zeta. do 2 (split; auto).
  assert (Own : forall i l, nth_error ls i = Some l -> Forall (eq i) l).
  { intros i l X. assert (Lt : (i < List.length (s_rules s))%nat) by (rewrite <- L2; apply nth_error_Some; congruence).
    destruct (nth_error (s_rules s) i) as [r|] eqn:R; [|apply nth_error_Some in Lt; congruence].
    destruct (K i r R) as (l1 & r1 & X1 & _ & X2). assert (l1 = l) as -> by congruence. apply (an_drop _ _ _ _ _ _ _ X2). }
  split.
  - intros i r R. destruct (K i r R) as (l & r' & X1 & X2 & X3). exists l, r'. split; auto. split; auto. intros Nl.
    apply in_map_iff. exists (i, r'). split; auto. apply numbers_in; auto. apply in_concat. exists l. split; [eapply nth_error_In; eauto|].
    assert (F := an_drop _ _ _ _ _ _ _ X3). destruct l as [|j l]; [congruence|]. inversion F; subst. left; auto.
  - intros q Q. apply in_map_iff in Q as ((j & q') & E0 & I). cbn in E0. subst q'.
    assert (Nq := numbers_from _ _ _ _ I). split; [eapply nth_error_In; eauto|].
    apply numbers_only in I. apply in_concat in I as (l & L & I). apply In_nth_error in L as (i & L).
    assert (i = j). { specialize (Own i l L). rewrite Forall_forall in Own. apply Own. auto. } subst i.
    assert (Lt : (j < List.length (s_rules s))%nat) by (rewrite <- L2; apply nth_error_Some; congruence).
    destruct (nth_error (s_rules s) j) as [r|] eqn:R; [|apply nth_error_Some in Lt; congruence].
    destruct (K j r R) as (l1 & r1 & X1 & X2 & X3). assert (l1 = l) as -> by congruence. assert (r1 = q) as -> by congruence.
    destruct (r_good q) eqn:G; auto. rewrite (an_good _ _ _ _ _ _ _ X3 G) in I. destruct I.
Qed.
