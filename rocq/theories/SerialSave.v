(** The table of a ruleset. *)
From Coq Require Import List ZArith QArith Bool String Ascii Lia Relations Permutation.
From Coq Require Import List.
From Verif Require Import Base Num CondModel CondSpec CondBase CondProofs CondMore ThrModel ThrProofs MetModel
  RuleModel RuleSpec RuleProofs RuleMisc PredModel SetModel SetSpec SetBase SerialModel SerialSpec SerialProofs.
Import ListNotations.
Open Scope string_scope.
Open Scope list_scope.
Open Scope Z_scope.

Lemma getattr_put_name v r : same_attributes ["_name"] r (put "_name" v r).
Proof.
  intros n N.
  assert (N2 : n <> "_name") by (intros ->; apply N; left; auto).
  assert (S1 : forall m, m <> "_name" -> slot m (put "_name" v r) = slot m r).
  { intros m M. apply slot_put_other. auto. }
  assert (Dl : forall m, delegated (put "_name" v r) m = delegated r m) by reflexivity.
  unfold getattr. change (r_kind (put "_name" v r)) with (r_kind r).
  destruct (dget n (properties (r_kind r))) as [f|] eqn:D.
  - assert (Ff : f (put "_name" v r) = f r).
    { apply dget_some in D.
      unfold properties in D. apply in_app_or in D. destruct D as [D|D].
      - destruct (r_kind r); cbn [In] in D; unfold RuleModel.reads in D;
          repeat (destruct D as [D|D]; [injection D as <- <-; rewrite S1; [reflexivity|discriminate]|]); contradiction.
      - cbn [In] in D. unfold RuleModel.reads in D.
        repeat (destruct D as [D|D]; [injection D as Dn Df; subst; first
          [reflexivity | congruence | rewrite S1; [reflexivity|discriminate]
          | unfold coverage; rewrite S1; [reflexivity|discriminate]
          | unfold prediction; rewrite S1; [reflexivity|discriminate]]|]). contradiction. }
    rewrite Ff. reflexivity.
  - assert (X : forall d c, dget n (dset "_name" v d ++ c) = dget n (d ++ c)).
    { intros d c. induction d as [|(k, w) t IH]; cbn [dset app dget].
      - rewrite str_neq by auto. auto.
      - destruct (str_eqb "_name" k) eqn:K; cbn [app dget].
        + apply seqb_spec in K. subst k. rewrite str_neq by auto. auto.
        + destruct (str_eqb n k); auto. }
    change (r_dict (put "_name" v r)) with (dset "_name" v (r_dict r)).
    rewrite X.
    change (fields (put "_name" v r)) with (fields r). reflexivity.
Qed.

Lemma renamed_put label r : renamed label r (put "_name" (text label) r).
Proof. split; [apply slot_put|]. split; [apply getattr_put_name|]. repeat split. Qed.

Lemma sign_attr r : getattr r "sign" = Err EAttr \/ exists v, getattr r "sign" = Ok v.
Proof.
  destruct (r_kind r) eqn:K.
  - unfold getattr. rewrite K. change (dget "sign" (properties KRule)) with (@None (rule -> res obj)). cbv iota.
    destruct (dget "sign" (r_dict r ++ _)); eauto.
    left. unfold delegated. destruct (r_act r), (r_cond r); reflexivity.
  - right. unfold getattr. rewrite K. eexists. reflexivity.
  - unfold getattr. rewrite K. change (dget "sign" (properties KClassification)) with (@None (rule -> res obj)). cbv iota.
    destruct (dget "sign" (r_dict r ++ _)); eauto.
    left. unfold delegated. destruct (r_act r), (r_cond r); reflexivity.
Qed.

Lemma index_names k : index k = conditions ++ statistics k.
Proof. destruct k; reflexivity. Qed.

Section Table.
Variable X : texts.

Lemma rule_label i r n k : describable k r n -> exists label, rule_name X i r = Ok label /\ label_of X i n r label.
Proof.
  intros ((c & l & RC & CN & LN) & _ & NM). unfold rule_name. destruct NM as [NM|(t & NM)]; rewrite NM.
  - cbn [none]. unfold hasattr, rule_len. rewrite RC. unfold clen. rewrite CN, LN. cbn [rbind].
    destruct (sign_attr r) as [S|(v & S)]; rewrite S; cbn [rbind]; eexists; (split; [reflexivity|]).
    + apply unsigned; auto.
    + match goal with |- label_of _ _ _ _ ?x => assert (T : x = ("R_" ++ decimal (Z.of_nat i) ++ "(" ++ decimal (Z.of_nat n) ++ ")" ++ x_str X v)%string) end.
      { assert (AS : forall a b d : string, ((a ++ b) ++ d)%string = (a ++ (b ++ d))%string).
        { induction a; cbn; intros; auto. f_equal. auto. }
        rewrite !AS. reflexivity. }
      rewrite T. apply signed; auto.
  - eexists. split; [reflexivity|]. apply own_name. auto.
Qed.

Lemma rule_row i r n k : describable k r n ->
  exists label cells, rule_to_series X i r (index k) = Ok (label, cells) /\ label_of X i n r label /\ row_of X k r cells.
Proof.
  intros D. destruct (rule_label i r n k D) as (label & RN & LO). destruct D as (_ & AT & _).
  assert (V : forall names, (forall a, In a names -> exists v, getattr r a = Ok v) -> exists vs, rseq (map (getattr r) names) = Ok vs /\
     Forall2 (fun a o => exists v, getattr r a = Ok v /\ o = text (x_str X v)) names (map (fun v => text (x_str X v)) vs)).
  { induction names as [|a names IH]; intros H; cbn [map rseq]; [exists []; split; [auto|constructor]|].
    destruct (H a (or_introl eq_refl)) as (v & G). rewrite G. cbn [rbind].
    destruct IH as (vs & E & F); [intros b I; apply H; right; auto|]. rewrite E. cbn [rbind]. exists (v :: vs).
    split; [auto|]. cbn [map]. constructor; eauto. }
  destruct (V _ AT) as (vs & E & F). exists label. eexists. unfold rule_to_series. rewrite RN, index_names, E. cbn [rbind].
  split; [reflexivity|]. split; auto.
Qed.

Lemma series_all k : forall rules i, (forall r, In r rules -> exists n, describable k r n) ->
  exists rows, rseq (map (fun p => rule_to_series X (fst p) (snd p) (index k)) (combine (seq i (List.length rules)) rules)) = Ok rows /\
    List.length rows = List.length rules /\
    forall j r, nth_error rules j = Some r -> exists n label cells, nth_error rows j = Some (label, cells) /\
      describable k r n /\ label_of X (i + j) n r label /\ row_of X k r cells.
Proof.
  induction rules as [|r rules IH]; intros i H; cbn [List.length seq combine map rseq].
  - exists []. split; auto. split; auto. intros [|j] r Q; discriminate Q.
  - destruct (H r (or_introl eq_refl)) as (n & D). destruct (rule_row i r n k D) as (label & cells & E & LO & RO).
    cbn [fst snd]. rewrite E. cbn [rbind]. destruct (IH (S i)) as (rows & ER & LR & F); [intros q I; apply H; right; auto|].
    rewrite ER. cbn [rbind]. eexists. split; [reflexivity|]. split; [cbn [List.length]; congruence|].
    intros [|j] q Q; cbn [nth_error] in Q.
    + injection Q as <-. exists n, label, cells. rewrite Nat.add_0_r. auto.
    + destruct (F j q Q) as (n' & la & ce & N & D' & L' & R'). exists n', la, ce.
      replace (i + S j)%nat with (S i + j)%nat by lia. auto.
Qed.

Lemma rename_all : forall labels rules, List.length labels = List.length rules ->
  exists rules', rename labels rules = Ok rules' /\ List.length rules' = List.length rules /\
    forall j r label, nth_error rules j = Some r -> nth_error labels j = Some label ->
      nth_error rules' j = Some (put "_name" (text label) r).
Proof.
  induction labels as [|n labels IH]; intros [|r rules] L; try discriminate L; cbn [rename].
  - exists []. split; auto. split; auto. intros [|j] r label Q; discriminate Q.
  - injection L as L. destruct (IH rules L) as (rules' & E & LR & F). rewrite E. cbn [rmap rbind]. eexists. split; [reflexivity|].
    split; [cbn [List.length]; congruence|]. intros [|j] q label Q N; cbn [nth_error] in *; [congruence|]. apply F; auto.
Qed.

Lemma coverage_ok s : exists v, ruleset_coverage s = Ok v.
Proof.
  unfold ruleset_coverage, set_available. destruct (s_act s) as [a|]; [|eauto].
  destruct (alen a =? 0) eqn:L; [eauto|]. destruct (v_here a); [|eauto]. unfold act_coverage. rewrite L. unfold rmap.
  destruct (v_coverage a); eauto.
Qed.

Lemma extra_row label v k : exists cells, extra label v (index k) = (label, cells) /\ value_row k v cells.
Proof.
  eexists. split; [reflexivity|]. rewrite index_names. destruct k; eexists; (split; [reflexivity|]); (split; [reflexivity|]);
    cbn [In]; intros c I; repeat (destruct I as [<-|I]; [reflexivity|]); destruct I.
Qed.

(** The rows of the rules, and the rules with their names *)
Definition rows_of (k : kind) (rules rules' : list rule) (rows : list (string * list obj)) : Prop :=
  List.length rows = List.length rules /\ List.length rules' = List.length rules /\
  forall j r, nth_error rules j = Some r ->
    exists n label cells r', nth_error rows j = Some (label, cells) /\ describable k r n /\ label_of X j n r label /\
      row_of X k r cells /\ nth_error rules' j = Some r' /\ r' = put "_name" (text label) r.

Lemma to_df_steps k attributes s : s_rules s <> [] -> s_type s = Some k ->
  (forall r, In r (s_rules s) -> exists n, describable k r n) ->
  exists coverage rows rules', ruleset_coverage s = Ok coverage /\ rows_of k (s_rules s) rules' rows /\
    to_df X None attributes s = (Ok (mkSheet (index k) (rows ++
      if attributes then [extra "ruleset coverage" coverage (index k); extra "ruleset criterion" (s_criterion s) (index k);
        extra "ruleset train set size" (s_train s) (index k); extra "ruleset test set size" (s_train s) (index k)] else [])),
      with_rules rules' s).
Proof.
  intros NE T D. destruct (coverage_ok s) as (v & CV). exists v.
  destruct (series_all k (s_rules s) 0 D) as (rows & E & LR & F).
  destruct (rename_all (map fst rows) (s_rules s)) as (rules' & RN & LN & FN); [rewrite map_length; auto|].
  exists rows, rules'. split; auto. split.
  { split; auto. split; auto. intros j r Q. destruct (F j r Q) as (n & label & cells & N & DE & LO & RO).
    exists n, label, cells. eexists. split; auto. split; auto. split; auto. split; auto. split; [|reflexivity].
    apply FN; auto. rewrite nth_error_map, N. reflexivity. }
  unfold to_df. destruct (s_rules s) as [|r0 rest] eqn:RS; [congruence|]. rewrite T. rewrite E. cbn [use]. rewrite RN. cbn [use].
  destruct attributes; cbn [negb]; [|rewrite app_nil_r; reflexivity].
  assert (CV' : ruleset_coverage (with_rules rules' s) = Ok v) by (rewrite <- CV; reflexivity).
  rewrite CV'. cbn [use]. reflexivity.
Qed.

End Table.

Lemma table X k attributes s : s_rules s <> [] -> s_type s = Some k ->
  (forall r, In r (s_rules s) -> exists n, describable k r n) ->
  exists coverage rows last s', to_df X None attributes s = (Ok (mkSheet (conditions ++ statistics k) (rows ++ last)), s') /\
    List.length rows = List.length (s_rules s) /\ List.length (s_rules s') = List.length (s_rules s) /\
    (forall j r, nth_error (s_rules s) j = Some r ->
       exists n label cells r', describable k r n /\ label_of X j n r label /\ row_of X k r cells /\
         nth_error rows j = Some (label, cells) /\ nth_error (s_rules s') j = Some r' /\ renamed label r r') /\
    same_but_rules s s' /\ ruleset_coverage s = Ok coverage /\
    (if attributes then last_rows k coverage (s_criterion s) (s_train s) (s_train s) last else last = []).
Proof.
  intros NE T D. destruct (to_df_steps X k attributes s NE T D) as (v & rows & rules' & CV & (L1 & L2 & F) & E).
  rewrite index_names in E. exists v, rows. eexists. eexists. split; [exact E|]. split; auto. split; [exact L2|]. split.
  { intros j r Q. destruct (F j r Q) as (n & label & cells & r' & N & DE & LO & RO & N' & ->).
    exists n, label, cells. eexists. split; eauto. split; auto. split; auto. split; auto. split; [exact N'|]. apply renamed_put. }
  split; [destruct s; repeat split|]. split; auto. destruct attributes; auto.
  destruct (extra_row "ruleset coverage" v k) as (c1 & E1 & V1).
  destruct (extra_row "ruleset criterion" (s_criterion s) k) as (c2 & E2 & V2).
  destruct (extra_row "ruleset train set size" (s_train s) k) as (c3 & E3 & V3).
  destruct (extra_row "ruleset test set size" (s_train s) k) as (c4 & E4 & V4).
  rewrite index_names in E1, E2, E3, E4. exists c1, c2, c3, c4. rewrite E1, E2, E3, E4. split; [reflexivity|]. auto.
Qed.
