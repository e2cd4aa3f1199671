(** load on a ruleset that is not empty: activations, and what stays. *)
From Coq Require Import List ZArith QArith Bool String Lia.
From Coq Require Import List.
From Verif Require Import Base Num CondModel CondWit ThrModel MetModel MetWit RuleModel RuleSpec RuleWit PredModel PredWit SetModel SetSpec SetBase SetWit FitWit
  SerialModel SerialSpec SerialProofs SerialSave SerialLoad SerialRow SerialWit.
Import ListNotations.
Open Scope string_scope.
Open Scope list_scope.
Open Scope Z_scope.

Lemma load_activations X G w t t' : NoDup (w_columns w) -> load X G w t = (Ok tt, t') ->
  (forall r, In r (s_rules t') -> r_act r = None) /\
  (s_rules t' = [] -> s_act t' = Some (new_activation [])) /\ (s_rules t' <> [] -> s_act t' = None) /\
  (s_stack t = true -> s_rules t' = [] -> s_stacked t' = Some (mkFrame 0 [])) /\
  (s_stack t = true -> s_rules t' <> [] -> s_stacked t' = None) /\
  (s_stack t = false -> s_stacked t' = s_stacked t).
Proof.
  intros ND E. destruct (loads _ _ _ _ _ ND E) as (l & _ & F & _).
  assert (N : forall r, In r (s_rules t') -> r_act r = None).
  { clear -F. induction F as [|row r l rules (A & _) F IH]; intros q I; [destruct I|]. destruct I as [<-|I]; [apply (rr_fresh _ _ _ _ A)|auto]. }
  split; [exact N|]. clear F l. unfold load in E. destruct (w_columns w) as [|c0 cols]; [discriminate E|].
  destruct (load_attributes X (w_rows w) t) as [o s1] eqn:LA. apply use_ok in E as (l & -> & E).
  destruct (attributes_loaded _ _ _ _ _ LA) as (v1 & v2 & v3 & v4 & _ & _ & _ & _ & _ & _ & _ & _ & _ & _ & SK & _ & ST & _).
  apply chain_ok in E as (s2 & LR & E). unfold load_rules in LR.
  apply use_ok in LR as (rules1 & S1 & LR). apply use_ok in LR as (rules2 & S2 & LR). injection LR as <-.
  unfold load_rest in E. apply chain_ok in E as (s3 & CS & E). apply chain_ok in E as (s4 & CK & E). apply use_ok in E as (names & NM & E).
  injection E as <-. unfold compute_self_activation in CS. apply use_ok in CS as (a & EA & CS). injection CS as <-.
  cbn [with_rules s_rules] in *.
  set (s2 := match rules2 with [] => _ | r :: _ => _ end) in *.
  assert (I2 : s_rules s2 = rules2 /\ s_stack s2 = s_stack t /\ s_stacked s2 = s_stacked t) by (unfold s2; destruct rules2; cbn; auto).
  clearbody s2. destruct I2 as (i1 & i2 & i3).
  assert (I4 : s_rules s4 = rules2 /\ s_act s4 = a).
  { destruct (s_stack (with_activation a s2)); [|injection CK as <-; auto]. unfold compute_stacked_activation in CK.
    apply use_ok in CK as (fr & _ & CK). injection CK as <-. auto. }
  destruct I4 as (j1 & j2). cbn [with_names s_rules s_act s_stacked] in *. rewrite j1 in *. rewrite j2.
  assert (AV : rules2 <> [] -> forallb activation_available rules2 = false).
  { destruct rules2 as [|r q]; intros H; [congruence|]. cbn. unfold activation_available at 1. rewrite (N r (or_introl eq_refl)). auto. }
  unfold evaluate_self_activation in EA. rewrite i1 in EA.
  split; [intros H; rewrite H in EA; injection EA as <-; auto|].
  split; [intros H; specialize (AV H); destruct rules2; [congruence|rewrite AV in EA; injection EA as <-; auto]|].
  cbn [s_stack with_activation] in CK. rewrite i2 in CK.
  unfold compute_stacked_activation, evaluate_stacked_activations in CK. cbn [s_rules with_activation] in CK. rewrite i1 in CK.
  split; [intros H H0; rewrite H, H0 in CK; injection CK as <-; auto|].
  split; [intros H H0; specialize (AV H0); rewrite H in CK; destruct rules2; [congruence|]; unfold stack in CK; rewrite AV in CK; injection CK as <-; auto|].
  intros H. rewrite H in CK. injection CK as <-. auto.
Qed.

(** [s = RuleSet([r0, r1, r2]); s.compute_stacked_activation(); s.load(...)] *)
Definition stocked : ruleset := with_test (integer 9) (with_criterion (number (Fin (1 # 2))) (snd (compute_stacked_activation quiet None trio))).

Lemma load_leaves : exists X G s w s' f r, load X G w s = (Ok tt, s') /\
  s_rules s' = [r] /\ getattr r "features_names" = Ok (OTexts ["x"]) /\ r_act r = None /\
  s_criterion s = number (Fin (1 # 2)) /\ s_criterion s' = s_criterion s /\
  s_idx s <> [] /\ s_idx s' = s_idx s /\
  s_stacked s = Some f /\ s_stacked s' = Some f /\ List.length (f_columns f) = 3%nat /\
  s_test s = integer 9 /\ getattr r "test_set_size" = Ok (integer 9).
Proof.
  exists ink, quiet, stocked, terse, (snd (load ink quiet terse stocked)), (match s_stacked stocked with Some f => f | None => mkFrame 0 [] end),
    (hd (voter KRule "x" none []) (s_rules (snd (load ink quiet terse stocked)))).
  split; [vm_compute; reflexivity|]. split; [vm_compute; reflexivity|]. split; [vm_compute; reflexivity|]. split; [vm_compute; reflexivity|].
  split; [vm_compute; reflexivity|]. split; [vm_compute; reflexivity|]. split; [vm_compute; discriminate|]. split; [vm_compute; reflexivity|].
  split; [vm_compute; reflexivity|]. split; [vm_compute; reflexivity|]. split; [vm_compute; reflexivity|]. split; vm_compute; reflexivity.
Qed.
