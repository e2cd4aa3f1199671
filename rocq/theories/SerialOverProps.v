(** Properties of load on a ruleset that is not empty. *)
From Coq Require Import List ZArith QArith Bool String Lia.
From Coq Require Import List.
From Verif Require Import Base Num CondModel CondWit ThrModel MetModel RuleModel RuleWit PredModel SetModel SetWit FitWit SerialModel SerialWit SerialOver.
Import ListNotations.
Open Scope string_scope.
Open Scope list_scope.
Open Scope Z_scope.

(** ** C200 *)

Theorem C200_stale_refuted : exists X G s w s' f r, load X G w s = (Ok tt, s') /\
  s_rules s' = [r] /\ getattr r "features_names" = Ok (OTexts ["x"]) /\ r_act r = None /\
  s_criterion s = number (Fin (1 # 2)) /\ s_criterion s' = s_criterion s /\
  s_idx s <> [] /\ s_idx s' = s_idx s /\
  s_stacked s = Some f /\ s_stacked s' = Some f /\ List.length (f_columns f) = 3%nat /\
  s_test s = integer 9 /\ getattr r "test_set_size" = Ok (integer 9).
Proof. exact load_leaves. Qed.
Print Assumptions C200_stale_refuted.

Theorem C200_activations : forall X G w t t', NoDup (w_columns w) -> load X G w t = (Ok tt, t') ->
  (forall r, In r (s_rules t') -> r_act r = None) /\
  (s_rules t' = [] -> s_act t' = Some (new_activation [])) /\ (s_rules t' <> [] -> s_act t' = None) /\
  (s_stack t = true -> s_rules t' = [] -> s_stacked t' = Some (mkFrame 0 [])) /\
  (s_stack t = true -> s_rules t' <> [] -> s_stacked t' = None) /\
  (s_stack t = false -> s_stacked t' = s_stacked t).
Proof. exact load_activations. Qed.
Print Assumptions C200_activations.

Example C200_activations_ex : exists s', load ink quiet terse stocked = (Ok tt, s') /\ s_act stocked <> None /\ s_act s' = None /\
  s_stacked s' = s_stacked stocked /\ forall r, In r (s_rules s') -> r_act r = None.
Proof.
  exists (snd (load ink quiet terse stocked)). assert (E : load ink quiet terse stocked = (Ok tt, snd (load ink quiet terse stocked))) by (vm_compute; reflexivity).
  split; [exact E|]. split; [vm_compute; discriminate|].
  destruct (C200_activations ink quiet terse stocked (snd (load ink quiet terse stocked))) as (A & _ & B & _ & _ & C).
  - repeat constructor; cbn; intuition discriminate.
  - exact E.
  - split; [apply B; vm_compute; discriminate|]. split; [apply C; reflexivity|exact A].
Qed.
