(** Properties of eval at the edges. *)
From Coq Require Import List ZArith QArith Bool String Ascii Lia.
From Coq Require Import List.
From Verif Require Import Base Num CondModel CondSpec CondWit ThrModel ThrSpec ThrWit MetModel MetSpec MetWit RuleModel RuleSpec RuleMisc
  RuleWit PredModel PredSpec PredMisc PredWit SetModel SetSpec SetBase SetWit FitModel FitSpec FitWit FitEdge.
Import ListNotations.
Open Scope string_scope.
Open Scope list_scope.
Open Scope Z_scope.

(** ** C144 *)

Theorem C144_unactivated : forall G y keep_new w force kw s k r,
  g_stacked G = true -> s_type s = Some k -> k <> KRule -> k_method kw = false ->
  (forall r, In r (s_rules s) -> r_fitted r = true) -> s_stacked s = None -> In r (s_rules s) -> r_act r = None ->
  fst (set_eval G y None keep_new w force kw s) = Err EValue.
Proof. exact eval_unactivated. Qed.
Print Assumptions C144_unactivated.

Example C144_unactivated_ex : fst (set_eval joint target_prices None true None false options bare_stock) = Err EValue.
Proof.
  apply C144_unactivated with (k := KRegression) (r := nth_rule bare_stock 0); [reflexivity|vm_compute; reflexivity|discriminate|reflexivity| | | |].
  - exact bare_fitted.
  - reflexivity.
  - apply nth_In. vm_compute. lia.
  - vm_compute. reflexivity.
Qed.

Theorem C144_wrong_length : forall G y keep_new w force kw s k st l,
  g_stacked G = true -> s_type s = Some k -> k <> KRule -> k_method kw = false ->
  s_rules s <> [] -> (forall r, In r (s_rules s) -> r_fitted r = true) -> s_stacked s = Some st -> flat y = Ok l -> List.length l <> f_rows st ->
  fst (set_eval G y None keep_new w force kw s) = Err EIndex.
Proof. exact eval_wrong_length. Qed.
Print Assumptions C144_wrong_length.

Example C144_wrong_length_ex :
  fst (set_eval joint (YVector [LNum (numz 1)]) None true None false options (with_stacked (Some (mkFrame 4 [])) fitted_stock)) = Err EIndex.
Proof.
  apply C144_wrong_length with (k := KRegression) (st := mkFrame 4 []) (l := [LNum (numz 1)]); [reflexivity|vm_compute; reflexivity|discriminate|reflexivity| | | | |].
  - intros X. assert (Y : List.length (s_rules fitted_stock) = 3%nat) by (vm_compute; reflexivity).
    apply (f_equal (@List.length rule)) in X. rewrite stacked_rules, Y in X. discriminate X.
  - intros r I. rewrite stacked_rules in I. exact (shades_fitted r I).
  - reflexivity.
  - reflexivity.
  - discriminate.
Qed.

