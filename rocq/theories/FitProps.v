(** fit and eval of rulesets. *)
From Coq Require Import List ZArith QArith Bool String Ascii Permutation Lia.
From Coq Require Import List.
From Verif Require Import Base Num CondModel CondSpec CondMore CondWit ThrModel ThrSpec ThrWit MetModel MetSpec RuleModel RuleSpec RuleWit
  PredModel PredSpec PredReg PredWit SetModel SetSpec SetBase SetWit FitModel FitSpec FitMain FitEval FitVal FitTest FitTotal FitWit.
Import ListNotations.
Open Scope string_scope.
Open Scope list_scope.
Open Scope Z_scope.

(** ** C44 *)

Theorem C44_fit_drops : forall G y series xs force kw s dropped s',
  unordered (g_hash G) -> collision_free (g_hash G) -> g_stacked G = false -> fits_something s xs kw ->
  (forall r, In r (s_rules s) -> regular r) -> all_different (s_rules s) ->
  set_fit G y series xs force kw s = (Ok dropped, s') ->
  exists fitted, Forall2 (fun r r' => RuleModel.fit (g_env G) y xs force kw r = (Ok tt, r')) (s_rules s) fitted /\
    chosen is_bad fitted dropped /\ chosen is_good fitted (s_rules s').
Proof. exact fit_drops. Qed.
Print Assumptions C44_fit_drops.

Example C44_fit_drops_ex : exists fitted, List.length fitted = 3%nat /\ chosen is_bad fitted (dropped_of fit_one) /\
  chosen is_good fitted (s_rules (snd fit_one)) /\ List.length (dropped_of fit_one) = 1%nat.
Proof.
  destruct (C44_fit_drops single target_prices false (Some market) false options (stock KRegression) (dropped_of fit_one) (snd fit_one))
    as (fitted & A & B & C); [apply binary_unordered|apply binary_collision_free|reflexivity|apply stock_fits; auto|apply stock_regular|
    apply three_different, stock_features|exact fit_one_runs|].
  exists fitted. split; [apply FitStack.fa2_length in A; rewrite stock_rules in A; auto|]. split; [exact B|]. split; [exact C|]. vm_compute. reflexivity.
Qed.

Theorem C44_eval_drops : forall G y xs keep_new w force kw s dropped s',
  unordered (g_hash G) -> collision_free (g_hash G) -> g_stacked G = false -> g_shared G = false -> evaluates_something s xs kw ->
  (forall r, In r (s_rules s) -> regular r) -> all_different (s_rules s) ->
  set_eval G y xs keep_new w force kw s = (Ok dropped, s') ->
  exists evaluated new, (new = true <-> replaces keep_new s) /\
    Forall2 (fun r r' => RuleModel.eval (g_env G) y xs new force kw r = (Ok tt, r')) (s_rules s) evaluated /\
    chosen is_bad evaluated dropped /\ chosen is_good evaluated (s_rules s').
Proof. exact eval_drops. Qed.
Print Assumptions C44_eval_drops.

Example C44_eval_drops_ex : exists evaluated, chosen is_bad evaluated (dropped_of eval_one) /\
  chosen is_good evaluated (s_rules (snd eval_one)) /\ List.length (dropped_of eval_one) = 1%nat /\ List.length (s_rules (snd eval_one)) = 2%nat.
Proof.
  destruct (C44_eval_drops single target_prices (Some market) true None false options fitted_stock (dropped_of eval_one) (snd eval_one))
    as (evaluated & new & _ & A & B & C); [apply binary_unordered|apply binary_collision_free|reflexivity|reflexivity|apply fitted_evaluates|apply fitted_regular|
    apply three_different, fitted_features|exact eval_one_runs|].
  exists evaluated. split; [exact B|]. split; [exact C|]. split; vm_compute; reflexivity.
Qed.

Theorem C44_fit_succeeds : forall G y series xs force kw s fitted k n z,
  unordered (g_hash G) -> collision_free (g_hash G) -> g_stacked G = false -> fits_something s xs kw ->
  (forall r, In r (s_rules s) -> regular r /\ usable r /\ r_kind r = k) -> s_type s = Some k -> s_stack s = false -> s_compute s = true ->
  Forall2 (fun r r' => RuleModel.fit (g_env G) y xs force kw r = (Ok tt, r')) (s_rules s) fitted ->
  (forall r, In r fitted -> exists v, working r None v /\ List.length v = n) -> target_len y = Ok z ->
  exists dropped s', set_fit G y series xs force kw s = (Ok dropped, s').
Proof. exact fit_total. Qed.
Print Assumptions C44_fit_succeeds.

Example C44_fit_succeeds_ex : exists dropped s', set_fit single target_prices false (Some market) false options (stock KRegression) = (Ok dropped, s').
Proof.
  apply (C44_fit_succeeds single target_prices false (Some market) false options (stock KRegression)
    (map (fun r => snd (RuleModel.fit capped target_prices (Some market) false options r)) (s_rules (stock KRegression))) KRegression 4 4);
    [apply binary_unordered|apply binary_collision_free|reflexivity|apply stock_fits; auto| |vm_compute; reflexivity|vm_compute; reflexivity|vm_compute; reflexivity| | |reflexivity].
  - rewrite stock_rules. intros r [<-|[<-|[<-|[]]]]; (split; [apply on_regular; lia|]; split; [eexists _, _, _; split; [reflexivity|]; split; reflexivity|reflexivity]).
  - rewrite stock_rules. cbn [map]. repeat (apply Forall2_cons; [vm_compute; reflexivity|]). apply Forall2_nil.
  - rewrite stock_rules. cbn [map]. intros r [<-|[<-|[<-|[]]]]; (eexists; split; [eexists; split; [vm_compute; reflexivity|split; reflexivity]|reflexivity]).
Qed.

Theorem C44_fit_raises : forall G y series xs force kw s r l r' m e,
  g_stacked G = false -> fits_something s xs kw -> s_rules s = l ++ r :: m ->
  (forall q, In q l -> exists q', RuleModel.fit (g_env G) y xs force kw q = (Ok tt, q')) ->
  RuleModel.fit (g_env G) y xs force kw r = (Err e, r') ->
  fst (set_fit G y series xs force kw s) = Err e.
Proof. exact fit_fails. Qed.
Print Assumptions C44_fit_raises.

Example C44_fit_raises_ex : fst (set_fit single target_prices false (Some thin) false options (stock KRegression)) = Err EIndex.
Proof.
  apply (C44_fit_raises single target_prices false (Some thin) false options (stock KRegression) (on KRegression "y" 1) [on KRegression "x" 0]
    (snd (RuleModel.fit capped target_prices (Some thin) false options (on KRegression "y" 1))) [on KRegression "z" 2]).
  - reflexivity.
  - split; [split; [left; vm_compute; reflexivity|reflexivity]|]. split; [vm_compute; discriminate|]. split; discriminate.
  - apply stock_rules.
  - intros q [<-|[]]. eexists. vm_compute. reflexivity.
  - vm_compute. reflexivity.
Qed.

(** ** C122 *)

Theorem C122_regression : forall G y ys series xs force kw s n columns dropped s',
  unordered (g_hash G) -> collision_free (g_hash G) -> g_stacked G = true -> fits_something s xs kw -> s_type s = Some KRegression ->
  (forall r, In r (s_rules s) -> r_kind r = KRegression /\ regular r) -> ready (g_env G) xs s n columns -> is_target y (map LNum ys) ->
  set_fit G y series xs force kw s = (Ok dropped, s') ->
  n = List.length ys /\ exists fitted,
    Forall2 (fitted_together (g_env G) xs ["train_set_size"; "prediction"; "std"; "sign"; "zscore"]
               (fun act a o => stacked_value (g_env G) act ys (k_horizon kw) a o) dropped) (s_rules s) fitted /\
    (forall q, In q dropped -> In q fitted /\ is_bad q) /\
    chosen (fun r => forall q, In q dropped -> ~ same_rule q r) fitted (s_rules s').
Proof. exact fit_together_regression. Qed.
Print Assumptions C122_regression.

Example C122_regression_ex : exists fitted, Forall2 (fitted_together capped (Some market) ["train_set_size"; "prediction"; "std"; "sign"; "zscore"]
    (fun act a o => stacked_value capped act prices 3 a o) (dropped_of fit_all)) (s_rules (stock KRegression)) fitted /\
  map (fun r => getattr r "prediction") (s_rules (snd fit_all)) = [Ok (number (Fin (9 # 3))); Ok (number (Fin (8 # 2)))].
Proof.
  destruct (C122_regression joint target_prices prices false (Some market) false options (stock KRegression) 4 market_columns (dropped_of fit_all) (snd fit_all))
    as (_ & fitted & A & _); [apply binary_unordered|apply binary_collision_free|reflexivity|apply stock_fits; auto|vm_compute; reflexivity|
    apply kinds_by; [vm_compute; reflexivity|apply stock_features]|apply market_ready; [reflexivity|apply stock_features]|left; reflexivity|exact fit_all_runs|].
  exists fitted. split; [exact A|]. vm_compute. reflexivity.
Qed.

Theorem C122_classification : forall G y ys series xs force kw s n columns dropped s',
  unordered (g_hash G) -> collision_free (g_hash G) -> g_stacked G = true -> fits_something s xs kw -> s_type s = Some KClassification ->
  (forall r, In r (s_rules s) -> r_kind r = KClassification /\ regular r) -> ready (g_env G) xs s n columns -> is_target y ys ->
  clear_classes ys columns -> set_fit G y series xs force kw s = (Ok dropped, s') ->
  n = List.length ys /\ exists fitted,
    Forall2 (fitted_together (g_env G) xs ["train_set_size"; "prediction"] (fun act a o => stacked_class act ys a o) dropped) (s_rules s) fitted /\
    (forall q, In q dropped -> In q fitted /\ is_bad q) /\
    chosen (fun r => forall q, In q dropped -> ~ same_rule q r) fitted (s_rules s').
Proof. exact fit_together_classification. Qed.
Print Assumptions C122_classification.

Example C122_classification_ex : exists fitted, Forall2 (fitted_together capped (Some market) ["train_set_size"; "prediction"]
    (fun act a o => stacked_class act shades a o) (dropped_of fit_shades)) (s_rules (stock KClassification)) fitted /\
  map (fun r => getattr r "prediction") (s_rules (snd fit_shades)) = [Ok (text "red"); Ok (text "red"); Ok (text "blue")].
Proof.
  destruct (C122_classification joint (YVector shades) shades false (Some market) false plain_options (stock KClassification) 4 market_columns (dropped_of fit_shades) (snd fit_shades))
    as (_ & fitted & A & _); [apply binary_unordered|apply binary_collision_free|reflexivity|apply stock_fits; auto|vm_compute; reflexivity|
    apply kinds_by; [vm_compute; reflexivity|apply stock_features]|apply market_ready; [reflexivity|apply stock_features]|left; reflexivity|apply shades_clear|exact fit_shades_runs|].
  exists fitted. split; [exact A|]. vm_compute. reflexivity.
Qed.

(** ** C123 *)

Theorem C123_regression : forall G y ys xs keep_new w force kw s n columns dropped s',
  unordered (g_hash G) -> collision_free (g_hash G) -> g_stacked G = true -> g_shared G = false -> evaluates_something s xs kw ->
  s_type s = Some KRegression -> (forall r, In r (s_rules s) -> r_kind r = KRegression /\ regular r) ->
  ready (g_env G) xs s n columns -> is_target y (map LNum ys) ->
  set_eval G y xs keep_new w force kw s = (Ok dropped, s') ->
  n = List.length ys /\ exists evaluated,
    Forall2 (evaluated_together (g_env G) xs (replaces keep_new s) (regression_error ys (k_criterion kw)) dropped) (s_rules s) evaluated /\
    (forall q, In q dropped -> In q evaluated /\ is_bad q) /\
    chosen (fun r => forall q, In q dropped -> ~ same_rule q r) evaluated (s_rules s').
Proof. exact eval_together_regression. Qed.
Print Assumptions C123_regression.

Example C123_regression_ex : exists evaluated, Forall2 (evaluated_together capped (Some market) (replaces true fitted_stock)
    (regression_error prices (Some "mse")) (dropped_of eval_all)) (s_rules fitted_stock) evaluated /\
  map (fun r => getattr r "criterion") (s_rules (snd eval_all)) = [Ok (number (Fin (5832 # 2187))); Ok (number (Fin (128 # 32))); Ok (number (Fin (32 # 32)))].
Proof.
  destruct (C123_regression joint target_prices prices (Some market) true None false options fitted_stock 4 market_columns (dropped_of eval_all) (snd eval_all))
    as (_ & evaluated & A & _); [apply binary_unordered|apply binary_collision_free|reflexivity|reflexivity|apply fitted_evaluates|vm_compute; reflexivity|
    apply kinds_by; [vm_compute; reflexivity|apply fitted_features]|apply market_ready; [reflexivity|apply fitted_features]|left; reflexivity|exact eval_all_runs|].
  exists evaluated. split; [exact A|]. vm_compute. reflexivity.
Qed.

Theorem C123_classification : forall G y ys xs keep_new w force kw s n columns dropped s',
  unordered (g_hash G) -> collision_free (g_hash G) -> g_stacked G = true -> g_shared G = false -> evaluates_something s xs kw ->
  s_type s = Some KClassification -> (forall r, In r (s_rules s) -> r_kind r = KClassification /\ regular r) ->
  ready (g_env G) xs s n columns -> is_target y ys ->
  set_eval G y xs keep_new w force kw s = (Ok dropped, s') ->
  n = List.length ys /\ exists evaluated,
    Forall2 (evaluated_together (g_env G) xs (replaces keep_new s) (success ys) dropped) (s_rules s) evaluated /\
    (forall q, In q dropped -> In q evaluated /\ is_bad q) /\
    chosen (fun r => forall q, In q dropped -> ~ same_rule q r) evaluated (s_rules s').
Proof. exact eval_together_classification. Qed.
Print Assumptions C123_classification.

Example C123_classification_ex : exists evaluated, Forall2 (evaluated_together capped (Some market) (replaces false fitted_shades)
    (success shades) (dropped_of eval_shades)) (s_rules fitted_shades) evaluated /\
  map (fun r => getattr r "criterion") (s_rules (snd eval_shades)) = [Ok (number (Fin (2 # 3))); Ok (number (Fin (2 # 2))); Ok (number (Fin (1 # 2)))].
Proof.
  destruct (C123_classification joint (YVector shades) shades (Some market) false None false plain_options fitted_shades 4 market_columns (dropped_of eval_shades) (snd eval_shades))
    as (_ & evaluated & A & _); [apply binary_unordered|apply binary_collision_free|reflexivity|reflexivity|apply shades_evaluates|vm_compute; reflexivity|
    apply kinds_by; [vm_compute; reflexivity|apply shades_features]|apply market_ready; [reflexivity|apply shades_features]|left; reflexivity|exact eval_shades_runs|].
  exists evaluated. split; [exact A|]. vm_compute. reflexivity.
Qed.

(** ** C124 *)

Theorem C124_fit : forall G y ys series xs force kw s dropped s',
  unordered (g_hash G) -> collision_free (g_hash G) -> g_stacked G = false -> fits_something s xs kw ->
  (forall r, In r (s_rules s) -> regular r) -> is_target y ys ->
  set_fit G y series xs force kw s = (Ok dropped, s') ->
  s_train s' = integer (Z.of_nat (List.length ys)) /\ s_test s' = s_test s /\ s_criterion s' = s_criterion s /\
  s_type s' = s_type s /\ s_stack s' = s_stack s /\ s_coverage s' = s_coverage s /\
  (forall f, In f (s_names s) -> In f (s_names s')) /\
  (dropped = [] -> s_names s' = s_names s /\ s_idx s' = s_idx s) /\
  (in_step s \/ xs <> None \/ dropped <> [] -> in_step s').
Proof. exact fit_rest. Qed.
Print Assumptions C124_fit.

Example C124_fit_ex : s_train (snd fit_one) = integer 4 /\ in_step (snd fit_one) /\ set_vector (snd fit_one) = Ok (Some [1; 0; 1; 1]).
Proof.
  destruct (C124_fit single target_prices (map LNum prices) false (Some market) false options (stock KRegression) (dropped_of fit_one) (snd fit_one))
    as (A & _ & _ & _ & _ & _ & _ & _ & B); [apply binary_unordered|apply binary_collision_free|reflexivity|apply stock_fits; auto|apply stock_regular|
    left; reflexivity|exact fit_one_runs|].
  split; [exact A|]. split; [apply B; right; left; discriminate|vm_compute; reflexivity].
Qed.

Theorem C124_fit_together : forall G y ys series xs force kw s n columns dropped s',
  unordered (g_hash G) -> collision_free (g_hash G) -> g_stacked G = true -> fits_something s xs kw ->
  (s_type s = Some KRegression /\ (exists zs, ys = map LNum zs) \/ s_type s = Some KClassification /\ clear_classes ys columns) ->
  (forall r, In r (s_rules s) -> s_type s = Some (r_kind r) /\ regular r) -> ready (g_env G) xs s n columns -> is_target y ys ->
  set_fit G y series xs force kw s = (Ok dropped, s') ->
  s_train s' = integer (Z.of_nat n) /\ s_test s' = s_test s /\ s_criterion s' = s_criterion s /\
  s_type s' = s_type s /\ s_stack s' = s_stack s /\ s_coverage s' = s_coverage s /\
  (forall f, In f (s_names s) -> In f (s_names s')) /\
  (dropped = [] -> s_names s' = s_names s /\ s_idx s' = s_idx s) /\
  (dropped = [] -> s_stack s = true -> s_stacked s' = Some (mkFrame n columns)) /\
  (s_stack s = false -> xs <> None \/ s_stacked s = None \/ dropped <> [] -> s_stacked s' = None) /\
  (in_step s \/ xs <> None \/ dropped <> [] -> in_step s').
Proof. exact fit_together_rest. Qed.
Print Assumptions C124_fit_together.

Example C124_fit_together_ex : s_train (snd fit_all) = integer 4 /\ in_step (snd fit_all) /\ set_vector (snd fit_all) = Ok (Some [1; 0; 1; 1]).
Proof.
  destruct (C124_fit_together joint target_prices (map LNum prices) false (Some market) false options (stock KRegression) 4 market_columns (dropped_of fit_all) (snd fit_all))
    as (A & _ & _ & _ & _ & _ & _ & _ & _ & _ & B); [apply binary_unordered|apply binary_collision_free|reflexivity|apply stock_fits; auto|
    left; split; [vm_compute; reflexivity|eexists; reflexivity]| |apply market_ready; [reflexivity|apply stock_features]|left; reflexivity|exact fit_all_runs|].
  - intros r R. destruct (kinds_by KRegression (s_rules (stock KRegression)) ltac:(vm_compute; reflexivity) (stock_features KRegression) r R) as (-> & X).
    split; [vm_compute; reflexivity|exact X].
  - split; [exact A|]. split; [apply B; right; left; discriminate|vm_compute; reflexivity].
Qed.

Theorem C124_eval : forall G y ys xs keep_new w force kw s dropped s',
  unordered (g_hash G) -> collision_free (g_hash G) -> g_stacked G = false -> g_shared G = false -> evaluates_something s xs kw ->
  (forall r, In r (s_rules s) -> regular r) -> is_target y ys ->
  set_eval G y xs keep_new w force kw s = (Ok dropped, s') ->
  s_test s' = integer (Z.of_nat (List.length ys)) /\ s_train s' = s_train s /\
  s_type s' = s_type s /\ s_stack s' = s_stack s /\ s_coverage s' = s_coverage s /\
  (forall f, In f (s_names s) -> In f (s_names s')) /\
  (dropped = [] -> s_names s' = s_names s /\ s_idx s' = s_idx s) /\
  ((xs <> None /\ replaces keep_new s) \/ (dropped = [] /\ in_step s) -> in_step s').
Proof. exact eval_rest. Qed.
Print Assumptions C124_eval.

Example C124_eval_ex : s_test (snd eval_one) = integer 4 /\ in_step (snd eval_one) /\ set_vector (snd eval_one) = Ok (Some [1; 0; 1; 1]).
Proof.
  destruct (C124_eval single target_prices (map LNum prices) (Some market) true None false options fitted_stock (dropped_of eval_one) (snd eval_one))
    as (A & _ & _ & _ & _ & _ & _ & B); [apply binary_unordered|apply binary_collision_free|reflexivity|reflexivity|apply fitted_evaluates|apply fitted_regular|
    left; reflexivity|exact eval_one_runs|].
  split; [exact A|]. split; [apply B; left; split; [discriminate|left; reflexivity]|vm_compute; reflexivity].
Qed.

Theorem C124_eval_together : forall G y ys xs keep_new w force kw s n columns k dropped s',
  unordered (g_hash G) -> collision_free (g_hash G) -> g_stacked G = true -> g_shared G = false -> evaluates_something s xs kw ->
  s_type s = Some k -> (forall r, In r (s_rules s) -> r_kind r = k /\ regular r) ->
  ready (g_env G) xs s n columns -> is_target y ys -> (k = KRegression -> exists zs, ys = map LNum zs) ->
  set_eval G y xs keep_new w force kw s = (Ok dropped, s') ->
  s_test s' = integer (Z.of_nat (List.length ys)) /\ s_train s' = s_train s /\
  s_type s' = s_type s /\ s_stack s' = s_stack s /\ s_coverage s' = s_coverage s /\
  (forall f, In f (s_names s) -> In f (s_names s')) /\
  (dropped = [] -> s_names s' = s_names s /\ s_idx s' = s_idx s) /\
  ((xs <> None /\ replaces keep_new s) \/ (dropped = [] /\ in_step s) -> in_step s').
Proof. exact eval_together_rest. Qed.
Print Assumptions C124_eval_together.

Example C124_eval_together_ex : s_test (snd eval_all) = integer 4 /\ in_step (snd eval_all) /\ set_vector (snd eval_all) = Ok (Some [1; 1; 1; 1]).
Proof.
  destruct (C124_eval_together joint target_prices (map LNum prices) (Some market) true None false options fitted_stock 4 market_columns KRegression (dropped_of eval_all) (snd eval_all))
    as (A & _ & _ & _ & _ & _ & _ & B); [apply binary_unordered|apply binary_collision_free|reflexivity|reflexivity|apply fitted_evaluates|vm_compute; reflexivity|
    apply kinds_by; [vm_compute; reflexivity|apply fitted_features]|apply market_ready; [reflexivity|apply fitted_features]|left; reflexivity|
    intros _; eexists; reflexivity|exact eval_all_runs|].
  split; [exact A|]. split; [apply B; left; split; [discriminate|left; reflexivity]|vm_compute; reflexivity].
Qed.

(** ** C125 *)

Theorem C125_regression : forall G y ys xs keep_new w force kw s dropped s',
  g_shared G = false -> evaluates_something s xs kw -> s_type s' = Some KRegression -> s_rules s' <> [] -> is_target y (map LNum ys) ->
  set_eval G y xs keep_new w force kw s = (Ok dropped, s') ->
  exists on, (replaces keep_new s -> on = None) /\ (~ replaces keep_new s -> on = xs) /\
    ((exists p, fst (set_predict G on w s') = Ok p /\ (p = Empty \/ p = Numbers [] \/ p = Outcomes []) /\ s_criterion s' = nan) \/
     (exists l m, fst (set_predict G on w s') = Ok (Numbers l) /\ l <> [] /\
        calc_regression_criterion (VSeries l) ys (k_criterion kw) = Ok (MNum m) /\ s_criterion s' = number m)).
Proof. exact eval_criterion_regression. Qed.
Print Assumptions C125_regression.

Example C125_regression_ex : exists l m, fst (set_predict single None None (snd eval_one)) = Ok (Numbers l) /\
  calc_regression_criterion (VSeries l) prices (Some "mse") = Ok (MNum m) /\ s_criterion (snd eval_one) = number m /\ m = Fin (4852224 # 2239488).
Proof.
  destruct (C125_regression single target_prices prices (Some market) true None false options fitted_stock (dropped_of eval_one) (snd eval_one))
    as (on & A & _ & B); [reflexivity|apply fitted_evaluates|vm_compute; reflexivity|vm_compute; discriminate|left; reflexivity|exact eval_one_runs|].
  rewrite (A (or_introl eq_refl)) in B. clear A.
  assert (X : s_criterion (snd eval_one) = number (Fin (4852224 # 2239488))) by (vm_compute; reflexivity).
  destruct B as [(p & _ & _ & B)|(l & m & A & _ & B & C)].
  - rewrite X in B. discriminate B.
  - exists l, m. split; [exact A|]. split; [exact B|]. split; [exact C|]. rewrite X in C. injection C as <-. reflexivity.
Qed.

Theorem C125_classification : forall G y xs keep_new w force kw s dropped s',
  g_shared G = false -> evaluates_something s xs kw -> s_type s' = Some KClassification -> s_rules s' <> [] ->
  set_eval G y xs keep_new w force kw s = (Ok dropped, s') ->
  exists on, (replaces keep_new s -> on = None) /\ (~ replaces keep_new s -> on = xs) /\
    ((exists p, fst (set_predict G on w s') = Ok p /\ (p = Empty \/ p = Numbers [] \/ p = Outcomes []) /\ s_criterion s' = nan) \/
     (exists l v, fst (set_predict G on w s') = Ok (Outcomes (map Class l)) /\ l <> [] /\
        match on with
        | None => set_vector s' = Ok (Some v)
        | Some t => (forall r v, In r (s_rules s') -> working r (Some t) v -> bits v) -> covers_on t (s_rules s') v
        end /\
        ((exists m, calc_classification_criterion (ActArray v) (List.length v) (QSeries l) y (k_criterion kw) = Ok (RNum m) /\ s_criterion s' = number m) \/
         (calc_classification_criterion (ActArray v) (List.length v) (QSeries l) y (k_criterion kw) = Ok REmpty /\ s_criterion s' = other)))).
Proof. exact eval_criterion_classification. Qed.
Print Assumptions C125_classification.

Example C125_classification_ex : exists l v m, fst (set_predict joint (Some market) None (snd eval_shades)) = Ok (Outcomes (map Class l)) /\
  calc_classification_criterion (ActArray v) (List.length v) (QSeries l) (YVector shades) None = Ok (RNum m) /\ s_criterion (snd eval_shades) = number m.
Proof.
  destruct (C125_classification joint (YVector shades) (Some market) false None false plain_options fitted_shades (dropped_of eval_shades) (snd eval_shades))
    as (on & _ & A & B); [reflexivity|apply shades_evaluates|vm_compute; reflexivity|vm_compute; discriminate|exact eval_shades_runs|].
  rewrite A in B; [|intros [K|(r & I & K)]; [discriminate|]].
  - clear A. assert (X : s_criterion (snd eval_shades) = number (Fin (3 # 3))) by (vm_compute; reflexivity).
    destruct B as [(p & _ & _ & B)|(l & v & A & _ & _ & [(m & B & C)|(_ & B)])].
    + rewrite X in B. discriminate B.
    + exists l, v, m. split; [exact A|]. split; [exact B|exact C].
    + rewrite X in B. discriminate B.
  - assert (X : forallb r_fitted (s_rules fitted_shades) = true) by (vm_compute; reflexivity). rewrite forallb_forall in X. rewrite (X r I) in K. discriminate K.
Qed.

Theorem C125_no_rule : forall G y xs keep_new w force kw s dropped s',
  unordered (g_hash G) -> collision_free (g_hash G) -> g_stacked G = false -> g_shared G = false -> evaluates_something s xs kw ->
  (forall r, In r (s_rules s) -> regular r) ->
  set_eval G y xs keep_new w force kw s = (Ok dropped, s') -> s_rules s' = [] -> s_criterion s' = s_criterion s.
Proof. exact eval_no_rule. Qed.
Print Assumptions C125_no_rule.

Example C125_no_rule_ex : s_criterion (snd (set_eval forbidding target_prices (Some market) false None false options evaluated_stock)) = s_criterion evaluated_stock /\
  s_rules (snd (set_eval forbidding target_prices (Some market) false None false options evaluated_stock)) = [].
Proof.
  assert (N : s_rules (snd (set_eval forbidding target_prices (Some market) false None false options evaluated_stock)) = []) by (vm_compute; reflexivity).
  split; [|exact N]. apply (C125_no_rule forbidding target_prices (Some market) false None false options evaluated_stock
    (dropped_of (set_eval forbidding target_prices (Some market) false None false options evaluated_stock)));
    [apply binary_unordered|apply binary_collision_free|reflexivity|reflexivity| | |vm_compute; reflexivity|exact N].
  - clear N. split; [split; [left; vm_compute; reflexivity|reflexivity]|]. split; [vm_compute; discriminate|]. split; discriminate.
  - apply (features_regular three_features); [apply three_indexes|apply features_by; vm_compute; reflexivity].
Qed.

(** ** C126 *)

Theorem C126_fit : forall G y series xs force kw s,
  (s_type s = None -> set_fit G y series xs force kw s = (Err EValue, s)) /\
  (s_type s = Some KRule -> set_fit G y series xs force kw s = (Err EType, s)) /\
  (s_type s <> None -> s_type s <> Some KRule -> k_method kw = true -> set_fit G y series xs force kw s = (Err EIndex, s)) /\
  (learner s kw -> (exists t, xs = Some t /\ nrows t = 0%nat) \/ s_rules s = [] \/
     (xs = None /\ forall r, In r (s_rules s) -> r_fitted r = true) -> set_fit G y series xs force kw s = (Ok [], s)).
Proof. exact fit_nothing. Qed.
Print Assumptions C126_fit.

Example C126_fit_ex : set_fit single target_prices false None false options fitted_stock = (Ok [], fitted_stock) /\
  set_fit single target_prices false (Some market) false options (empty_set false) = (Err EValue, empty_set false).
Proof.
  split.
  - destruct (C126_fit single target_prices false None false options fitted_stock) as (_ & _ & _ & X). apply X.
    + split; [left; vm_compute; reflexivity|reflexivity].
    + right. right. split; [reflexivity|]. assert (K : forallb r_fitted (s_rules fitted_stock) = true) by (vm_compute; reflexivity). rewrite forallb_forall in K. exact K.
  - apply C126_fit. reflexivity.
Qed.

Theorem C126_eval : forall G y xs keep_new w force kw s,
  (s_type s = None -> set_eval G y xs keep_new w force kw s = (Err EValue, s)) /\
  (s_type s = Some KRule -> set_eval G y xs keep_new w force kw s = (Err EType, s)) /\
  (s_type s <> None -> s_type s <> Some KRule -> k_method kw = true -> set_eval G y xs keep_new w force kw s = (Err EIndex, s)) /\
  (learner s kw -> (exists t, xs = Some t /\ nrows t = 0%nat) \/ s_rules s = [] -> set_eval G y xs keep_new w force kw s = (Ok [], s)) /\
  (learner s kw -> xs = None -> (exists r, In r (s_rules s) /\ r_fitted r = false) -> set_eval G y xs keep_new w force kw s = (Err EValue, s)).
Proof. exact eval_nothing. Qed.
Print Assumptions C126_eval.

Example C126_eval_ex : set_eval single target_prices None false None false options (stock KRegression) = (Err EValue, stock KRegression).
Proof.
  destruct (C126_eval single target_prices None false None false options (stock KRegression)) as (_ & _ & _ & _ & X). apply X; auto.
  - split; [left; vm_compute; reflexivity|reflexivity].
  - exists (on KRegression "x" 0). rewrite stock_rules. split; [left; reflexivity|reflexivity].
Qed.

(** ** C127 *)

Theorem C127_equal_rule_refuted : exists G y ys xs kw s r r' dropped s',
  unordered (g_hash G) /\ collision_free (g_hash G) /\ g_stacked G = false /\ fits_something s xs kw /\
  (forall q, In q (s_rules s) -> regular q) /\ is_target y ys /\
  set_fit G y false xs false kw s = (Ok dropped, s') /\
  In r (s_rules s) /\ RuleModel.fit (g_env G) y xs false kw r = (Ok tt, r') /\ is_good r /\ is_good r' /\
  s_rules s' = [] /\ ~ In r' dropped.
Proof. exact twin_lost. Qed.
Print Assumptions C127_equal_rule_refuted.

Theorem C127_fit : forall G y series xs force kw s dropped s',
  unordered (g_hash G) -> collision_free (g_hash G) -> g_stacked G = false -> fits_something s xs kw ->
  (forall r, In r (s_rules s) -> regular r) ->
  set_fit G y series xs force kw s = (Ok dropped, s') ->
  exists fitted, Forall2 (fun r r' => RuleModel.fit (g_env G) y xs force kw r = (Ok tt, r')) (s_rules s) fitted /\
    chosen is_bad fitted dropped /\
    chosen (fun r => forall q, In q dropped -> ~ same_rule q r) fitted (s_rules s').
Proof. exact fit_same_rules. Qed.
Print Assumptions C127_fit.

Example C127_fit_ex : chosen (fun r => forall q, In q (dropped_of fit_one) -> ~ same_rule q r)
    (map (fun r => snd (RuleModel.fit capped target_prices (Some market) false options r)) (s_rules (stock KRegression))) (s_rules (snd fit_one)).
Proof.
  destruct (C127_fit single target_prices false (Some market) false options (stock KRegression) (dropped_of fit_one) (snd fit_one))
    as (fitted & A & _ & C); [apply binary_unordered|apply binary_collision_free|reflexivity|apply stock_fits; auto|apply stock_regular|exact fit_one_runs|].
  replace (map _ _) with fitted; [exact C|]. clear - A. induction A as [|r r' l m X A IH]; auto. cbn [map]. change (g_env single) with capped in X. rewrite X, IH. reflexivity.
Qed.

Theorem C127_eval : forall G y xs keep_new w force kw s dropped s',
  unordered (g_hash G) -> collision_free (g_hash G) -> g_stacked G = false -> g_shared G = false -> evaluates_something s xs kw ->
  (forall r, In r (s_rules s) -> regular r) ->
  set_eval G y xs keep_new w force kw s = (Ok dropped, s') ->
  exists evaluated new, (new = true <-> replaces keep_new s) /\
    Forall2 (fun r r' => RuleModel.eval (g_env G) y xs new force kw r = (Ok tt, r')) (s_rules s) evaluated /\
    chosen is_bad evaluated dropped /\
    chosen (fun r => forall q, In q dropped -> ~ same_rule q r) evaluated (s_rules s').
Proof. exact eval_same_rules. Qed.
Print Assumptions C127_eval.

Example C127_eval_ex : exists evaluated, chosen (fun r => forall q, In q (dropped_of eval_one) -> ~ same_rule q r) evaluated (s_rules (snd eval_one)) /\
  List.length (dropped_of eval_one) = 1%nat.
Proof.
  destruct (C127_eval single target_prices (Some market) true None false options fitted_stock (dropped_of eval_one) (snd eval_one))
    as (evaluated & new & _ & A & B & C); [apply binary_unordered|apply binary_collision_free|reflexivity|reflexivity|apply fitted_evaluates|apply fitted_regular|
    exact eval_one_runs|].
  exists evaluated. split; [exact C|]. vm_compute. reflexivity.
Qed.

(** ** C128 *)

Theorem C128_fitted_refuted : exists G y xs kw s r s', g_stacked G = false /\ learner s kw /\
  set_fit G y false xs false kw s = (Ok [], s') /\ In r (s_rules s') /\ is_bad r.
Proof. exact bad_stay_fitted. Qed.
Print Assumptions C128_fitted_refuted.

Theorem C128_fit_together_refuted : exists G y xs kw s r s', g_stacked G = true /\ fits_something s xs kw /\
  (forall q, In q (s_rules s) -> is_good q) /\ set_fit G y false xs false kw s = (Ok [], s') /\ In r (s_rules s') /\ is_bad r.
Proof. exact bad_stay_stacked. Qed.
Print Assumptions C128_fit_together_refuted.

Theorem C128_eval_together_refuted : exists G y xs kw s r s', g_stacked G = true /\ evaluates_something s xs kw /\
  (forall q, In q (s_rules s) -> is_good q) /\ set_eval G y xs true None false kw s = (Ok [], s') /\ In r (s_rules s') /\ is_bad r.
Proof. exact bad_stay_eval. Qed.
Print Assumptions C128_eval_together_refuted.

(** ** C129 *)

Theorem C129_once_refuted : exists G y xs kw s r s', g_stacked G = true /\ fits_something s xs kw /\
  set_fit G y false xs false kw s = (Ok [r; r; r; r], s') /\ List.length (s_rules s) = 3%nat /\ List.length (s_rules s') = 2%nat.
Proof. exact dropped_often. Qed.
Print Assumptions C129_once_refuted.

(** ** C130 *)

Theorem C130_names_refuted : exists G y xs kw s r s', g_stacked G = false /\
  (forall f, In f (s_names s) <-> feature_name (s_rules s) f) /\
  set_fit G y false xs false kw s = (Ok [r], s') /\ In "y" (s_names s') /\ ~ feature_name (s_rules s') "y".
Proof. exact names_stay. Qed.
Print Assumptions C130_names_refuted.

(** ** C131 *)

Theorem C131_activation_refuted : exists G y xs kw s r s', g_stacked G = false /\ evaluates_something s xs kw /\
  set_vector s = Ok (Some [1; 1; 1; 1]) /\
  set_eval G y xs false None false kw s = (Ok [r], s') /\ set_vector s' = Ok (Some [0; 0; 0; 0]) /\
  map (fun r => fst (getattr r "activation", tt)) (s_rules s') = [Ok (OInts [1; 0; 1; 1]); Ok (OInts [0; 0; 1; 1])].
Proof. exact activation_lost. Qed.
Print Assumptions C131_activation_refuted.

(** ** C132 *)

Theorem C132_stack_refuted : exists G y xs kw s e s', g_stacked G = true /\ fits_something s xs kw /\ s_stack s = false /\
  set_fit G y false xs false kw s = (Err e, s') /\ s_stack s' = true.
Proof. exact stack_left_on. Qed.
Print Assumptions C132_stack_refuted.

(** ** C133 *)

Theorem C133_criterion_refuted : exists G y xs kw s dropped s' x, g_stacked G = false /\ evaluates_something s xs kw /\
  s_criterion s = number (Fin x) /\ set_eval G y xs false None false kw s = (Ok dropped, s') /\
  s_rules s' = [] /\ s_criterion s' = number (Fin x).
Proof. exact criterion_left. Qed.
Print Assumptions C133_criterion_refuted.

(** ** C134 *)

Theorem C134_same_values_refuted : exists G y xs kw s s1 s2 r1 r2, g_stacked G = false /\ made G false s /\
  set_fit G y false xs false kw s = (Ok [], s1) /\
  set_fit (mkSetup (g_env G) (g_hash G) (g_quote G) (g_check G) true (g_indexes G) (g_shared G)) y false xs false kw s = (Ok [], s2) /\
  nth_error (s_rules s1) 0 = Some r1 /\ nth_error (s_rules s2) 0 = Some r2 /\
  getattr r1 "activation" = getattr r2 "activation" /\
  getattr r1 "std" = Ok (number (Fin 0)) /\ getattr r2 "std" = Ok (number NaN).
Proof. exact std_differs. Qed.
Print Assumptions C134_same_values_refuted.
