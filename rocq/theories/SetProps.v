(** Rulesets. *)
From Coq Require Import List ZArith QArith Bool String Ascii Permutation Lia.
From Coq Require Import List.
From Verif Require Import Base Num CondModel CondSpec CondMore CondWit ThrModel ThrWit MetModel MetSpec RuleModel RuleSpec RuleWit
  PredModel PredSpec PredReg PredWit SetModel SetSpec SetBase SetText SetSort SetAct SetStack SetAdd SetEq SetMisc SetWit.
Import ListNotations.
Open Scope string_scope.
Open Scope list_scope.
Open Scope Z_scope.

(** ** C41 *)

Theorem C41_union : forall G mixed s,
  made G mixed s -> s_rules s <> [] -> (forall r, In r (s_rules s) -> present r) ->
  exists w q, set_vector s = Ok (Some w) /\ covers (s_rules s) w /\ bits w /\
    ruleset_coverage s = Ok (number (Fin q)) /\ fraction w q.
Proof. exact union_ok. Qed.
Print Assumptions C41_union.

Example C41_union_ex : set_vector trio = Ok (Some [1; 1; 0; 1]) /\ ruleset_coverage trio = Ok (number (Fin (3 # 4))) /\
  covers three [1; 1; 0; 1].
Proof.
  split; [reflexivity|]. split; [reflexivity|].
  destruct (C41_union quiet false trio (trio_made false) ltac:(discriminate)) as (w & q & V & C & _).
  - intros r R. rewrite trio_rules in R. apply three_present. auto.
  - vm_compute in V. injection V as <-. rewrite trio_rules in C. exact C.
Qed.

Theorem C41_empty : forall G mixed s,
  made G mixed s -> s_rules s = [] -> set_vector s = Ok None.
Proof. exact union_empty. Qed.
Print Assumptions C41_empty.

Example C41_empty_ex : set_vector (set_of_rules quiet false []) = Ok None.
Proof. apply (C41_empty quiet false); [apply (made_new quiet false (Some []) false); vm_compute; reflexivity|reflexivity]. Qed.

(** ** C42 *)

Theorem C42_wrong_type : forall G r s t,
  s_type s = Some t -> ~ instance r t ->
  add_rule G r s = (Err EType, s) /\ append G (ERule r) true s = (Err EType, s).
Proof. exact reject_rule. Qed.
Print Assumptions C42_wrong_type.

Example C42_wrong_type_ex : append quiet (ERule (class_voter "a" "red" [1; 1; 0; 1])) true trio = (Err EType, trio).
Proof. apply (C42_wrong_type quiet _ trio KRegression); [reflexivity|]. intros [H|H]; discriminate. Qed.

Theorem C42_not_a_rule : forall G e update s,
  (forall r, e <> ERule r) -> append G e update s = (Err EType, s).
Proof. exact reject_other. Qed.
Print Assumptions C42_not_a_rule.

Example C42_not_a_rule_ex : append quiet EOther false trio = (Err EType, trio).
Proof. apply C42_not_a_rule. discriminate. Qed.

Theorem C42_wrong_set : forall t s k k',
  s_type s = Some k -> s_type t = Some k' -> k <> k' -> add_set t s = (Err EType, s).
Proof. exact reject_set. Qed.
Print Assumptions C42_wrong_set.

Example C42_wrong_set_ex : add_set (set_of_rules quiet false [class_voter "a" "red" [1; 1; 0; 1]]) trio = (Err EType, trio).
Proof. apply (C42_wrong_set _ trio KRegression KClassification); [reflexivity|reflexivity|discriminate]. Qed.

Theorem C42_at_the_end : forall G e update s s',
  append G e update s = (Ok tt, s') -> exists r, e = ERule r /\ s_rules s' = s_rules s ++ [r] /\
  s_stack s' = s_stack s.
Proof. exact append_success. Qed.
Print Assumptions C42_at_the_end.

Example C42_at_the_end_ex : exists s', append quiet (ERule fourth) true trio = (Ok tt, s') /\ s_rules s' = three ++ [fourth].
Proof.
  eexists. split; [vm_compute; reflexivity|].
  destruct (C42_at_the_end quiet (ERule fourth) true trio _ ltac:(vm_compute; reflexivity)) as (r & E & R & _). injection E as <-.
  rewrite R, trio_rules. reflexivity.
Qed.

Theorem C42_accepted : forall G mixed s r,
  made G mixed s -> s_stack s = false -> usable r -> present r ->
  (s_type s = None \/ exists t, s_type s = Some t /\ instance r t) ->
  (forall q, In q (s_rules s) -> present q) ->
  (forall q v w, In q (s_rules s) -> working q None v -> working r None w -> List.length v = List.length w) ->
  exists s', append G (ERule r) true s = (Ok tt, s') /\ s_rules s' = s_rules s ++ [r].
Proof. exact append_total. Qed.
Print Assumptions C42_accepted.

Example C42_accepted_ex : exists s', append quiet (ERule fourth) true trio = (Ok tt, s') /\ s_rules s' = s_rules trio ++ [fourth].
Proof.
  apply (C42_accepted quiet false); [apply trio_made|reflexivity|apply voter_usable|apply voter_present; [bit_by_bit|discriminate]| | |].
  - right. exists KRegression. split; [reflexivity|right; reflexivity].
  - rewrite trio_rules. exact three_present.
  - rewrite trio_rules. intros q v w Q V W. rewrite (three_lengths q v Q V). apply working_act in W as (a & A & _ & <-). injection A as <-. reflexivity.
Qed.

(** ** C43 *)

Theorem C43_plus_rule : forall G s r u,
  plus_rule G s r = Ok u -> g_indexes G = [] -> s_rules u = s_rules s ++ [r] /\ s_stack u = s_stack s.
Proof. exact plus_rule_ok. Qed.
Print Assumptions C43_plus_rule.

Example C43_plus_rule_ex : exists u, plus_rule quiet trio fourth = Ok u /\ s_rules u = three ++ [fourth].
Proof.
  eexists. split; [vm_compute; reflexivity|].
  destruct (C43_plus_rule quiet trio fourth _ ltac:(vm_compute; reflexivity) eq_refl) as (R & _). rewrite R, trio_rules. reflexivity.
Qed.

Theorem C43_plus_rule_succeeds : forall G s r,
  compatible (s_rules s ++ [r]) -> s_stack s = false -> g_indexes G = [] -> g_check G = false ->
  exists u, plus_rule G s r = Ok u.
Proof. exact plus_rule_total. Qed.
Print Assumptions C43_plus_rule_succeeds.

Example C43_plus_rule_succeeds_ex : exists u, plus_rule quiet trio (number_voter "b" 4 [0; 0; 1; 1]) = Ok u.
Proof. apply C43_plus_rule_succeeds; [rewrite trio_rules; exact twins_compatible|reflexivity|reflexivity|reflexivity]. Qed.

Theorem C43_plus_set : forall G s t u,
  unordered (g_hash G) -> collision_free (g_hash G) -> g_indexes G = [] ->
  (forall r, In r (s_rules s ++ s_rules t) -> regular r) ->
  plus_set G s t = Ok u -> without_repetition (s_rules s ++ s_rules t) (s_rules u) /\ s_stack u = s_stack s && s_stack t.
Proof. exact plus_set_ok. Qed.
Print Assumptions C43_plus_set.

Example C43_plus_set_ex : exists u, plus_set quiet trio pair_set = Ok u /\
  without_repetition (three ++ [other_a; fourth]) (s_rules u).
Proof.
  assert (R : forall r, In r (s_rules trio ++ s_rules pair_set) -> regular r /\ exists v, working r None v /\ List.length v = 4%nat).
  { rewrite trio_rules, pair_rules. intros r [<-|[<-|[<-|[<-|[<-|[]]]]]]; (split; [apply voter_regular|]); (eexists; split; [apply voter_working|reflexivity]). }
  destruct (plus_set_total quiet trio pair_set 4 ideal_unordered ideal_collision_free eq_refl eq_refl R) as (u & U); [|reflexivity|].
  - exists KRegression. rewrite trio_rules, pair_rules. intros r [<-|[<-|[<-|[<-|[<-|[]]]]]]; reflexivity.
  - exists u. split; auto. destruct (C43_plus_set quiet trio pair_set u ideal_unordered ideal_collision_free eq_refl) as (W & _); auto.
    intros r I. apply R. auto.
Qed.

Theorem C43_plus_set_succeeds : forall G s t n,
  unordered (g_hash G) -> collision_free (g_hash G) -> g_indexes G = [] -> g_check G = false ->
  (forall r, In r (s_rules s ++ s_rules t) -> regular r /\ exists v, working r None v /\ List.length v = n) ->
  (exists k, forall r, In r (s_rules s ++ s_rules t) -> r_kind r = k) -> s_stack s && s_stack t = false ->
  exists u, plus_set G s t = Ok u.
Proof. exact plus_set_total. Qed.
Print Assumptions C43_plus_set_succeeds.

Example C43_plus_set_succeeds_ex : exists u, plus_set quiet pair_set pair_set = Ok u.
Proof.
  apply (C43_plus_set_succeeds quiet pair_set pair_set 4 ideal_unordered ideal_collision_free); try reflexivity.
  - rewrite pair_rules. intros r [<-|[<-|[<-|[<-|[]]]]]; (split; [apply voter_regular|]); (eexists; split; [apply voter_working|reflexivity]).
  - exists KRegression. rewrite pair_rules. intros r [<-|[<-|[<-|[<-|[]]]]]; reflexivity.
Qed.

Theorem C43_equality : forall H, unordered H -> collision_free H -> forall s t,
  (forall r, In r (s_rules s) -> regular r) -> (forall r, In r (s_rules t) -> regular r) ->
  exists b, set_eq H s t = Ok b /\
    (b = true <-> (forall r, In r (s_rules s) -> exists r', In r' (s_rules t) /\ same_rule r r') /\
                  (forall r, In r (s_rules t) -> exists r', In r' (s_rules s) /\ same_rule r r')).
Proof. exact set_eq_ok. Qed.
Print Assumptions C43_equality.

Example C43_equality_ex : set_eq ideal trio reversed = Ok true.
Proof.
  destruct (C43_equality ideal ideal_unordered ideal_collision_free trio reversed) as (b & B & E).
  - rewrite trio_rules. exact three_regular.
  - rewrite reversed_rules. intros r [<-|[<-|[<-|[<-|[]]]]]; apply voter_regular.
  - rewrite B. f_equal. apply E. rewrite trio_rules, reversed_rules. split.
    + intros r [<-|[<-|[<-|[]]]]; [exists other_a|exists (number_voter "b" 4 [1; 0; 0; 1])|exists (number_voter "c" (-1) [0; 0; 0; 1])];
        (split; [cbn; tauto|apply voter_same]).
    + intros r [<-|[<-|[<-|[<-|[]]]]];
        [exists (number_voter "c" (-1) [0; 0; 0; 1])|exists (number_voter "a" 2 [1; 1; 0; 0])|exists (number_voter "b" 4 [1; 0; 0; 1])|exists (number_voter "a" 2 [1; 1; 0; 0])];
        (split; [cbn; tauto|apply voter_same]).
Qed.

Theorem C43_hash : forall H, unordered H -> collision_free H -> forall s t,
  (forall r, In r (s_rules s) -> regular r) -> (forall r, In r (s_rules t) -> regular r) ->
  set_eq H s t = Ok true -> exists h, set_hash H s = Ok h /\ set_hash H t = Ok h.
Proof. exact set_hash_ok. Qed.
Print Assumptions C43_hash.

Example C43_hash_ex : exists h, set_hash ideal trio = Ok h /\ set_hash ideal reversed = Ok h.
Proof.
  apply (C43_hash ideal ideal_unordered ideal_collision_free).
  - rewrite trio_rules. exact three_regular.
  - rewrite reversed_rules. intros r [<-|[<-|[<-|[<-|[]]]]]; apply voter_regular.
  - exact C43_equality_ex.
Qed.

(** ** C50 *)

Theorem C50_sort : forall G c reverse s,
  quotes (g_quote G) -> (c = None \/ c = Some "") -> sortable G s -> s_stack s = false ->
  exists s', set_sort G c reverse s = (Ok tt, s') /\ same_but_rules s s' /\
    stable_sort (precedes G s reverse) (s_rules s) (s_rules s').
Proof. exact sort_ok. Qed.
Print Assumptions C50_sort.

Example C50_sort_ex : exists s', set_sort quiet None false (messy false) = (Ok tt, s') /\ s_rules s' = tidy /\
  stable_sort (precedes quiet (messy false) false) mess tidy.
Proof.
  destruct (C50_sort quiet None false (messy false) quoted_ok (or_introl eq_refl) (messy_sortable false) eq_refl) as (s' & E & _ & P).
  rewrite messy_rules in P. exists s'. split; auto. assert (R : s_rules s' = tidy) by (vm_compute in E; injection E as <-; reflexivity).
  split; auto. rewrite R in P. exact P.
Qed.

Theorem C50_sort_by : forall G name reverse s,
  name <> "" ->
  Forall (number_attribute name) (s_rules s) \/ Forall (text_attribute name) (s_rules s) -> s_stack s = false ->
  exists s', set_sort G (Some name) reverse s = (Ok tt, s') /\ same_but_rules s s' /\
    stable_sort (precedes_by name reverse) (s_rules s) (s_rules s').
Proof. exact sort_by_ok. Qed.
Print Assumptions C50_sort_by.

Example C50_sort_by_ex : exists s', set_sort quiet (Some "prediction") true trio = (Ok tt, s') /\
  s_rules s' = [number_voter "b" 4 [1; 0; 0; 1]; number_voter "a" 2 [1; 1; 0; 0]; number_voter "c" (-1) [0; 0; 0; 1]].
Proof.
  destruct (C50_sort_by quiet "prediction" true trio ltac:(discriminate) (or_introl trio_numbers) eq_refl) as (s' & E & _).
  exists s'. split; auto. vm_compute in E. injection E as <-. reflexivity.
Qed.

Theorem C50_sort_again : forall G c reverse s s',
  quotes (g_quote G) -> (c = None \/ c = Some "") -> sortable G s -> s_stack s = false ->
  set_sort G c reverse s = (Ok tt, s') -> set_sort G c reverse s' = (Ok tt, s').
Proof. exact sort_again. Qed.
Print Assumptions C50_sort_again.

Example C50_sort_again_ex : exists s', set_sort quiet None true (messy false) = (Ok tt, s') /\ set_sort quiet None true s' = (Ok tt, s') /\
  s_rules s' <> mess.
Proof.
  eexists. split; [vm_compute; reflexivity|]. split; [|discriminate].
  apply (C50_sort_again quiet None true (messy false)); [exact quoted_ok|left; reflexivity|apply messy_sortable|reflexivity|vm_compute; reflexivity].
Qed.

Theorem C50_sort_by_again : forall G name reverse s s',
  name <> "" ->
  Forall (number_attribute name) (s_rules s) \/ Forall (text_attribute name) (s_rules s) -> s_stack s = false ->
  set_sort G (Some name) reverse s = (Ok tt, s') -> set_sort G (Some name) reverse s' = (Ok tt, s').
Proof. exact sort_by_again. Qed.
Print Assumptions C50_sort_by_again.

Example C50_sort_by_again_ex : exists s', set_sort quiet (Some "prediction") false trio = (Ok tt, s') /\
  set_sort quiet (Some "prediction") false s' = (Ok tt, s') /\ s_rules s' <> three.
Proof.
  eexists. split; [vm_compute; reflexivity|]. split; [|discriminate].
  apply (C50_sort_by_again quiet "prediction" false trio); [discriminate|left; exact trio_numbers|reflexivity|vm_compute; reflexivity].
Qed.

Theorem C50_columns : forall G c reverse s f,
  quotes (g_quote G) -> (c = None \/ c = Some "") -> sortable G s ->
  s_stack s = true -> s_stacked s = Some f -> NoDup (map fst (f_columns f)) -> s_rules s <> [] ->
  (forall r, In r (s_rules s) -> exists n v, called (g_env G) r n /\ In (n, v) (f_columns f)) ->
  exists s' f', set_sort G c reverse s = (Ok tt, s') /\ stable_sort (precedes G s reverse) (s_rules s) (s_rules s') /\
    s_stacked s' = Some f' /\ f_rows f' = f_rows f /\
    Forall2 (fun r c => called (g_env G) r (fst c) /\ In c (f_columns f)) (s_rules s') (f_columns f').
Proof. exact sort_columns. Qed.
Print Assumptions C50_columns.

Example C50_columns_ex : exists s' f', set_sort stacking None false (set_of_rules stacking true (rev three)) = (Ok tt, s') /\
  s_stacked s' = Some f' /\ f_columns f' = three_columns.
Proof. eexists _, _. split; [vm_compute; reflexivity|]. split; reflexivity. Qed.

Example C50_columns_ex2 : exists f, s_stack tower = true /\ s_stacked tower = Some f /\ NoDup (map fst (f_columns f)) /\
  forall r, In r (s_rules tower) -> exists n v, called free r n /\ In (n, v) (f_columns f).
Proof.
  eexists. split; [reflexivity|]. split; [reflexivity|]. split; [distinct|].
  replace (s_rules tower) with three by (vm_compute; reflexivity).
  intros r [<-|[<-|[<-|[]]]]; (eexists _, _; split; [apply voter_called|]; cbn; tauto).
Qed.

Theorem C50_columns_by : forall G name reverse s f,
  name <> "" ->
  Forall (number_attribute name) (s_rules s) \/ Forall (text_attribute name) (s_rules s) ->
  s_stack s = true -> s_stacked s = Some f -> NoDup (map fst (f_columns f)) -> s_rules s <> [] ->
  (forall r, In r (s_rules s) -> exists n v, called (g_env G) r n /\ In (n, v) (f_columns f)) ->
  exists s' f', set_sort G (Some name) reverse s = (Ok tt, s') /\ stable_sort (precedes_by name reverse) (s_rules s) (s_rules s') /\
    s_stacked s' = Some f' /\ f_rows f' = f_rows f /\
    Forall2 (fun r c => called (g_env G) r (fst c) /\ In c (f_columns f)) (s_rules s') (f_columns f').
Proof. exact sort_by_columns. Qed.
Print Assumptions C50_columns_by.

Example C50_columns_by_ex : exists s' f', set_sort quiet (Some "prediction") true tower = (Ok tt, s') /\
  s_stacked s' = Some f' /\ map fst (f_columns f') = [name "b"; name "a"; name "c"].
Proof.
  destruct (C50_columns_by quiet "prediction" true tower (stacked_of three_columns)) as (s' & f' & E & _ & S & _).
  - discriminate.
  - left. replace (s_rules tower) with (s_rules trio) by (vm_compute; reflexivity). exact trio_numbers.
  - reflexivity.
  - reflexivity.
  - distinct.
  - discriminate.
  - replace (s_rules tower) with three by (vm_compute; reflexivity).
    intros r [<-|[<-|[<-|[]]]]; (eexists _, _; split; [apply voter_called|]; cbn; tauto).
  - exists s', f'. split; auto. split; auto. vm_compute in E. injection E as <-. cbn in S. injection S as <-. reflexivity.
Qed.

(** ** C51 *)

Theorem C51_check : forall G rules by_name,
  quotes (g_quote G) -> prints (e_repr (g_env G)) -> comparable rules ->
  (check_duplicated_rules G rules by_name = Ok tt /\ ~ repeated by_name rules) \/
  (check_duplicated_rules G rules by_name = Err EValue /\ repeated by_name rules).
Proof. exact check_ok. Qed.
Print Assumptions C51_check.

Example C51_check_ex : check_duplicated_rules checked twins true = Err EValue /\ check_duplicated_rules checked three true = Ok tt.
Proof.
  split.
  - destruct (C51_check checked twins true quoted_ok plain_ok twins_comparable) as [(_ & N)|(E & _)].
    + destruct N. apply twins_repeated.
    + exact E.
  - vm_compute. reflexivity.
Qed.

Theorem C51_constructor : forall G l compute by_name,
  compatible l -> g_indexes G = [] -> g_check G = true ->
  quotes (g_quote G) -> prints (e_repr (g_env G)) -> SetSpec.comparable l ->
  (by_name = true <-> exists f, feature_name l f) ->
  ((exists s, new_set G (Some (map ERule l)) compute false = Ok s /\ s_rules s = l) /\ ~ repeated by_name l) \/
  (new_set G (Some (map ERule l)) compute false = Err EValue /\ repeated by_name l).
Proof. exact duplicates_ok. Qed.
Print Assumptions C51_constructor.

Example C51_constructor_ex : new_set checked (Some (map ERule twins)) true false = Err EValue /\
  (exists s, new_set checked (Some (map ERule three)) true false = Ok s).
Proof.
  split.
  - destruct (C51_constructor checked twins true true twins_compatible eq_refl eq_refl quoted_ok plain_ok twins_comparable) as [(_ & N)|(E & _)].
    + split; auto. intros _. exists "a". eapply voter_feature. left. reflexivity.
    + destruct N. apply twins_repeated.
    + exact E.
  - eexists. vm_compute. reflexivity.
Qed.

Theorem C51_contains : forall G s r by_name,
  (by_name = true <-> s_names s <> []) ->
  quotes (g_quote G) -> prints (e_repr (g_env G)) -> comparable (r :: s_rules s) ->
  exists b, contains G s r = Ok b /\
    (b = true <-> exists r', In r' (s_rules s) /\ alike by_name r' r).
Proof. exact contains_ok. Qed.
Print Assumptions C51_contains.

Example C51_contains_ex : contains checked trio (number_voter "b" 4 [0; 0; 1; 1]) = Ok true /\ contains checked trio other_a = Ok false.
Proof.
  split; [|vm_compute; reflexivity].
  destruct (C51_contains checked trio (number_voter "b" 4 [0; 0; 1; 1]) true) as (b & B & E).
  - split; [discriminate|auto].
  - exact quoted_ok.
  - exact plain_ok.
  - rewrite trio_rules. left. repeat (apply Forall_cons; [apply number_voter_like|]). apply Forall_nil.
  - rewrite B. f_equal. apply E. exists (number_voter "b" 4 [1; 0; 0; 1]). rewrite trio_rules. split; [cbn; tauto|]. apply number_voter_alike.
Qed.

(** ** C53 *)

Theorem C53_counts : forall G mixed s,
  made G mixed s -> (forall r, In r (s_rules s) -> distinct_names r) ->
  (s_rules s = [] \/ exists f, feature_name (s_rules s) f) ->
  exists d, get_features_count s = Ok d /\ feature_counts (s_rules s) d.
Proof. exact counts_ok. Qed.
Print Assumptions C53_counts.

Example C53_counts_ex : get_features_count (messy false) = Ok [("b", 3%nat); ("c", 1%nat); ("a", 1%nat)] /\
  feature_counts mess [("b", 3%nat); ("c", 1%nat); ("a", 1%nat)].
Proof.
  split; [vm_compute; reflexivity|].
  destruct (C53_counts quiet false (messy false)) as (d & D & C).
  - apply (made_new quiet false (Some (map ERule mess)) false). vm_compute. reflexivity.
  - rewrite messy_rules. intros r [<-|[<-|[<-|[<-|[]]]]] c l C L; cbn in C; injection C as <-; cbn in L; injection L as <-; distinct.
  - right. exists "b". rewrite messy_rules. eexists _, _, _. split; [left; reflexivity|]. split; [reflexivity|]. split; [reflexivity|left; reflexivity].
  - rewrite messy_rules in C. vm_compute in D. injection D as <-. exact C.
Qed.

(** ** C54 *)

Theorem C54_homogeneous : forall G s,
  typed G s ->
  (s_type s = None -> s_rules s = []) /\ (forall t r, s_type s = Some t -> In r (s_rules s) -> instance r t).
Proof. exact homogeneous. Qed.
Print Assumptions C54_homogeneous.

Example C54_homogeneous_ex : typed quiet (snd (append quiet (ERule (class_voter "a" "red" [1; 1; 0; 1])) false trio)) /\
  s_type trio = Some KRegression.
Proof. split; [|reflexivity]. apply typed_append. exact (typed_new _ _ _ _ _ trio_ok). Qed.

(** ** C109 *)

Theorem C109_raised_in_refuted : exists G s r s', made G false s /\ append G (ERule r) true s = (Err EValue, s') /\ s_rules s' <> s_rules s.
Proof. exact raised_in. Qed.
Print Assumptions C109_raised_in_refuted.

Theorem C109_rules : forall G e update s,
  s_rules (snd (append G e update s)) = s_rules s \/
  exists r, e = ERule r /\ s_rules (snd (append G e update s)) = s_rules s ++ [r].
Proof. exact append_rules. Qed.
Print Assumptions C109_rules.

Example C109_rules_ex : s_rules (snd (append quiet (ERule short_rule) true trio)) = three ++ [short_rule] /\
  fst (append quiet (ERule short_rule) true trio) = Err EValue.
Proof. split; vm_compute; reflexivity. Qed.

(** ** C110 *)

Theorem C110_switched_off_refuted : exists G s r s' q s1 s2, made G false s /\ append G (ERule r) false s = (Err EType, s') /\
  append G (ERule q) true s = (Ok tt, s1) /\ append G (ERule q) true s' = (Ok tt, s2) /\
  set_vector s1 = Ok (Some [1; 1; 1; 1]) /\ set_vector s2 = Ok (Some [1; 1; 0; 1]).
Proof. exact switched_off. Qed.
Print Assumptions C110_switched_off_refuted.

Theorem C110_switches : forall G r update s e s',
  append G (ERule r) update s = (Err e, s') ->
  s_stack s' = (if update then s_stack s else false) /\ s_compute s' = (if update then s_compute s else false).
Proof. exact append_failure. Qed.
Print Assumptions C110_switches.

Example C110_switches_ex : s_compute (snd (append quiet (ERule wordless) false tower)) = false /\
  s_stack (snd (append quiet (ERule wordless) false tower)) = false /\ s_stack tower = true.
Proof.
  destruct (append quiet (ERule wordless) false tower) as (o, s') eqn:E. pose proof E as E'. vm_compute in E'. injection E' as Ho Hs. subst o.
  destruct (C110_switches quiet wordless false tower _ s' E) as (A & B). cbn [snd]. rewrite A, B. auto.
Qed.

(** ** C111 *)

Theorem C111_retyped_refuted : exists G s l s' t r, made G false s /\ set_rules G (Some l) s = (Ok tt, s') /\
  s_type s' = Some t /\ In r (s_rules s') /\ ~ instance r t.
Proof. exact retyped. Qed.
Print Assumptions C111_retyped_refuted.

(** ** C112 *)

Theorem C112_no_counts_refuted : exists G s, made G false s /\ s_rules s <> [] /\ get_features_count s = Err EAttr /\ feature_counts (s_rules s) [].
Proof. exact no_counts. Qed.
Print Assumptions C112_no_counts_refuted.

Theorem C112_raises : forall G mixed s,
  made G mixed s -> s_rules s <> [] -> (forall f, ~ feature_name (s_rules s) f) ->
  get_features_count s = Err EAttr.
Proof. exact counts_nothing. Qed.
Print Assumptions C112_raises.

Example C112_raises_ex : get_features_count vague = Err EAttr.
Proof. apply (C112_raises quiet false); [apply vague_made|discriminate|exact vague_features]. Qed.

(** ** C113 *)

Theorem C113_columns : forall G s,
  made G false s -> s_stack s = true -> s_rules s <> [] ->
  (forall r, In r (s_rules s) -> present r /\ exists n, called (g_env G) r n) ->
  exists f, s_stacked s = Some f /\ columns_of (g_env G) (s_rules s) f.
Proof. exact stacked_ok. Qed.
Print Assumptions C113_columns.

Example C113_columns_ex : columns_of free three (stacked_of three_columns).
Proof.
  destruct (C113_columns quiet tower (tower_made false)) as (f & E & C).
  - reflexivity.
  - discriminate.
  - replace (s_rules tower) with three by (vm_compute; reflexivity). intros r R. split; [apply three_present|apply three_called]; auto.
  - replace (s_rules tower) with three in C by (vm_compute; reflexivity). vm_compute in E. injection E as <-. exact C.
Qed.

(** ** C114 *)

Theorem C114_lost_columns_refuted : exists G s t s' r, made G false s /\ made G false t /\ s_stack s = true /\ add_set t s = (Ok tt, s') /\
  In r (s_rules s') /\ present r /\
  exists f n, s_stacked s' = Some f /\ called (g_env G) r n /\ ~ In n (map fst (f_columns f)).
Proof. exact lost_columns. Qed.
Print Assumptions C114_lost_columns_refuted.

(** ** C115 *)

Theorem C115_features : forall G mixed s,
  made G mixed s ->
  (forall f, In f (s_names s) <-> feature_name (s_rules s) f) /\ (forall i, In i (s_idx s) <-> feature_index (s_rules s) i) /\
  NoDup (s_names s).
Proof. exact features_ok. Qed.
Print Assumptions C115_features.

Example C115_features_ex : s_names (messy false) = ["c"; "a"; "b"] /\ s_idx (messy false) = [1; 0] /\ made quiet false (messy false).
Proof. split; [vm_compute; reflexivity|]. split; [vm_compute; reflexivity|]. apply (made_new quiet false (Some (map ERule mess)) false). vm_compute. reflexivity. Qed.

Theorem C115_constructed : forall G l compute stacking s,
  new_set G (Some l) compute stacking = Ok s ->
  ~ In EOther l /\ s_stack s = stacking /\ s_coverage s = none /\ s_criterion s = none /\
  Forall2 (fun r r' => r_kind r' = r_kind r /\ r_act r' = r_act r /\ r_dict r' = r_dict r /\
    exists c c', r_cond r = Some c /\ r_cond r' = Some c' /\ c_names c' = c_names c /\ c_min c' = c_min c /\ c_max c' = c_max c /\
      (g_indexes G = [] -> c_idx c' = c_idx c))
    (the_rules l) (s_rules s).
Proof. exact constructed. Qed.
Print Assumptions C115_constructed.

Example C115_constructed_ex : exists s, new_set (mkSetup free ideal quoted false false [("a", 7); ("b", 8); ("c", 9); ("d", 1)] false) (Some (map ERule three)) true false = Ok s /\
  map (fun r => match r_cond r with Some c => c_idx c | None => None end) (s_rules s) = [Some [7]; Some [8]; Some [9]].
Proof. eexists. split; vm_compute; reflexivity. Qed.

(** ** C116 *)

Theorem C116_up : forall G a b k s,
  let n := Z.of_nat (List.length (s_rules s)) in 0 <= a <= n -> 0 <= b <= n -> 0 < k ->
  exists l, getitem_slice G (Some a) (Some b) (Some k) s = new_set G (Some (map ERule l)) true false /\
    forall j, nth_error l j = if a + Z.of_nat j * k <? b then nth_error (s_rules s) (Z.to_nat (a + Z.of_nat j * k)) else None.
Proof. exact slice_up. Qed.
Print Assumptions C116_up.

Example C116_up_ex : getitem_slice quiet (Some 0) (Some 3) (Some 2) trio = new_set quiet (Some [ERule (number_voter "a" 2 [1; 1; 0; 0]); ERule (number_voter "c" (-1) [0; 0; 0; 1])]) true false.
Proof. vm_compute. reflexivity. Qed.

Theorem C116_down : forall G a b k s,
  let n := Z.of_nat (List.length (s_rules s)) in 0 <= a < n -> 0 <= b < n -> k < 0 ->
  exists l, getitem_slice G (Some a) (Some b) (Some k) s = new_set G (Some (map ERule l)) true false /\
    forall j, nth_error l j = if b <? a + Z.of_nat j * k then nth_error (s_rules s) (Z.to_nat (a + Z.of_nat j * k)) else None.
Proof. exact slice_down. Qed.
Print Assumptions C116_down.

Example C116_down_ex : getitem_slice quiet (Some 2) (Some 0) (Some (-1)) trio = new_set quiet (Some [ERule (number_voter "c" (-1) [0; 0; 0; 1]); ERule (number_voter "b" 4 [1; 0; 0; 1])]) true false.
Proof. vm_compute. reflexivity. Qed.

Theorem C116_down_all : forall G a k s,
  let n := Z.of_nat (List.length (s_rules s)) in 0 <= a < n -> k < 0 ->
  exists l, getitem_slice G (Some a) None (Some k) s = new_set G (Some (map ERule l)) true false /\
    forall j, nth_error l j = if 0 <=? a + Z.of_nat j * k then nth_error (s_rules s) (Z.to_nat (a + Z.of_nat j * k)) else None.
Proof. exact slice_down_all. Qed.
Print Assumptions C116_down_all.

Example C116_down_all_ex : getitem_slice quiet (Some 2) None (Some (-2)) trio = new_set quiet (Some [ERule (number_voter "c" (-1) [0; 0; 0; 1]); ERule (number_voter "a" 2 [1; 1; 0; 0])]) true false.
Proof. vm_compute. reflexivity. Qed.

Theorem C116_omitted : forall G a b k s,
  let n := Z.of_nat (List.length (s_rules s)) in
  getitem_slice G a b None s = getitem_slice G a b (Some 1) s /\
  getitem_slice G a b (Some 0) s = Err EValue /\
  (0 < k -> getitem_slice G None b (Some k) s = getitem_slice G (Some 0) b (Some k) s /\
            getitem_slice G a None (Some k) s = getitem_slice G a (Some n) (Some k) s) /\
  (k < 0 -> getitem_slice G None b (Some k) s = getitem_slice G (Some (n - 1)) b (Some k) s).
Proof. exact slice_forms. Qed.
Print Assumptions C116_omitted.

Example C116_omitted_ex : getitem_slice quiet None None None trio = getitem_slice quiet (Some 0) (Some 3) (Some 1) trio.
Proof.
  destruct (C116_omitted quiet None None 1 trio) as (A & _ & B & _). rewrite A. destruct (B ltac:(lia)) as (B1 & _). rewrite B1.
  destruct (C116_omitted quiet (Some 0) None 1 trio) as (_ & _ & C & _). destruct (C ltac:(lia)) as (_ & C2). exact C2.
Qed.

Theorem C116_outside : forall G a b k s,
  let n := Z.of_nat (List.length (s_rules s)) in 0 < k ->
  (- n <= a < 0 -> getitem_slice G (Some a) b (Some k) s = getitem_slice G (Some (n + a)) b (Some k) s) /\
  (a < - n -> getitem_slice G (Some a) b (Some k) s = getitem_slice G (Some 0) b (Some k) s) /\
  (n < a -> getitem_slice G (Some a) b (Some k) s = getitem_slice G (Some n) b (Some k) s) /\
  (- n <= a < 0 -> getitem_slice G b (Some a) (Some k) s = getitem_slice G b (Some (n + a)) (Some k) s) /\
  (a < - n -> getitem_slice G b (Some a) (Some k) s = getitem_slice G b (Some 0) (Some k) s) /\
  (n < a -> getitem_slice G b (Some a) (Some k) s = getitem_slice G b (Some n) (Some k) s).
Proof. exact slice_negative. Qed.
Print Assumptions C116_outside.

Example C116_outside_ex : getitem_slice quiet (Some (-2)) (Some 9) (Some 1) trio = getitem_slice quiet (Some 1) (Some 3) (Some 1) trio.
Proof.
  destruct (C116_outside quiet (-2) (Some 9) 1 trio ltac:(lia)) as (A & _). rewrite A by (cbn; lia).
  destruct (C116_outside quiet 9 (Some 1) 1 trio ltac:(lia)) as (_ & _ & _ & _ & _ & B). apply B. cbn. lia.
Qed.

Theorem C116_outside_down : forall G a b k s,
  let n := Z.of_nat (List.length (s_rules s)) in k < 0 ->
  (- n <= a < 0 -> getitem_slice G (Some a) b (Some k) s = getitem_slice G (Some (n + a)) b (Some k) s) /\
  (n <= a -> getitem_slice G (Some a) b (Some k) s = getitem_slice G None b (Some k) s) /\
  (- n <= a < 0 -> getitem_slice G b (Some a) (Some k) s = getitem_slice G b (Some (n + a)) (Some k) s) /\
  (a < - n -> getitem_slice G b (Some a) (Some k) s = getitem_slice G b None (Some k) s).
Proof. exact slice_negative_down. Qed.
Print Assumptions C116_outside_down.

Example C116_outside_down_ex : getitem_slice quiet (Some (-1)) (Some (-9)) (Some (-1)) trio = getitem_slice quiet (Some 2) None (Some (-1)) trio.
Proof.
  destruct (C116_outside_down quiet (-1) (Some (-9)) (-1) trio ltac:(lia)) as (A & _). rewrite A by (cbn; lia).
  destruct (C116_outside_down quiet (-9) (Some 2) (-1) trio ltac:(lia)) as (_ & _ & _ & B). apply B. cbn. lia.
Qed.

Theorem C116_item : forall i s,
  let n := Z.of_nat (List.length (s_rules s)) in
  (0 <= i < n -> exists r, getitem_int i s = Ok r /\ nth_error (s_rules s) (Z.to_nat i) = Some r) /\
  (- n <= i < 0 -> getitem_int i s = getitem_int (n + i) s) /\
  (i < - n \/ n <= i -> getitem_int i s = Err EIndex).
Proof. exact item_ok. Qed.
Print Assumptions C116_item.

Example C116_item_ex : getitem_int (-1) trio = Ok (number_voter "c" (-1) [0; 0; 0; 1]) /\ getitem_int 3 trio = Err EIndex.
Proof. split; [reflexivity|]. apply C116_item. right. cbn. lia. Qed.

(** ** C117 *)

Theorem C117_calc_activation : forall G xs s s',
  set_calc_activation G xs s = (Ok tt, s') -> nrows xs <> 0%nat ->
  Forall2 (fun r r' => exists v, working r (Some xs) v /\ working r' None v) (s_rules s) (s_rules s').
Proof. exact set_calc_vectors. Qed.
Print Assumptions C117_calc_activation.

Example C117_calc_activation_ex : exists s', set_calc_activation quiet rows4 both = (Ok tt, s') /\
  map (fun r => match r_act r with Some a => v_bits a | None => [] end) (s_rules s') = [[1; 0; 0; 1]; [0; 0; 1; 0]] /\
  set_vector s' = Ok (Some [1; 0; 1; 1]).
Proof. eexists. split; [vm_compute; reflexivity|]. split; vm_compute; reflexivity. Qed.

Theorem C117_nothing_to_calculate : forall G xs s,
  (s_rules s = [] -> set_calc_activation G xs s = (Err EValue, s)) /\
  (s_rules s <> [] -> nrows xs = 0%nat -> set_calc_activation G xs s = (Ok tt, s)).
Proof. exact set_calc_cases. Qed.
Print Assumptions C117_nothing_to_calculate.

Example C117_nothing_to_calculate_ex : set_calc_activation quiet (TArray 1 []) both = (Ok tt, both).
Proof. apply C117_nothing_to_calculate; [discriminate|reflexivity]. Qed.

Theorem C117_evaluate : forall xs s n,
  s_rules s <> [] ->
  (forall r, In r (s_rules s) -> exists v, working r (Some xs) v /\ bits v /\ List.length v = n) ->
  exists a w, set_evaluate xs s = Ok a /\ raw a = Ok w /\ bits w /\ covers_on xs (s_rules s) w.
Proof. exact set_evaluate_ok. Qed.
Print Assumptions C117_evaluate.

Example C117_evaluate_ex : exists a, set_evaluate rows4 both = Ok a /\ raw a = Ok [1; 0; 1; 1] /\ covers_on rows4 (s_rules both) [1; 0; 1; 1].
Proof.
  destruct (C117_evaluate rows4 both 4) as (a & w & A & W & _ & C).
  - discriminate.
  - replace (s_rules both) with [bounded "b" 1 3 [0; 1]; bounded "a" 4 6 [1; 1]] by (vm_compute; reflexivity).
    intros r [<-|[<-|[]]]; eexists; (split; [eexists; split; [reflexivity|vm_compute; reflexivity]|]); (split; [bit_by_bit|reflexivity]).
  - exists a. split; auto. vm_compute in A. injection A as <-. cbn in W. injection W as <-. split; auto.
Qed.

Theorem C117_evaluate_nothing : forall xs s,
  s_rules s = [] -> set_evaluate xs s = Err EValue.
Proof. exact set_evaluate_empty. Qed.
Print Assumptions C117_evaluate_nothing.

Example C117_evaluate_nothing_ex : set_evaluate rows4 (empty_set false) = Err EValue.
Proof. apply C117_evaluate_nothing. reflexivity. Qed.

(** ** C118 *)

Theorem C118_deletions : forall s,
  (forall r, In r (s_rules (del_activations s)) -> forall v, ~ working r None v) /\
  map r_cond (s_rules (del_activations s)) = map r_cond (s_rules s) /\ same_but_rules s (del_activations s) /\
  set_available (del_set_activation s) = false /\ s_rules (del_set_activation s) = s_rules s /\
  s_stacked (del_set_activation s) = s_stacked s /\
  (forall w, w <> [] -> set_vector (del_set_activation s) <> Ok (Some w)) /\
  s_stacked (del_stacked_activations s) = None /\ s_rules (del_stacked_activations s) = s_rules s /\
  s_act (del_stacked_activations s) = s_act s.
Proof. exact deletions. Qed.
Print Assumptions C118_deletions.

Example C118_deletions_ex : set_available trio = true /\ set_available (del_set_activation trio) = false /\
  forall r v, In r (s_rules (del_activations trio)) -> ~ working r None v.
Proof.
  destruct (C118_deletions trio) as (A & _ & _ & B & _). split; [reflexivity|]. split; [exact B|]. intros r v R. apply A. exact R.
Qed.

(** ** C119 *)

Theorem C119_mean : forall G l stacking s xs bs n columns,
  g_indexes G = [] -> new_set G (Some (map ERule l)) true stacking = Ok s -> l <> [] ->
  (forall r, In r l -> r_kind r = KRegression) -> vectors (g_env G) xs l n columns -> predicts_numbers l ->
  collected (casts_one regression_number xs) l bs -> rows n bs -> starts_well bs ->
  exists nums, fst (set_predict G xs None s) = Ok (Numbers nums) /\
    each_row n NaN nums (fun i x => (List.length (at_row i bs) < 256)%nat -> sum_counts i bs -> is_mean i bs x).
Proof. exact set_predict_mean. Qed.
Print Assumptions C119_mean.

Example C119_mean_ex : exists nums, fst (set_predict stacking None None (set_of_rules stacking true three)) = Ok (Numbers nums) /\
  Forall2 same_num nums [Fin 3; Fin 2; NaN; Fin (3 # 2)].
Proof.
  assert (B : new_set stacking (Some (map ERule three)) true true = Ok (set_of_rules stacking true three)) by (vm_compute; reflexivity).
  destruct three_stacks as (columns & V & _).
  destruct (C119_mean stacking three true _ None three_ballots 4 columns eq_refl B) as (l & L & _).
  - discriminate.
  - intros r [<-|[<-|[<-|[]]]]; reflexivity.
  - exact V.
  - exact three_numbers.
  - exact three_one.
  - exact three_rows.
  - exact three_start.
  - exists l. split; [exact L|]. vm_compute in L. injection L as <-. repeat constructor; reflexivity.
Qed.

Theorem C119_weighted : forall G l stacking s xs ws bs n columns,
  g_indexes G = [] -> new_set G (Some (map ERule l)) true stacking = Ok s -> l <> [] ->
  (forall r, In r l -> r_kind r = KRegression) -> vectors (g_env G) xs l n columns -> predicts_numbers l -> NoDup (map fst ws) ->
  collected (casts (g_env G) ws regression_number xs) l bs -> rows n bs -> starts_well bs -> somebody n bs ->
  exists nums, fst (set_predict G xs (Some (WSeries ws)) s) = Ok (Numbers nums) /\
    each_row n NaN nums (fun i x => weighs i bs -> sum_counts i bs -> is_mean i bs x).
Proof. exact set_predict_weighted. Qed.
Print Assumptions C119_weighted.

Example C119_weighted_ex : exists nums nums', fst (set_predict stacking None (Some (WSeries some_weights)) (set_of_rules stacking true three)) = Ok (Numbers nums) /\
  fst (set_predict quiet None (Some (WSeries some_weights)) trio) = Ok (Numbers nums') /\
  Forall2 same_num nums [Fin (26 # 7); Fin 2; NaN; Fin 4] /\ Forall2 same_num nums' [Fin (26 # 7); Fin 2; NaN; Fin 4].
Proof. eexists _, _. split; [vm_compute; reflexivity|]. split; [vm_compute; reflexivity|]. split; repeat constructor; reflexivity. Qed.

Example C119_weighted_ex2 : exists nums, fst (set_predict stacking None (Some (WSeries some_weights)) (set_of_rules stacking true three)) = Ok (Numbers nums).
Proof.
  assert (B : new_set stacking (Some (map ERule three)) true true = Ok (set_of_rules stacking true three)) by (vm_compute; reflexivity).
  destruct three_stacks as (columns & V & _).
  destruct (C119_weighted stacking three true _ None some_weights weighted_ballots 4 columns eq_refl B) as (l & L & _).
  - discriminate.
  - intros r [<-|[<-|[<-|[]]]]; reflexivity.
  - exact V.
  - exact three_numbers.
  - distinct.
  - exact three_weighted.
  - intros b [<-|[<-|[]]]; reflexivity.
  - right. eexists. eexists. split; [reflexivity|]. discriminate.
  - eexists _, 0%nat. split; [left; reflexivity|]. split; [lia|]. reflexivity.
  - exists l. exact L.
Qed.

(** ** C120 *)

Theorem C120_slice_forgets_refuted : exists G s s', made G false s /\ s_stack s = true /\ getitem_slice G None None None s = Ok s' /\
  s_rules s' = s_rules s /\ s_stack s' = false /\ s_stacked s' = None.
Proof. exact slice_forgets. Qed.
Print Assumptions C120_slice_forgets_refuted.

(** ** C121 *)

Theorem C121_no_order_refuted : exists G s s', quotes (g_quote G) /\ made G false s /\ (forall r, In r (s_rules s) -> usable r) /\
  set_sort G None false s = (Err EKey, s').
Proof. exact no_order. Qed.
Print Assumptions C121_no_order_refuted.
