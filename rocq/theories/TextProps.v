(** Properties C166 to C174: what is printed, and the accessors of a ruleset. *)
From Coq Require Import List ZArith QArith Bool String Ascii Lia.
From Coq Require Import List.
From Verif Require Import Base Num Arith CondModel CondSpec CondMore CondProofs CondWit ThrModel MetModel MetWit RuleModel RuleSpec RuleWit
  PredModel PredSpec PredName PredWit SetModel SetSpec SetWit FitModel FitSpec FitWit TextModel TextSpec TextProofs TextMisc TextWit.
Import ListNotations.
Open Scope string_scope.
Open Scope list_scope.
Open Scope Z_scope.

(** ** C166 *)

Theorem C166_condition : forall repr c fs,
  lists c fs -> fs <> [] -> cond_str repr c = Ok (String.concat " AND " (map (printed repr) fs)).
Proof. exact condition_text. Qed.
Print Assumptions C166_condition.

Example C166_condition_ex : lists (raw_cond [side "a" 0 2 5; side "b" 1 2 5]) [side "a" 0 2 5; side "b" 1 2 5] /\
  cond_str plain (raw_cond [side "a" 0 2 5; side "b" 1 2 5]) = Ok "a in [+11/1, +11111/1] AND b in [+11/1, +11111/1]".
Proof. split; [repeat split|reflexivity]. Qed.

Theorem C166_conditions : forall repr c c' fs gs,
  legible repr -> lists c fs -> lists c' gs -> fs <> [] -> gs <> [] -> (forall f, In f (fs ++ gs) -> without "[" (f_name f)) ->
  (cond_str repr c = cond_str repr c' <-> Forall2 same_bounds fs gs).
Proof. exact condition_texts. Qed.
Print Assumptions C166_conditions.

Example C166_conditions_ex : legible plain /\ lists (raw_cond [side "a in" 0 2 5]) [side "a in" 0 2 5] /\
  (forall f, In f ([side "a in" 0 2 5] ++ [side "a in" 7 2 5]) -> without "[" (f_name f)) /\
  Forall2 same_bounds [side "a in" 0 2 5] [side "a in" 7 2 5] /\ ~ Forall2 same_bounds [side "a in" 0 2 5] [side "a in" 0 2 6] /\
  cond_str plain (raw_cond [side "a in" 0 2 5]) = Ok "a in in [+11/1, +11111/1]".
Proof.
  split; [exact plain_legible|]. split; [repeat split|]. split.
  - intros f [<-|[<-|[]]]; apply lacks_without; cbn; repeat split; discriminate.
  - split; [repeat constructor|]. split; [|reflexivity]. intros K. inversion K as [|a b l m (_ & _ & X) _]; subst. discriminate X.
Qed.

(** ** C167 *)

Theorem C167_rule : forall E show r t,
  spelled E show r t -> rule_str E show r = Ok t.
Proof. exact rule_text. Qed.
Print Assumptions C167_rule.

Example C167_rule_ex : Forall2 (spelled plain_world say) rows rows_text /\ rule_str plain_world say (told "a" 1) = Ok "If a in [+11/1, +11111/1] Then +1/1.".
Proof. split; [exact rows_spelled|reflexivity]. Qed.

Theorem C167_rules : forall E show r r' c c' fs gs p q,
  legible (e_repr E) -> r_cond r = Some c -> r_cond r' = Some c' -> lists c fs -> lists c' gs -> fs <> [] -> gs <> [] ->
  (forall f, In f (fs ++ gs) -> without "[" (f_name f)) -> said show r p -> said show r' q ->
  (rule_str E show r = rule_str E show r' <-> Forall2 same_bounds fs gs /\ p = q).
Proof. exact rule_texts. Qed.
Print Assumptions C167_rules.

Example C167_rules_ex : legible (e_repr plain_world) /\ said say (told "a" 1) "+1/1" /\ said say (on KRegression "a" 0) "<prediction unset>" /\
  rule_str plain_world say (told "a" 1) <> rule_str plain_world say (on KRegression "a" 0) /\
  (forall f, In f ([side "a" 0 2 5] ++ [side "a" 0 2 5]) -> without "[" (f_name f)).
Proof.
  split; [exact plain_legible|]. split; [apply (said_set say (told "a" 1) (number (numz 1))); [reflexivity|discriminate]|].
  split; [apply said_unset; reflexivity|]. split; [discriminate|].
  intros f [<-|[<-|[]]]; apply lacks_without; cbn; repeat split; discriminate.
Qed.

Theorem C167_empty : forall E show r r' t,
  r_cond r = None -> r_cond r' <> None -> rule_str E show r' = Ok t -> rule_str E show r <> Ok t.
Proof. exact empty_rule_text. Qed.
Print Assumptions C167_empty.

Example C167_empty_ex : rule_str plain_world say (nth 3 rows (told "a" 1)) = Ok "empty rule" /\ r_cond (told "a" 1) <> None.
Proof. split; [reflexivity|discriminate]. Qed.

(** ** C168 *)

Theorem C168_class_refuted : exists G H y xs kw s s1 s2 r1 r2 p x,
  g_stacked G = false /\ g_stacked H = true /\ g_env G = g_env H /\
  set_fit G y false xs false kw s = (Ok [], s1) /\ set_fit H y false xs false kw s = (Ok [], s2) /\
  s_rules s1 = [r1] /\ s_rules s2 = [r2] /\ r_cond r1 = r_cond r2 /\
  getattr r1 "prediction" = Ok (number x) /\ getattr r2 "prediction" = Ok (number x) /\
  forall show, show (OTable p) <> show (number x) -> rule_str (g_env G) show r1 <> rule_str (g_env H) show r2.
Proof. exact class_text_refuted. Qed.
Print Assumptions C168_class_refuted.

Theorem C168_plain_partial : forall E show r r',
  r_cond r = r_cond r' -> prediction r = prediction r' ->
  (forall p, slot "_prediction" r <> OTable p) -> (forall p, slot "_prediction" r' <> OTable p) -> rule_str E show r = rule_str E show r'.
Proof. exact plain_texts. Qed.
Print Assumptions C168_plain_partial.

Example C168_plain_partial_ex : prediction (told "a" 1) = Ok (number (numz 1)) /\ (forall p, slot "_prediction" (told "a" 1) <> OTable p) /\
  rule_str plain_world say (told "a" 1) = rule_str plain_world say (with_fitted (told "a" 1)).
Proof. split; [reflexivity|]. split; [discriminate|reflexivity]. Qed.

(** ** C169 *)

Theorem C169_set : forall E show k s texts,
  Forall2 (spelled E show) (s_rules s) texts ->
  let n := List.length (s_rules s) in
  ((n < 2 * k)%nat -> set_str E show (Z.of_nat k) s = Ok (lines texts)) /\
  ((2 * k <= n)%nat -> set_str E show (Z.of_nat k) s = Ok (lines (firstn k texts ++ ["..."] ++ skipn (n - k) texts))).
Proof. exact set_text. Qed.
Print Assumptions C169_set.

Example C169_set_ex : Forall2 (spelled plain_world say) (s_rules row_set) rows_text /\
  set_str plain_world say 3 row_set = Ok (lines rows_text) /\
  set_str plain_world say 2 row_set = Ok (lines ["If a in [+11/1, +11111/1] Then +1/1."; "If b in [+11/1, +11111/1] Then <prediction unset>.";
    "..."; "empty rule"; "If e in [+11/1, +11111/1] Then +11/1."]).
Proof. split; [exact rows_spelled|]. split; vm_compute; reflexivity. Qed.

Theorem C169_none : forall E show z s,
  z <= 0 -> set_str E show z s = Ok "...".
Proof. exact set_text_none. Qed.
Print Assumptions C169_none.

Example C169_none_ex : set_str plain_world say (-1) row_set = Ok "..." /\ set_str plain_world say 1 (empty_set false) = Ok "".
Proof. split; reflexivity. Qed.

Theorem C169_raises : forall E show k s,
  let n := List.length (s_rules s) in
  (forall i r, nth_error (s_rules s) i = Some r -> (i < k \/ n - k <= i \/ n < 2 * k)%nat -> exists t, rule_str E show r = Ok t) <->
  exists t, set_str E show (Z.of_nat k) s = Ok t.
Proof. exact set_text_fails. Qed.
Print Assumptions C169_raises.

(** A rule that cannot be printed, shown or not *)
Example C169_raises_ex :
  let r := mkRule KRegression (Some (mkCond (Some []) (Some []) (Some []) (Some []) false)) None None true None false false [] in
  let s := with_rules [told "a" 1; told "b" 1; r; told "c" 1; told "d" 1] (empty_set false) in
  rule_str plain_world say r = Err EIndex /\ set_str plain_world say 3 s = Err EIndex /\ exists t, set_str plain_world say 2 s = Ok t.
Proof. split; [reflexivity|]. split; [reflexivity|]. eexists. vm_compute. reflexivity. Qed.

(** ** C170 *)

Theorem C170_iteration : forall (s : ruleset),
  set_len s = Z.of_nat (List.length (set_iter s)) /\
  (forall i r, nth_error (set_iter s) i = Some r <-> getitem_int (Z.of_nat i) s = Ok r) /\
  (forall i, (i < List.length (set_iter s))%nat -> getitem_int (Z.of_nat i - set_len s) s = getitem_int (Z.of_nat i) s) /\
  forall z, set_len s <= z \/ z < - set_len s -> getitem_int z s = Err EIndex.
Proof. exact iteration. Qed.
Print Assumptions C170_iteration.

Example C170_iteration_ex : set_len row_set = 5 /\ getitem_int 4 row_set = Ok (told "e" 2) /\ getitem_int (-1) row_set = Ok (told "e" 2) /\
  getitem_int 5 row_set = Err EIndex /\ getitem_int (-6) row_set = Err EIndex.
Proof. repeat split. Qed.

(** ** C171 *)

Theorem C171_set : forall (k : kind) (s : ruleset),
  fst (set_rule_type (ARule k) s) = Ok tt /\
  rule_type (snd (set_rule_type (ARule k) s)) = Ok k /\ same_but_type s (snd (set_rule_type (ARule k) s)).
Proof. exact type_set. Qed.
Print Assumptions C171_set.

Example C171_set_ex : s_type (stock KRegression) = Some KRegression /\
  rule_type (snd (set_rule_type (ARule KClassification) (stock KRegression))) = Ok KClassification.
Proof. split; vm_compute; reflexivity. Qed.

Theorem C171_refused : forall (c : class) (s : ruleset),
  (forall k, c <> ARule k) -> set_rule_type c s = (Err EType, s).
Proof. exact type_refused. Qed.
Print Assumptions C171_refused.

Example C171_refused_ex : fst (set_rule_type AClass (stock KRegression)) = Err EType /\ fst (set_rule_type NoClass (stock KRegression)) = Err EType.
Proof. split; reflexivity. Qed.

Theorem C171_read : forall (s : ruleset),
  (rule_type s = Err EValue <-> s_type s = None) /\ forall k, rule_type s = Ok k <-> s_type s = Some k.
Proof. exact type_read. Qed.
Print Assumptions C171_read.

Example C171_read_ex : rule_type (empty_set false) = Err EValue /\ rule_type (stock KClassification) = Ok KClassification.
Proof. split; vm_compute; reflexivity. Qed.

(** ** C172 *)

Theorem C172_reads : forall (s : ruleset) (a : activation) (w : list bool),
  s_act s = Some a -> v_bits a = ActSpec.as_01 w ->
  set_delegated s "nones" = Ok (integer (ActSpec.n_ones w)) /\
  set_delegated s "length" = Ok (integer (ActSpec.size w)) /\
  (w <> [] -> v_coverage a = XNone ->
     set_delegated s "coverage" = Ok (number (Fin (ActSpec.fraction (ActSpec.n_ones w) (ActSpec.size w))))) /\
  (w <> [] -> set_delegated s "entropy" = Ok (integer (Z.of_nat (List.length (ActSpec.switches w)) + 2))) /\
  (w <> [] -> set_delegated s "rel_entropy" =
     Ok (number (Fin (ActSpec.fraction (Z.of_nat (List.length (ActSpec.switches w)) + 2) (ActSpec.size w))))) /\
  (v_here a = true -> set_delegated s "raw" = Ok (OInts (ActSpec.as_01 w)) /\
     set_delegated s "ones" = Ok (OInts (ActSpec.positions w))) /\
  (v_here a = false -> set_delegated s "raw" = Err EFileNotFound /\ set_delegated s "ones" = Err EFileNotFound).
Proof. exact set_reads. Qed.
Print Assumptions C172_reads.

Example C172_reads_ex : exists a, s_act trio = Some a /\ v_bits a = ActSpec.as_01 [true; true; false; true] /\ v_coverage a = XNone /\
  set_delegated trio "nones" = Ok (integer 3) /\ set_delegated trio "ones" = Ok (OInts [0; 1; 3]).
Proof. eexists. split; [vm_compute; reflexivity|]. split; [reflexivity|]. split; [reflexivity|]. split; vm_compute; reflexivity. Qed.

Theorem C172_none : forall (s : ruleset) (name : string),
  s_act s = None -> set_delegated s name = Err EAttr.
Proof. exact set_reads_none. Qed.
Print Assumptions C172_none.

Example C172_none_ex : s_act row_set = None /\ set_delegated row_set "coverage" = Err EAttr.
Proof. split; reflexivity. Qed.

Theorem C172_unknown : forall (s : ruleset) (name : string),
  ~ In name (map fst activation_attributes) -> set_delegated s name = Err EAttr.
Proof. exact set_reads_unknown. Qed.
Print Assumptions C172_unknown.

Example C172_unknown_ex : ~ In "prediction" (map fst activation_attributes) /\ set_delegated trio "prediction" = Err EAttr.
Proof. split; [cbn; intuition discriminate|vm_compute; reflexivity]. Qed.

Theorem C172_coverage : forall (s : ruleset),
  set_available s = true -> set_delegated s "coverage" = ruleset_coverage s.
Proof. exact set_coverage_reads. Qed.
Print Assumptions C172_coverage.

Example C172_coverage_ex : set_available trio = true /\ ruleset_coverage trio = Ok (number (Fin (3 # 4))).
Proof. split; vm_compute; reflexivity. Qed.

(** ** C173 *)

Theorem C173_stacked_refuted : exists G s t f,
  new_set G (Some (map ERule three)) false true = Ok s /\ s_stacked s = Some f /\ (0 < f_rows f)%nat /\ stacked_activations_available s = Err EAttr /\
  new_set G (Some (map ERule three)) true false = Ok t /\ s_stacked t = None /\ stacked_activations_available t = Ok true.
Proof. exact stacked_refuted. Qed.
Print Assumptions C173_stacked_refuted.

Theorem C173_said : forall (s : ruleset),
  (stacked_activations_available s = Err EAttr <-> s_act s = None) /\
  forall b, stacked_activations_available s = Ok b <-> exists a, s_act s = Some a /\ (b = true <-> v_bits a <> []).
Proof. exact stacked_said. Qed.
Print Assumptions C173_said.

Example C173_said_ex : stacked_activations_available row_set = Err EAttr /\ stacked_activations_available trio = Ok true.
Proof. split; vm_compute; reflexivity. Qed.

(** ** C174 *)

Theorem C174_sizes : forall (E : env) (rules : list rule) (y : target label) (ys : list label) (names : list string),
  y = YVector ys \/ y = YColumn ys -> Forall2 (called E) rules names ->
  exists l, test_sizes E rules y = Ok l /\
    forall s v, In (s, v) l <-> In s names /\ v = integer (Z.of_nat (List.length ys)).
Proof. exact sizes_told. Qed.
Print Assumptions C174_sizes.

Example C174_sizes_ex : called plain_world (told "a" 1) "a in [+11/1, +11111/1]" /\
  test_sizes plain_world [told "a" 1; told "b" 1; told "a" 2] (YVector [LNum NaN; LText "c"]) =
  Ok [("a in [+11/1, +11111/1]", integer 2); ("b in [+11/1, +11111/1]", integer 2)].
Proof.
  split; [|vm_compute; reflexivity].
  exists (raw_cond [side "a" 0 2 5]), [side "a" 0 2 5]. split; [reflexivity|]. split; [repeat split|]. split; [discriminate|reflexivity].
Qed.

