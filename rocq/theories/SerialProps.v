(** Properties of saving and loading rulesets, and of traverse. *)
From Coq Require Import List ZArith QArith Bool String Ascii Lia Relations.
From Coq Require Import List.
From Verif Require Import Base Num CondModel CondSpec CondWit ThrModel MetModel RuleModel RuleSpec PredModel SetModel SetSpec SetWit.
From Verif Require Import SerialModel SerialSpec SerialProofs SerialSave SerialLoad SerialMore SerialRow SerialTotal SerialWit.
Import ListNotations.
Open Scope string_scope.
Open Scope list_scope.
Open Scope Z_scope.

(** ** C52 *)

Theorem C52_rules : forall X G k s t fss size,
  lawful X -> known (e_sort (g_env G)) -> s_rules s <> [] -> s_type s = Some k ->
  Forall2 (storable X (e_sort (g_env G)) k) (s_rules s) fss -> as_size X (s_train s) size ->
  exists f s1 t', save X s = (Ok f, s1) /\ load X G (read_csv X f) t = (Ok tt, t') /\
    Forall2 (restored (g_env G) size size) (s_rules s) (s_rules t').
Proof. exact rules_back. Qed.
Print Assumptions C52_rules.

Example C52_rules_ex : exists f s1 t', save ink colours = (Ok f, s1) /\ load ink quiet (read_csv ink f) blank = (Ok tt, t') /\
  Forall2 (restored (g_env quiet) (integer 4) (integer 4)) (s_rules colours) (s_rules t').
Proof.
  apply (C52_rules ink quiet KClassification colours blank both (integer 4) ink_lawful quiet_sorts).
  - intros H; discriminate H.
  - reflexivity.
  - exact colours_storable.
  - exact four.
Qed.

Theorem C52_ruleset : forall X G k s t fss size f s1 t',
  lawful X -> known (e_sort (g_env G)) -> s_rules s <> [] -> s_type s = Some k ->
  Forall2 (storable X (e_sort (g_env G)) k) (s_rules s) fss -> as_size X (s_train s) size ->
  save X s = (Ok f, s1) -> load X G (read_csv X f) t = (Ok tt, t') ->
  s_train t' = size /\ s_type t' = Some k /\
  (forall n, In n (s_names t') <-> feature_name (s_rules s) n) /\ NoDup (s_names t') /\
  s_act t' = None /\ s_stack t' = s_stack t /\ s_compute t' = s_compute t /\
  s_stacked t' = (if s_stack t then None else s_stacked t).
Proof. exact ruleset_back. Qed.
Print Assumptions C52_ruleset.

Example C52_ruleset_ex : s_train (reloaded prices) = integer 4 /\ s_type (reloaded prices) = Some KRegression /\
  (forall n, In n (s_names (reloaded prices)) <-> feature_name (s_rules prices) n) /\ NoDup (s_names (reloaded prices)) /\
  s_act (reloaded prices) = None /\ s_stack (reloaded prices) = s_stack blank /\ s_compute (reloaded prices) = s_compute blank /\
  s_stacked (reloaded prices) = (if s_stack blank then None else s_stacked blank).
Proof.
  apply (C52_ruleset ink quiet KRegression prices blank both (integer 4) (filed prices) (snd (save ink prices)) (reloaded prices) ink_lawful quiet_sorts).
  - intros H; discriminate H.
  - reflexivity.
  - exact prices_storable.
  - exact four.
  - exact prices_saved.
  - exact prices_loaded.
Qed.

(** ** C60 *)

Theorem C60_traverse : forall (A : Type) (types : container -> bool) (o : nest A),
  clos_refl_trans _ (unwrap types) [o] (traverse types o) /\
  (forall x, In x (traverse types o) -> elementary types x) /\
  (forall l, clos_refl_trans _ (unwrap types) [o] l -> (forall x, In x l -> elementary types x) -> l = traverse types o).
Proof. exact traverse_spec. Qed.
Print Assumptions C60_traverse.

Example C60_traverse_ex : traverse tree_types nested = [Atom 1; Atom 2; Atom 3].
Proof.
  symmetry. apply (C60_traverse Z tree_types nested).
  - unfold nested.
    apply rt_trans with [Atom 1; Node CTuple [Atom 2; Node CRuleSet [Atom 3]]; Node CList []];
      [apply rt_step; apply (unwrap_one tree_types [] CList [Atom 1; Node CTuple [Atom 2; Node CRuleSet [Atom 3]]; Node CList []] [] eq_refl)|].
    apply rt_trans with [Atom 1; Atom 2; Node CRuleSet [Atom 3]; Node CList []];
      [apply rt_step; apply (unwrap_one tree_types [Atom 1] CTuple [Atom 2; Node CRuleSet [Atom 3]] [Node CList []] eq_refl)|].
    apply rt_trans with [Atom 1; Atom 2; Atom 3; Node CList []];
      [apply rt_step; apply (unwrap_one tree_types [Atom 1; Atom 2] CRuleSet [Atom 3] [Node CList []] eq_refl)|].
    apply rt_step. apply (unwrap_one tree_types [Atom 1; Atom 2; Atom 3] CList [] [] eq_refl).
  - intros x [<-|[<-|[<-|[]]]] c l E; discriminate E.
Qed.

(** ** C145 *)

Theorem C145_table : forall X k attributes s,
  s_rules s <> [] -> s_type s = Some k ->
  (forall r, In r (s_rules s) -> exists n, describable k r n) ->
  exists coverage rows last s', to_df X None attributes s = (Ok (mkSheet (conditions ++ statistics k) (rows ++ last)), s') /\
    List.length rows = List.length (s_rules s) /\ List.length (s_rules s') = List.length (s_rules s) /\
    (forall j r, nth_error (s_rules s) j = Some r ->
       exists n label cells r', describable k r n /\ label_of X j n r label /\ row_of X k r cells /\
         nth_error rows j = Some (label, cells) /\ nth_error (s_rules s') j = Some r' /\ renamed label r r') /\
    same_but_rules s s' /\ ruleset_coverage s = Ok coverage /\
    (if attributes then last_rows k coverage (s_criterion s) (s_train s) (s_train s) last else last = []).
Proof. exact table. Qed.
Print Assumptions C145_table.

Example C145_table_ex : exists coverage rows last s',
  to_df ink None true prices = (Ok (mkSheet (conditions ++ statistics KRegression) (rows ++ last)), s') /\ List.length rows = 2%nat /\
  last_rows KRegression coverage (number (Fin (1 # 2))) (integer 4) (integer 4) last.
Proof.
  destruct (C145_table ink KRegression true prices) as (co & rows & last & s' & E & L & _ & _ & _ & _ & LR).
  - intros H; discriminate H.
  - reflexivity.
  - exact prices_described.
  - exists co, rows, last, s'. split; [exact E|]. split; [exact L|exact LR].
Qed.

Theorem C145_again : forall X attributes s d s',
  to_df X None attributes s = (Ok d, s') -> to_df X None attributes s' = (Ok d, s').
Proof. exact again. Qed.
Print Assumptions C145_again.

Example C145_again_ex : exists d s', to_df ink None true prices = (Ok d, s') /\ to_df ink None true s' = (Ok d, s').
Proof.
  destruct (C145_table ink KRegression true prices) as (co & rows & last & s' & E & _).
  - intros H; discriminate H.
  - reflexivity.
  - exact prices_described.
  - eexists. eexists. split; [exact E|]. exact (C145_again ink true prices _ _ E).
Qed.

Theorem C145_empty : forall X attributes custom s,
  s_rules s = [] -> to_df X custom attributes s = (Ok (mkSheet [] []), s).
Proof. exact no_rules_table. Qed.
Print Assumptions C145_empty.

Example C145_empty_ex : to_df ink None true hollow = (Ok (mkSheet [] []), hollow).
Proof. apply C145_empty. reflexivity. Qed.

(** ** C146 *)

Theorem C146_texts_refuted : exists X G s s1 f t t', lawful X /\ save X s = (Ok f, s1) /\ load X G (read_csv X f) t = (Ok tt, t') /\
  Forall2 (restored (g_env G) (s_train s) (s_train s)) (s_rules s) (s_rules t') /\
  ruleset_coverage s = Ok (number (Fin (3 # 4))) /\ s_criterion s = number (Fin (1 # 2)) /\
  s_coverage t' = text "0.75" /\ s_criterion t' = text "0.5".
Proof. exact attributes_texts. Qed.
Print Assumptions C146_texts_refuted.

Theorem C146_missing_refuted : exists X G s s1 f t t', lawful X /\ save X s = (Ok f, s1) /\ load X G (read_csv X f) t = (Ok tt, t') /\
  s_rules s <> [] /\ ruleset_coverage s = Ok none /\ s_criterion s = none /\ s_coverage t' = nan /\ s_criterion t' = nan.
Proof. exact attributes_missing. Qed.
Print Assumptions C146_missing_refuted.

Theorem C146_texts : forall X G k s t fss size coverage f s1 t',
  lawful X -> known (e_sort (g_env G)) -> s_rules s <> [] -> s_type s = Some k ->
  Forall2 (storable X (e_sort (g_env G)) k) (s_rules s) fss -> as_size X (s_train s) size ->
  ruleset_coverage s = Ok coverage ->
  save X s = (Ok f, s1) -> load X G (read_csv X f) t = (Ok tt, t') ->
  as_text X coverage (s_coverage t') /\ as_text X (s_criterion s) (s_criterion t').
Proof. exact attributes_back. Qed.
Print Assumptions C146_texts.

Example C146_texts_ex : as_text ink (number (Fin (3 # 4))) (s_coverage (reloaded prices)) /\ as_text ink (number (Fin (1 # 2))) (s_criterion (reloaded prices)).
Proof.
  apply (C146_texts ink quiet KRegression prices blank both (integer 4) (number (Fin (3 # 4))) (filed prices) (snd (save ink prices)) (reloaded prices) ink_lawful quiet_sorts).
  - intros H; discriminate H.
  - reflexivity.
  - exact prices_storable.
  - exact four.
  - reflexivity.
  - exact prices_saved.
  - exact prices_loaded.
Qed.

(** ** C147 *)

Theorem C147_test_size_refuted : exists X G s s1 f t t', lawful X /\ save X s = (Ok f, s1) /\ load X G (read_csv X f) t = (Ok tt, t') /\
  s_train s = integer 4 /\ s_test s = integer 1 /\ s_test t' = integer 4.
Proof. exact test_size_lost. Qed.
Print Assumptions C147_test_size_refuted.

Theorem C147_train_size : forall X G k s t fss size f s1 t',
  lawful X -> known (e_sort (g_env G)) -> s_rules s <> [] -> s_type s = Some k ->
  Forall2 (storable X (e_sort (g_env G)) k) (s_rules s) fss -> as_size X (s_train s) size ->
  save X s = (Ok f, s1) -> load X G (read_csv X f) t = (Ok tt, t') -> s_test t' = size.
Proof. exact test_size_back. Qed.
Print Assumptions C147_train_size.

Example C147_train_size_ex : s_test (reloaded prices) = integer 4.
Proof.
  apply (C147_train_size ink quiet KRegression prices blank both (integer 4) (filed prices) (snd (save ink prices)) (reloaded prices) ink_lawful quiet_sorts).
  - intros H; discriminate H.
  - reflexivity.
  - exact prices_storable.
  - exact four.
  - exact prices_saved.
  - exact prices_loaded.
Qed.

(** ** C148 *)

Theorem C148_names_refuted : exists X G s s1 f t t', lawful X /\ save X s = (Ok f, s1) /\ load X G (read_csv X f) t = (Ok tt, t') /\
  map (slot "_name") (s_rules s1) = [text "R_0(1)+"; text "R_1(1)+"] /\
  map (slot "_name") (s_rules t') = [text "Unnamed: 0"; text "Unnamed: 0"].
Proof. exact names_lost. Qed.
Print Assumptions C148_names_refuted.

Theorem C148_names : forall X G k s t fss size f s1 t',
  lawful X -> known (e_sort (g_env G)) -> s_rules s <> [] -> s_type s = Some k ->
  Forall2 (storable X (e_sort (g_env G)) k) (s_rules s) fss -> as_size X (s_train s) size ->
  save X s = (Ok f, s1) -> load X G (read_csv X f) t = (Ok tt, t') ->
  forall r, In r (s_rules t') -> slot "_name" r = text "Unnamed: 0".
Proof. exact names_back. Qed.
Print Assumptions C148_names.

Example C148_names_ex : forall r, In r (s_rules (reloaded prices)) -> slot "_name" r = text "Unnamed: 0".
Proof.
  apply (C148_names ink quiet KRegression prices blank both (integer 4) (filed prices) (snd (save ink prices)) (reloaded prices) ink_lawful quiet_sorts).
  - intros H; discriminate H.
  - reflexivity.
  - exact prices_storable.
  - exact four.
  - exact prices_saved.
  - exact prices_loaded.
Qed.

(** ** C149 *)

Theorem C149_infinite_bounds_refuted : exists X G s f s1 t t', lawful X /\ s_rules s <> [] /\
  (forall r, In r (s_rules s) -> getattr r "bmaxs" = Ok (ONums [PInf])) /\
  save X s = (Ok f, s1) /\ load X G (read_csv X f) t = (Err EValue, t').
Proof. exact infinite_bounds. Qed.
Print Assumptions C149_infinite_bounds_refuted.

Theorem C149_not_readable : forall X G k s t r a v e,
  lawful X -> s_rules s <> [] -> s_type s = Some k ->
  (forall r, In r (s_rules s) -> exists n, describable k r n) ->
  In r (s_rules s) -> (forall t, slot "_name" r = text t -> ~ In t labels) ->
  In a conditions -> getattr r a = Ok v -> x_missing X (x_str X v) = false -> x_number X (x_str X v) = None ->
  x_eval X (x_str X v) = Err e ->
  exists f s', save X s = (Ok f, s') /\ fst (load X G (read_csv X f) t) <> Ok tt.
Proof. exact not_readable. Qed.
Print Assumptions C149_not_readable.

Example C149_not_readable_ex : exists f s', save ink open_ended = (Ok f, s') /\ fst (load ink quiet (read_csv ink f) blank) <> Ok tt.
Proof. exact open_unreadable. Qed.

(** ** C150 *)

Theorem C150_class_changed_refuted : exists X G s f s1 t t', lawful X /\ save X s = (Ok f, s1) /\ load X G (read_csv X f) t = (Ok tt, t') /\
  map (fun r => getattr r "prediction") (s_rules s) = [Ok (text "1")] /\
  map (fun r => getattr r "prediction") (s_rules t') = [Ok (number (numz 1))].
Proof. exact class_changed. Qed.
Print Assumptions C150_class_changed_refuted.

Theorem C150_class_unreadable_refuted : exists X G s f s1 t t', lawful X /\ save X s = (Ok f, s1) /\ load X G (read_csv X f) t = (Err ESyntax, t') /\
  map (fun r => getattr r "prediction") (s_rules s) = [Ok (text "light red")].
Proof. exact class_unreadable. Qed.
Print Assumptions C150_class_unreadable_refuted.

(** ** C151 *)

Theorem C151_loads : forall X G w t t',
  NoDup (w_columns w) -> load X G w t = (Ok tt, t') ->
  exists l, rule_rows (w_rows w) l /\
    Forall2 (fun row r => reads_row X (g_env G) (combine (w_columns w) row) r /\
      slot "_train_set_size" r = s_train t' /\ slot "_test_set_size" r = s_test t') l (s_rules t') /\
    (forall r rest, s_rules t' = r :: rest -> s_type t' = Some (r_kind r)) /\
    (s_rules t' = [] -> s_type t' = s_type t) /\
    (exists v1 v2 v3 v4, row_value "ruleset coverage" (w_rows w) v1 /\ row_value "ruleset criterion" (w_rows w) v2 /\
      row_value "ruleset train set size" (w_rows w) v3 /\ row_value "ruleset test set size" (w_rows w) v4 /\
      value_kept v1 (s_coverage t) (s_coverage t') /\ value_kept v2 (s_criterion t) (s_criterion t') /\
      size_kept X v3 (s_train t) (s_train t') /\ size_kept X v4 (s_test t) (s_test t')) /\
    (forall n, In n (s_names t') <-> feature_name (s_rules t') n) /\ NoDup (s_names t') /\
    s_idx t' = s_idx t /\ s_stack t' = s_stack t /\ s_compute t' = s_compute t.
Proof. exact loads. Qed.
Print Assumptions C151_loads.

Example C151_loads_ex : exists l, rule_rows (w_rows (read_csv ink (filed colours))) l /\
  Forall2 (fun row r => reads_row ink (g_env quiet) (combine (w_columns (read_csv ink (filed colours))) row) r /\
      slot "_train_set_size" r = s_train (reloaded colours) /\ slot "_test_set_size" r = s_test (reloaded colours)) l (s_rules (reloaded colours)).
Proof.
  destruct (fun N => C151_loads ink quiet (read_csv ink (filed colours)) blank (reloaded colours) N colours_loaded) as (l & R & F & _).
  - change (w_columns (read_csv ink (filed colours))) with ("Unnamed: 0" :: conditions ++ statistics KClassification). apply index_nodup.
  - exists l. split; [exact R|exact F].
Qed.

Theorem C151_unknown_column : forall X G w t c,
  In c (w_columns w) -> c <> "Unnamed: 0" -> ~ In c (conditions ++ statistics KRegression) ->
  w_rows w <> [] -> (forall row, In row (w_rows w) -> plain_row row /\ List.length row = List.length (w_columns w)) ->
  fst (load X G w t) = Err EIndex.
Proof. exact unknown_column. Qed.
Print Assumptions C151_unknown_column.

Example C151_unknown_column_ex : fst (load ink quiet strange blank) = Err EIndex.
Proof.
  apply (C151_unknown_column ink quiet strange blank "colour").
  - right. right. left. reflexivity.
  - intros H; discriminate H.
  - intros H. repeat (destruct H as [H|H]; [discriminate H|]). destruct H.
  - intros H; discriminate H.
  - exact strange_rows.
Qed.

Theorem C158_readable : forall X G w t,
  NoDup (w_columns w) -> w_columns w <> [] ->
  (forall row, In row (w_rows w) -> ~ plain_row row -> (2 <= List.length row)%nat) ->
  (forall label t, In label ["ruleset train set size"; "ruleset test set size"] -> row_value label (w_rows w) (Some (text t)) ->
     exists z, x_int X t = Ok z) ->
  (forall row, In row (w_rows w) -> plain_row row -> readable X (g_env G) (combine (w_columns w) row)) ->
  exists t', load X G w t = (Ok tt, t').
Proof. exact load_total. Qed.
Print Assumptions C158_readable.

Example C158_readable_ex : exists t', load ink quiet terse blank = (Ok tt, t').
Proof.
  apply (C158_readable ink quiet terse blank).
  - cbn. repeat (constructor; [intros H; repeat (destruct H as [H|H]; [discriminate H|]); destruct H|]). constructor.
  - intros H; discriminate H.
  - intros row [<-|[<-|[]]] _; cbn; lia.
  - intros label t I V. inversion V as [l1 v rest l2 E F|]; subst. assert (Q : t = "4").
    { destruct l1 as [|a [|b [|c l1]]]; cbn [app w_rows terse] in E.
      - injection E as <- _ _ _. destruct I as [I|[I|[]]]; discriminate I.
      - injection E as _ _ <- _ _. reflexivity.
      - discriminate E.
      - discriminate E. }
    subst t. exists 4. reflexivity.
  - exact terse_readable.
Qed.

(** ** C152 *)

Theorem C152_indexes_refuted : exists X G s s1 f t', lawful X /\ save X s = (Ok f, s1) /\ load X G (read_csv X f) blank = (Ok tt, t') /\
  s_idx s = [0; 1] /\ map (fun r => getattr r "features_indexes") (s_rules t') = [Ok (OInts [0]); Ok (OInts [1])] /\ s_idx t' = [].
Proof. exact indexes_lost. Qed.
Print Assumptions C152_indexes_refuted.

Theorem C152_indexes : forall X G k s t fss size f s1 t',
  lawful X -> known (e_sort (g_env G)) -> s_rules s <> [] -> s_type s = Some k ->
  Forall2 (storable X (e_sort (g_env G)) k) (s_rules s) fss -> as_size X (s_train s) size ->
  save X s = (Ok f, s1) -> load X G (read_csv X f) t = (Ok tt, t') -> s_idx t' = s_idx t.
Proof. exact indexes_back. Qed.
Print Assumptions C152_indexes.

Example C152_indexes_ex : s_idx (reloaded prices) = s_idx blank.
Proof.
  apply (C152_indexes ink quiet KRegression prices blank both (integer 4) (filed prices) (snd (save ink prices)) (reloaded prices) ink_lawful quiet_sorts).
  - intros H; discriminate H.
  - reflexivity.
  - exact prices_storable.
  - exact four.
  - exact prices_saved.
  - exact prices_loaded.
Qed.

(** ** C153 *)

Theorem C153_empty_refuted : exists X G s s1 f t', lawful X /\ save X s = (Ok f, s1) /\ load X G (read_csv X f) blank = (Ok tt, t') /\
  s_rules s = [] /\ s_train s = integer 4 /\ s_coverage s = number (Fin (3 # 4)) /\
  s_train t' = none /\ s_coverage t' = none.
Proof. exact empty_loses. Qed.
Print Assumptions C153_empty_refuted.

Theorem C153_empty : forall X G s t,
  s_rules s = [] ->
  exists f t', save X s = (Ok f, s) /\ f_lines f = [] /\ load X G (read_csv X f) t = (Ok tt, t') /\
    s_rules t' = [] /\ s_coverage t' = s_coverage t /\ s_criterion t' = s_criterion t /\
    s_train t' = s_train t /\ s_test t' = s_test t /\ s_type t' = s_type t /\ s_names t' = [] /\ s_idx t' = s_idx t.
Proof. exact empty_back. Qed.
Print Assumptions C153_empty.

Example C153_empty_ex : exists f t', save ink hollow = (Ok f, hollow) /\ f_lines f = [] /\ load ink quiet (read_csv ink f) prices = (Ok tt, t') /\
  s_rules t' = [] /\ s_coverage t' = number (Fin (3 # 4)).
Proof.
  destruct (C153_empty ink quiet hollow prices eq_refl) as (f & t' & A & B & C & D & E & _).
  exists f, t'. split; [exact A|]. split; [exact B|]. split; [exact C|]. split; [exact D|exact E].
Qed.

(** ** C154 *)

Theorem C154_custom_rows : forall X (custom : list string -> list (string * list obj)) k attributes s rows,
  s_rules s <> [] -> s_type s = Some k -> custom (conditions ++ statistics k) = rows ->
  (List.length rows <= List.length (s_rules s))%nat ->
  exists coverage last s', to_df X (Some custom) attributes s = (Ok (mkSheet (conditions ++ statistics k) (rows ++ last)), s') /\
    List.length (s_rules s') = List.length (s_rules s) /\
    (forall j r, nth_error (s_rules s) j = Some r -> exists r', nth_error (s_rules s') j = Some r' /\
       forall label cells, nth_error rows j = Some (label, cells) -> renamed label r r') /\
    (forall j r, nth_error (s_rules s) j = Some r -> nth_error rows j = None -> nth_error (s_rules s') j = Some r) /\
    same_but_rules s s' /\ ruleset_coverage s = Ok coverage /\
    (if attributes then last_rows k coverage (s_criterion s) (s_train s) (s_train s) last else last = []).
Proof. exact custom_rows. Qed.
Print Assumptions C154_custom_rows.

Example C154_custom_rows_ex : exists last s',
  to_df ink (Some two_rows) false prices = (Ok (mkSheet (conditions ++ statistics KRegression) (two_rows (conditions ++ statistics KRegression) ++ last)), s') /\
  last = [].
Proof.
  destruct (C154_custom_rows ink two_rows KRegression false prices (two_rows (conditions ++ statistics KRegression))) as (co & last & s' & E & _ & _ & _ & _ & _ & LR).
  - intros H; discriminate H.
  - reflexivity.
  - reflexivity.
  - vm_compute. lia.
  - exists last, s'. split; [exact E|exact LR].
Qed.

Theorem C154_too_many : forall X (custom : list string -> list (string * list obj)) k attributes s rows,
  s_rules s <> [] -> s_type s = Some k -> custom (conditions ++ statistics k) = rows ->
  (List.length (s_rules s) < List.length rows)%nat -> fst (to_df X (Some custom) attributes s) = Err EIndex.
Proof. exact custom_table. Qed.
Print Assumptions C154_too_many.

Example C154_too_many_ex : fst (to_df ink (Some two_rows) true open_ended) = Err EIndex.
Proof.
  apply (C154_too_many ink two_rows KRegression true open_ended (two_rows (conditions ++ statistics KRegression))).
  - intros H; discriminate H.
  - reflexivity.
  - reflexivity.
  - vm_compute. lia.
Qed.

