(** Model of ruleskit/utils/rule_utils.py: extract_rules_from_tree.

    Simplifications.  A fitted tree is its arrays, as scikit-learn stores them;
    of [value] only the first output is kept, which is the one that the function
    reads.  xmins, xmaxs, features_names and classes_names are lists or arrays
    (a pandas Series is indexed by its labels).  The number of nested calls that
    the interpreter accepts is an argument.  Lists are values, so copy.deepcopy
    is the identity. *)
From Coq Require Import List ZArith QArith Bool String Ascii.
From Coq Require Import List.
From Verif Require Import Base Num CondModel ThrModel MetModel RuleModel PredModel SetModel.
Import ListNotations.
Open Scope string_scope.
Open Scope list_scope.
Open Scope Z_scope.

(** [tree.tree_] *)
Record arrays := mkArrays {
  t_feature : list Z;
  t_threshold : list num;
  t_left : list Z;                (* children_left *)
  t_right : list Z;               (* children_right *)
  t_value : list (list num) }.    (* value[:, 0] *)

(** sklearn.tree._tree.TREE_UNDEFINED *)
Definition TREE_UNDEFINED : Z := -2.

(** The arguments, lines 16-25 *)
Record request := mkRequest {
  q_classifier : bool;                  (* the tree is a DecisionTreeClassifier *)
  q_features : nat;                     (* tree.n_features_ *)
  q_xmins : list num;
  q_xmaxs : list num;
  q_names : option (list string);       (* features_names *)
  q_classes : option (list label);      (* classes_names *)
  q_leaf : bool;                        (* get_leaf *)
  q_compute : bool;                     (* compute_activation *)
  q_stack : bool }.                     (* stack_activation *)

(** Lines 97-98 *)
Definition tree_names (q : request) : list string :=
  match q_names q with
  | Some names => names
  | None => map (fun i => ("X_" ++ show_int (Z.of_nat i))%string) (seq 0 (q_features q))
  end.

(** A condition on one feature, lines 105-110 and 156-161 *)
Definition one_feature (sett : settings) (q : request) (f : Z) (lo hi : num) : res cond :=
  rbind (py_index (tree_names q) f) (fun name => rebuild sett [f] [lo] [hi] [name]).

(** Lines 105-126 *)
Definition left_condition (sett : settings) (q : request) (condition : option cond) (f : Z) (threshold : num)
    : res cond :=
  rbind (py_index (q_xmins q) f) (fun xmin =>
  rbind (one_feature sett q f xmin threshold) (fun new =>
  match condition with
  | None => Ok new
  | Some c =>
      rbind (need (c_idx c)) (fun idx =>
      match index_of Z.eqb f idx with
      | None => band sett c new
      | Some place =>
          rbind (need (c_max c)) (fun maxs =>
          rbind (at_pos maxs place) (fun old =>
          Ok (mkCond (c_idx c) (c_min c) (Some (set_nth place (py_min threshold old) maxs)) (c_names c) (c_imp c))))
      end)
  end)).

(** Lines 156-178 *)
Definition right_condition (sett : settings) (q : request) (condition : option cond) (f : Z) (threshold : num)
    : res cond :=
  rbind (py_index (q_xmaxs q) f) (fun xmax =>
  rbind (one_feature sett q f threshold xmax) (fun new =>
  match condition with
  | None => Ok new
  | Some c =>
      rbind (need (c_idx c)) (fun idx =>
      match index_of Z.eqb f idx with
      | None => band sett c new
      | Some place =>
          rbind (need (c_min c)) (fun mins =>
          rbind (at_pos mins place) (fun old_min =>
          rbind (need (c_max c)) (fun maxs =>
          rbind (at_pos maxs place) (fun old_max =>
          Ok (mkCond (c_idx c) (Some (set_nth place (py_max threshold old_min) mins))
                     (Some (set_nth place (py_max xmax old_max) maxs)) (c_names c) (c_imp c))))))
      end)
  end)).

(** [enumerate(l)] *)
Definition enumerate {A} (l : list A) : list (nat * A) := combine (seq 0 (List.length l)) l.

(** Lines 133-138 (185-190, 201-206) *)
Definition class_pairs (classes : option (list label)) (values : list num) : res (list (label * num)) :=
  rseq (map (fun p => match classes with
                      | None => Ok (LNum (numz (Z.of_nat (fst p))), snd p)
                      | Some names => rmap (fun c => (c, snd p)) (at_pos names (fst p))
                      end) (enumerate values)).

(** Lines 131-141 (183-193, 199-210) *)
Definition node_rule (E : env) (q : request) (condition : option cond) (values : list num) : res rule :=
  let arg := match condition with Some c => CCond c | None => CNone end in
  if q_classifier q then
    rbind (new_rule E KClassification arg VNone) (fun r =>
    rmap (fun rows => put "_prediction" (OTable (PPairs rows)) r) (class_pairs (q_classes q) values))
  else
    rbind (new_rule E KRegression arg VNone) (fun r =>
    rmap (fun v => put "_prediction" (number v) r) (at_pos values O)).

(** [rules_list.append(new_rule)] *)
Definition append_to (G : setup) (r : rule) (s : ruleset) : res ruleset :=
  let (o, s) := append G (ERule r) true s in rmap (fun _ => s) o.

(** Lines 130-142 and 182-194 *)
Definition record_rule (G : setup) (q : request) (c : cond) (values : list num) (s : ruleset) : res ruleset :=
  rbind (node_rule (g_env G) q (Some c) values) (fun r => append_to G r s).

(** visitor, lines 100-213.  [limit] is the number of nested calls that are
    still possible. *)
Fixpoint visitor (limit : nat) (G : setup) (T : arrays) (q : request) (node : Z) (condition : option cond)
    (s : ruleset) : res ruleset :=
  match limit with
  | O => Err ERecursion
  | S limit =>
      let sett := e_sort (g_env G) in
      rbind (py_index (t_feature T) node) (fun f =>
      if negb (f =? TREE_UNDEFINED) then
        rbind (py_index (t_threshold T) node) (fun threshold =>
        rbind (left_condition sett q condition f threshold) (fun c =>
        rbind (if negb (q_leaf q)
               then rbind (py_index (t_value T) node) (fun values => record_rule G q c values s)
               else Ok s) (fun s =>
        rbind (py_index (t_left T) node) (fun child =>
        rbind (visitor limit G T q child (Some c) s) (fun s =>
        rbind (right_condition sett q condition f threshold) (fun c =>
        rbind (if negb (q_leaf q)
               then rbind (py_index (t_value T) node) (fun values => record_rule G q c values s)
               else Ok s) (fun s =>
        rbind (py_index (t_right T) node) (fun child =>
        visitor limit G T q child (Some c) s))))))))
      else if q_leaf q then
        rbind (py_index (t_value T) node) (fun values =>
        rbind (node_rule (g_env G) q condition values) (fun r => append_to G r s))
      else Ok s)
  end.

(** Lines 101-102 and 215-216 *)
Definition extract_rules_from_tree (limit : nat) (G : setup) (T : arrays) (q : request) : res ruleset :=
  match limit with
  | O => Err ERecursion
  | S _ =>
      rbind (new_set G None (q_compute q) (q_stack q)) (fun s => visitor limit G T q 0 None s)
  end.
