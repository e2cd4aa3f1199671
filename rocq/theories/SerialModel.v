(** Model of ruleskit/ruleset.py: saving and loading rulesets, and traverse.

    Simplifications.  What str, ast.literal_eval, int and pandas.read_csv make of
    a text are arguments; 1 and 1.0 are one number, so have one text here.  The
    objects with methods read and write (TransparentPath) and the keyword
    arguments of read_csv are left out: a file is its lines and their cells.
    read_csv gives a column of numbers exactly if each cell is missing or a
    number, otherwise a column of texts (columns of booleans are left out).  The
    names of the columns are different.  ast.literal_eval gives for the columns
    of a condition a list or None. *)
From Coq Require Import List ZArith QArith Bool String Ascii.
From Coq Require Import List.
From Verif Require Import Base Num CondModel ThrModel MetModel RuleModel PredModel SetModel.
Import ListNotations.
Open Scope string_scope.
Open Scope list_scope.
Open Scope Z_scope.

(** ** traverse, lines 1415-1428 *)

(** The types of containers *)
Inductive container := CList | CTuple | CRuleSet.

Inductive nest (A : Type) :=
| Atom (a : A)
| Node (c : container) (l : list (nest A)).
Arguments Atom {A} a.
Arguments Node {A} c l.

(** [types] tells the containers that are in tree_types; by default all are. *)
Fixpoint traverse {A} (types : container -> bool) (o : nest A) : list (nest A) :=
  match o with
  | Atom _ => [o]
  | Node c l => if types c then flat_map (traverse types) l else [o]
  end.

Definition tree_types (c : container) : bool := true.

(** The elements that are not containers *)
Fixpoint atoms {A} (l : list (nest A)) : list A :=
  match l with
  | [] => []
  | Atom a :: t => a :: atoms t
  | Node _ _ :: t => atoms t
  end.

(** ** Texts *)

Record texts := mkTexts {
  x_str : obj -> string;               (* str *)
  x_eval : string -> res obj;          (* ast.literal_eval *)
  x_int : string -> res Z;             (* int *)
  x_number : string -> option num;     (* a number, for read_csv *)
  x_missing : string -> bool }.        (* a missing value, for read_csv *)

(** ** Writing *)

(** A DataFrame: the names of its columns, and its rows with their labels *)
Record sheet := mkSheet {
  d_columns : list string;
  d_rows : list (string * list obj) }.

(** The label of the row of a rule, lines 993-998 *)
Definition rule_name (X : texts) (i : nat) (r : rule) : res string :=
  match slot "_name" r with
  | OVal XNone =>
      rbind (hasattr r "sign") (fun signed =>
      rbind (rule_len r) (fun n =>
      let name := ("R_" ++ show_int (Z.of_nat i) ++ "(" ++ show_int (Z.of_nat n) ++ ")")%string in
      if signed then rbind (getattr r "sign") (fun v => Ok (name ++ x_str X v)%string) else Ok name))
  | OVal (XText t) => Ok t
  | v => Ok (x_str X v)
  end.

(** rule_to_series, lines 990-1001 *)
Definition rule_to_series (X : texts) (i : nat) (r : rule) (idx : list string) : res (string * list obj) :=
  rbind (rule_name X i r) (fun name =>
  rbind (rseq (map (getattr r) idx)) (fun values =>
  Ok (name, map (fun v => text (x_str X v)) values))).

(** Lines 955-957: [self._rules[i]._name = df.index[i]] *)
Fixpoint rename (labels : list string) (rules : list rule) : res (list rule) :=
  match labels, rules with
  | [], _ => Ok rules
  | _ :: _, [] => Err EIndex
  | n :: labels', r :: rules' => rmap (cons (put "_name" (text n) r)) (rename labels' rules')
  end.

(** The rows of lines 962-979: the value, and NaN in the other columns *)
Definition extra (label : string) (v : obj) (columns : list string) : string * list obj :=
  (label, map (fun i => if (i =? 0)%nat then v else nan) (seq 0 (List.length columns))).

(** to_df, lines 931-979.  [custom] is custom_rules_to_series, which gives series
    with the given index. *)
Definition to_df (X : texts) (custom : option (list string -> list (string * list obj))) (attributes : bool)
    (s : ruleset) : res sheet * ruleset :=
  match s_rules s with
  | [] => (Ok (mkSheet [] []), s)
  | rules =>
      match s_type s with
      | None => (Err EAttr, s)
      | Some k =>
          let idx := index k in
          use match custom with
              | None => rseq (map (fun p => rule_to_series X (fst p) (snd p) idx)
                                  (combine (seq 0 (List.length rules)) rules))
              | Some f => Ok (f idx)
              end (fun rows s =>
          use (rename (map fst rows) rules) (fun rules s =>
          let s := with_rules rules s in
          if negb attributes then (Ok (mkSheet idx rows), s)
          else use (ruleset_coverage s) (fun coverage s =>
               (Ok (mkSheet idx (rows ++
                      [extra "ruleset coverage" coverage idx;
                       extra "ruleset criterion" (s_criterion s) idx;
                       extra "ruleset train set size" (s_train s) idx;
                       extra "ruleset test set size" (s_train s) idx])), s)) s) s) s
      end
  end.

(** DataFrame.to_csv *)
Definition csv_cell (X : texts) (v : obj) : string :=
  match v with
  | OVal XNone | OVal (XNum NaN) => ""
  | OVal (XText t) => t
  | _ => x_str X v
  end.

(** A file: the header and the lines *)
Record csv := mkCsv {
  f_header : list string;
  f_lines : list (list string) }.

Definition to_csv (X : texts) (d : sheet) : csv :=
  mkCsv ("" :: d_columns d) (map (fun p => fst p :: map (csv_cell X) (snd p)) (d_rows d)).

(** save, lines 981-987 *)
Definition save (X : texts) (s : ruleset) : res csv * ruleset :=
  let (d, s) := to_df X None true s in (rmap (to_csv X) d, s).

(** ** Reading *)

(** pandas.read_csv *)
Definition numeric (X : texts) (lines : list (list string)) (j : nat) : bool :=
  forallb (fun line => let t := nth j line "" in
                       x_missing X t || match x_number X t with Some _ => true | None => false end) lines.

Definition read_cell (X : texts) (numbers : bool) (t : string) : obj :=
  if x_missing X t then nan
  else if numbers then match x_number X t with Some x => number x | None => text t end
  else text t.

Definition read_line (X : texts) (lines : list (list string)) (line : list string) : list obj :=
  map (fun p => read_cell X (numeric X lines (fst p)) (snd p)) (combine (seq 0 (List.length line)) line).

Definition header (n : string) : string := if str_eqb n "" then "Unnamed: 0" else n.

Record rows := mkRows {
  w_columns : list string;
  w_rows : list (list obj) }.

Definition read_csv (X : texts) (f : csv) : rows :=
  mkRows (map header (f_header f)) (map (read_line X (f_lines f)) (f_lines f)).

(** An argument of HyperrectangleCondition *)
Definition items (v : obj) : res (option (list item)) :=
  match v with
  | OInts l => Ok (Some (map AInt l))
  | ONums l => Ok (Some (map AFloat l))
  | OTexts l => Ok (Some (map AStr l))
  | OVal XNone => Ok None
  | _ => Err EType
  end.

Definition condition_index : list string := ["features_names"; "features_indexes"; "bmins"; "bmaxs"].

(** The class attribute rule_index, rule.py 53, 575 and 724 *)
Definition rule_index (k : kind) : list string :=
  "prediction" ::
  match k with
  | KRule => []
  | KRegression => ["coverage"; "zscore"; "criterion"; "std"]
  | KClassification => ["coverage"; "criterion"]
  end.

(** Lines 1003-1047 *)
Definition valid_column (n : string) : bool :=
  str_eqb n "Unnamed: 0" || mem str_eqb n (index KRule) || mem str_eqb n (index KRegression) ||
  mem str_eqb n (index KClassification).

Definition kind_of_columns (columns : list string) : kind :=
  if mem str_eqb "std" columns then KRegression
  else if mem str_eqb "criterion" columns then KClassification
  else KRule.

(** One column, lines 1022-1042; the branches for "activation" and "sign" are for
    names that are not in any rule_index. *)
Definition read_attribute (X : texts) (name t : string) (state : list (string * obj) * rule)
    : res (list (string * obj) * rule) :=
  let (conds, r) := state in
  if mem str_eqb name condition_index then rmap (fun v => (dset name v conds, r)) (x_eval X t)
  else if mem str_eqb name (rule_index (r_kind r)) then
    rmap (fun v => (conds, put ("_" ++ name)%string v r))
      (if str_eqb t "nan" then Ok nan
       else if str_eqb name "prediction" then
         match x_eval X t with
         | Err EValue => Ok (text t)
         | v => v
         end
       else x_eval X t)
  else Ok (conds, r).

Fixpoint read_attributes (X : texts) (srule : list (string * obj)) (state : list (string * obj) * rule)
    : res (list (string * obj) * rule) :=
  match srule with
  | [] => Ok state
  | (name, v) :: rest => rbind (read_attribute X name (x_str X v) state) (read_attributes X rest)
  end.

Definition argument (name : string) (conds : list (string * obj)) : res (option (list item)) :=
  match dget name conds with Some v => items v | None => Ok None end.

Definition with_cond (c : cond) (r : rule) : rule :=
  mkRule (r_kind r) (Some c) (r_act r) (r_thr r) (r_good r) (r_bad r) (r_fitted r) (r_evaluated r) (r_dict r).

Definition series_to_rule (X : texts) (E : env) (srule : list (string * obj)) : res rule :=
  let columns := map fst srule in
  if negb (forallb valid_column columns) then Err EIndex
  else
    rbind (new_rule E (kind_of_columns columns) CNone VNone) (fun r =>
    match columns with
    | [] => Err EIndex
    | first :: _ =>
        rbind (read_attributes X srule ([], put "_name" (text first) r)) (fun state =>
        let (conds, r) := state in
        rbind (argument "features_indexes" conds) (fun idx =>
        rbind (argument "bmins" conds) (fun mins =>
        rbind (argument "bmaxs" conds) (fun maxs =>
        rbind (argument "features_names" conds) (fun names =>
        rbind (build (e_sort E) idx mins maxs names false true) (fun c =>
        let r := with_cond c r in
        match getattr r "prediction" with
        | Ok (OVal XNone) | Err EAttr => Ok r
        | Ok _ => Ok (with_fitted r)
        | Err e => Err e
        end))))))
    end).

(** load, lines 889-929 *)

Definition labelled (label : string) (row : list obj) : bool :=
  match row with
  | OVal (XText t) :: _ => str_eqb t label
  | _ => false
  end.

(** [rules[rules.iloc[:, 0] == label].iloc[0, 1]] if there is one *)
Definition look (label : string) (rows : list (list obj)) : res (option obj) :=
  match find (labelled label) rows with
  | None => Ok None
  | Some row => match nth_error row 1 with Some v => Ok (Some v) | None => Err EIndex end
  end.

Definition drop (label : string) (rows : list (list obj)) : list (list obj) :=
  filter (fun row => negb (labelled label row)) rows.

Definition assigned (set : obj -> ruleset -> ruleset) (v : option obj) (s : ruleset) : ruleset :=
  match v with Some v => set v s | None => s end.

(** Lines 901-904 and 906-908 *)
Definition assign_size (X : texts) (set : obj -> ruleset -> ruleset) (v : option obj) (s : ruleset)
    : res unit * ruleset :=
  match v with
  | Some (OVal (XText t)) => use (x_int X t) (fun z s => done (set (integer z) s)) (set (text t) s)
  | _ => done (assigned set v s)
  end.

(** Lines 915-922 *)
Definition fill_size (X : texts) (name : string) (v : obj) (r : rule) : res rule :=
  match slot name r with
  | OVal XNone => Ok (put name v r)
  | OVal (XText t) => rmap (fun z => put name (integer z) r) (x_int X t)
  | _ => Ok r
  end.

Definition fill_sizes (X : texts) (s : ruleset) (r : rule) : res rule :=
  rbind (fill_size X "_train_set_size" (s_train s) r) (fill_size X "_test_set_size" (s_test s)).

(** Lines 894-909: what remains of the rows *)
Definition load_attributes (X : texts) (l : list (list obj)) (s : ruleset) : res (list (list obj)) * ruleset :=
  use (look "ruleset coverage" l) (fun v s =>
  let l := drop "ruleset coverage" l in
  use (look "ruleset criterion" l) (fun v s =>
  let l := drop "ruleset criterion" l in
  use (look "ruleset train set size" l) (fun v s =>
  let l := drop "ruleset train set size" l in
  chain (assign_size X with_train v s) (fun s =>
  use (look "ruleset test set size" l) (fun v s =>
  chain (assign_size X with_test v s) (fun s =>
  (Ok (drop "ruleset test set size" l), s))) s)) (assigned with_criterion v s)) (assigned with_coverage v s)) s.

(** Lines 910-922 *)
Definition load_rules (X : texts) (E : env) (columns : list string) (l : list (list obj)) (s : ruleset)
    : res unit * ruleset :=
  use (rseq (map (fun row => series_to_rule X E (combine columns row)) l)) (fun rules s =>
  use (rseq (map (fill_sizes X s) rules)) (fun rules s => done (with_rules rules s)) (with_rules rules s)) s.

(** Lines 924-929 *)
Definition load_rest (G : setup) (s : ruleset) : res unit * ruleset :=
  let s := match s_rules s with [] => s | r :: _ => with_type (Some (r_kind r)) s end in
  chain (compute_self_activation None s) (fun s =>
  chain (if s_stack s then compute_stacked_activation G None s else done s) (fun s =>
  use (rseq (map (fun r => rbind (rule_names r) need) (s_rules s))) (fun names s =>
  done (with_names (set_of str_eqb
    (atoms (traverse tree_types (Node CList (map (fun l => Node CList (map Atom l)) names))))) s)) s)).

Definition load (X : texts) (G : setup) (w : rows) (s : ruleset) : res unit * ruleset :=
  match w_columns w with
  | [] => (Err EIndex, s)
  | columns =>
      let (o, s) := load_attributes X (w_rows w) s in
      use o (fun l s => chain (load_rules X (g_env G) columns l s) (load_rest G)) s
  end.
