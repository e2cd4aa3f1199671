(** Concrete rulesets and files: witnesses against the properties that save and
    load do not have, and instances for the examples of SerialProps.v. *)
From Coq Require Import List ZArith QArith Bool String Ascii Lia Relations Sorted.
From Coq Require Import List.
From Verif Require Import Base Num CondModel CondSpec CondBase CondMore CondProofs CondWit ThrModel MetModel
  RuleModel RuleSpec RuleProofs RuleMisc RuleWit PredModel SetModel SetSpec SetBase SetWit FitWit
  SerialModel SerialSpec SerialProofs SerialSave SerialLoad SerialMore SerialRow.
Import ListNotations.
Open Scope string_scope.
Open Scope list_scope.
Open Scope Z_scope.

(** ** Texts as Python has them, for the values used here *)

Definition show_number (x : num) : string :=
  match x with
  | NaN => "nan"
  | PInf => "inf"
  | MInf => "-inf"
  | Fin q => if (Qden q =? 1)%positive then show_int (Qnum q)
             else if Qeq_bool q (3 # 4) then "0.75" else if Qeq_bool q (1 # 2) then "0.5" else "0.25"
  end.

Fixpoint joined (l : list string) : string :=
  match l with
  | [] => ""
  | [t] => t
  | t :: l => (t ++ ", " ++ joined l)%string
  end.

Definition bracketed (l : list string) : string := ("[" ++ joined l ++ "]")%string.

Definition show (v : obj) : string :=
  match v with
  | OVal XNone => "None"
  | OVal (XNum x) => show_number x
  | OVal (XInt z) => show_int z
  | OVal (XText t) => t
  | OInts l => bracketed (map show_int l)
  | ONums l => bracketed (map show_number l)
  | OTexts l => bracketed (map (fun t => "'" ++ t ++ "'")%string l)
  | _ => "<object>"
  end.

Definition literals : list (string * obj) :=
  [("['x']", OTexts ["x"]); ("['y']", OTexts ["y"]); ("[0]", OInts [0]); ("[1]", OInts [1]); ("[2]", OInts [2]); ("[5]", OInts [5]);
   ("0.75", number (Fin (3 # 4))); ("0.5", number (Fin (1 # 2))); ("0.25", number (Fin (1 # 4))); ("1", integer 1); ("4", integer 4);
   ("None", none)].

Definition evaluate_literal (t : string) : res obj :=
  if str_eqb t "light red" then Err ESyntax
  else match dget t literals with Some v => Ok v | None => Err EValue end.

Definition numbers : list (string * num) :=
  [("0.75", Fin (3 # 4)); ("0.5", Fin (1 # 2)); ("0.25", Fin (1 # 4)); ("1", numz 1); ("4", numz 4); ("inf", PInf)].

Definition ink : texts := mkTexts show evaluate_literal
  (fun t => if str_eqb t "4" then Ok 4 else Err EValue)
  (fun t => dget t numbers)
  (fun t => str_eqb t "" || str_eqb t "nan").

Lemma ink_lawful : lawful ink.
Proof.
  constructor; try reflexivity. intros t [<-|[<-|[<-|[<-|[]]]]]; split; reflexivity.
Qed.

(** ** Rulesets *)

Definition noted (k : kind) (s : string) (i : Z) (p : obj) : rule :=
  let r := put "_criterion" (number (Fin (3 # 4))) (put "_coverage" (number (Fin (1 # 4))) (put "_prediction" p (on k s i))) in
  match k with
  | KRegression => put "_sign" (text "+") (put "_std" (number (Fin (1 # 2))) (put "_zscore" nan r))
  | _ => r
  end.

Definition ledger (rules : list rule) (k : kind) : ruleset :=
  mkSet rules ["x"; "y"] [0; 1] None (number (Fin (3 # 4))) (number (Fin (1 # 2))) (integer 4) (integer 1) None false (Some k) true.

Definition prices : ruleset := ledger [noted KRegression "x" 0 (number (Fin (3 # 4))); noted KRegression "y" 1 (number (Fin (1 # 2)))] KRegression.
Definition colours : ruleset := ledger [noted KClassification "x" 0 (text "red"); noted KClassification "y" 1 (number (numz 1))] KClassification.

Definition blank : ruleset := empty_set true.

Lemma half a : survives ink a (number (Fin (1 # 2))).
Proof. apply literal; [vm_compute; reflexivity|vm_compute; reflexivity|intros x E; injection E as <-; reflexivity]. Qed.

Lemma most a : survives ink a (number (Fin (3 # 4))).
Proof. apply literal; [vm_compute; reflexivity|vm_compute; reflexivity|intros x E; injection E as <-; reflexivity]. Qed.

Lemma quarter a : survives ink a (number (Fin (1 # 4))).
Proof. apply literal; [vm_compute; reflexivity|vm_compute; reflexivity|intros x E; injection E as <-; reflexivity]. Qed.

Lemma noted_attributes k s i p : getattr (noted k s i p) "features_names" = Ok (OTexts [s]) /\
  getattr (noted k s i p) "features_indexes" = Ok (OInts [i]) /\
  getattr (noted k s i p) "bmins" = Ok (ONums [numz 2]) /\ getattr (noted k s i p) "bmaxs" = Ok (ONums [numz 5]).
Proof. destruct k; vm_compute; auto. Qed.

Lemma noted_statistics k s i p : k <> KRule ->
  getattr (noted k s i p) "coverage" = Ok (number (Fin (1 # 4))) /\ getattr (noted k s i p) "criterion" = Ok (number (Fin (3 # 4))) /\
  (k = KRegression -> getattr (noted k s i p) "zscore" = Ok nan /\ getattr (noted k s i p) "std" = Ok (number (Fin (1 # 2)))).
Proof. intros K. destruct k; [destruct (K eq_refl)| |]; vm_compute; auto. split; auto. split; auto. intros H. discriminate H. Qed.

Lemma texts_written s i : (s, i) = ("x", 0) \/ (s, i) = ("y", 1) ->
  written ink (OTexts [s]) (OTexts [s]) /\ written ink (OInts [i]) (OInts [i]).
Proof. intros [E|E]; injection E as -> ->; vm_compute; auto 10. Qed.

Lemma bounds_written : written ink (ONums [numz 2]) (OInts [2]) /\ written ink (ONums [numz 5]) (OInts [5]).
Proof. vm_compute. auto 10. Qed.

Lemma noted_storable k s i p : (s, i) = ("x", 0) \/ (s, i) = ("y", 1) -> k <> KRule ->
  survives ink "prediction" p -> getattr (noted k s i p) "prediction" = Ok p ->
  storable ink "index" k (noted k s i p) [side s i 2 5].
Proof.
  intros SI K S G. destruct (noted_attributes k s i p) as (A1 & A2 & A3 & A4). destruct (noted_statistics k s i p K) as (B1 & B2 & B3).
  destruct (texts_written s i SI) as (W1 & W2). destruct bounds_written as (W3 & W4).
  constructor.
  - destruct k; reflexivity.
  - exists (raw_cond [side s i 2 5]). split; [destruct k; reflexivity|]. apply raw_cond_ok. split; repeat constructor; cbn; tauto.
  - apply CondSpec.by_index; [reflexivity|]. repeat constructor.
  - exact A1.
  - exact A2.
  - exact A3.
  - exact A4.
  - exists (OTexts [s]). split; [exact W1|left; reflexivity].
  - exists (OInts [i]). split; [exact W2|left; reflexivity].
  - exists (OInts [2]). split; [exact W3|]. right. left. exists [2]. split; reflexivity.
  - exists (OInts [5]). split; [exact W4|]. right. left. exists [5]. split; reflexivity.
  - intros a I. destruct k; [destruct (K eq_refl)| |]; cbn [statistics In] in I.
    + destruct (B3 eq_refl) as (B4 & B5).
      destruct I as [<-|I]; [exists p; split; [exact G|exact S]|].
      destruct I as [<-|I]; [eexists; split; [exact B1|apply quarter]|].
      destruct I as [<-|I]; [eexists; split; [exact B4|]; apply not_a_number; reflexivity|].
      destruct I as [<-|I]; [eexists; split; [exact B2|apply most]|].
      destruct I as [<-|I]; [eexists; split; [exact B5|apply half]|]. destruct I.
    + destruct I as [<-|I]; [exists p; split; [exact G|exact S]|].
      destruct I as [<-|I]; [eexists; split; [exact B1|apply quarter]|].
      destruct I as [<-|I]; [eexists; split; [exact B2|apply most]|]. destruct I.
  - left. destruct k; reflexivity.
Qed.

Definition both : list (list feature) := [[side "x" 0 2 5]; [side "y" 1 2 5]].

Lemma quiet_index : e_sort (g_env quiet) = "index".
Proof. vm_compute. reflexivity. Qed.

Lemma prices_storable : Forall2 (storable ink (e_sort (g_env quiet)) KRegression) (s_rules prices) both.
Proof.
  rewrite quiet_index. constructor; [|constructor; [|constructor]].
  - apply noted_storable; [left; reflexivity|intros H; discriminate H|apply most|vm_compute; reflexivity].
  - apply noted_storable; [right; reflexivity|intros H; discriminate H|apply half|vm_compute; reflexivity].
Qed.

Lemma colours_storable : Forall2 (storable ink (e_sort (g_env quiet)) KClassification) (s_rules colours) both.
Proof.
  rewrite quiet_index. constructor; [|constructor; [|constructor]].
  - apply noted_storable; [left; reflexivity|intros H; discriminate H| |vm_compute; reflexivity].
    apply class_name with (t := "red"); vm_compute; reflexivity.
  - apply noted_storable; [right; reflexivity|intros H; discriminate H| |vm_compute; reflexivity].
    apply literal; [vm_compute; reflexivity|vm_compute; reflexivity|intros x E; injection E as <-; reflexivity].
Qed.

Lemma quiet_sorts : CondSpec.known (e_sort (g_env quiet)).
Proof. left. exact quiet_index. Qed.

Lemma four : as_size ink (integer 4) (integer 4).
Proof. apply a_size with (z := 4); reflexivity. Qed.

Definition filed (s : ruleset) : csv := match fst (save ink s) with Ok f => f | Err _ => mkCsv [] [] end.
Definition reloaded (s : ruleset) : ruleset := snd (load ink quiet (read_csv ink (filed s)) blank).

Lemma prices_saved : save ink prices = (Ok (filed prices), snd (save ink prices)).
Proof. vm_compute. reflexivity. Qed.

Lemma prices_loaded : load ink quiet (read_csv ink (filed prices)) blank = (Ok tt, reloaded prices).
Proof. vm_compute. reflexivity. Qed.

Lemma colours_saved : save ink colours = (Ok (filed colours), snd (save ink colours)).
Proof. vm_compute. reflexivity. Qed.

Lemma colours_loaded : load ink quiet (read_csv ink (filed colours)) blank = (Ok tt, reloaded colours).
Proof. vm_compute. reflexivity. Qed.

Lemma prices_described r : In r (s_rules prices) -> exists n, describable KRegression r n.
Proof.
  intros I. destruct (proj1 (forall2_in _ _ _ prices_storable) r I) as (fs & _ & S). eexists. eapply storable_describable. exact S.
Qed.

Lemma same_run {A} {o : res A * ruleset} {x y s t} : o = (Ok x, s) -> o = (Ok y, t) -> x = y /\ s = t.
Proof. intros -> E. injection E as <- <-. auto. Qed.

(** ** What is not restored *)

(** The texts come back. *)
Lemma attributes_texts : exists X G s s1 f t t', lawful X /\ save X s = (Ok f, s1) /\ load X G (read_csv X f) t = (Ok tt, t') /\
  Forall2 (restored (g_env G) (s_train s) (s_train s)) (s_rules s) (s_rules t') /\
  ruleset_coverage s = Ok (number (Fin (3 # 4))) /\ s_criterion s = number (Fin (1 # 2)) /\
  s_coverage t' = text "0.75" /\ s_criterion t' = text "0.5".
Proof.
  exists ink, quiet, prices, (snd (save ink prices)), (filed prices), blank, (reloaded prices).
  split; [exact ink_lawful|]. split; [exact prices_saved|]. split; [exact prices_loaded|]. split.
  - destruct (rules_back ink quiet KRegression prices blank both (integer 4) ink_lawful quiet_sorts) as (f & s1 & t' & E & L & R).
    + intros H; discriminate H.
    + reflexivity.
    + exact prices_storable.
    + exact four.
    + destruct (same_run E prices_saved) as (-> & ->). destruct (same_run L prices_loaded) as (_ & ->). exact R.
  - split; [reflexivity|]. split; [reflexivity|]. split; vm_compute; reflexivity.
Qed.

(** None comes back as NaN. *)
Definition unmeasured : ruleset := with_criterion none (with_coverage none prices).

Lemma attributes_missing : exists X G s s1 f t t', lawful X /\ save X s = (Ok f, s1) /\ load X G (read_csv X f) t = (Ok tt, t') /\
  s_rules s <> [] /\ ruleset_coverage s = Ok none /\ s_criterion s = none /\ s_coverage t' = nan /\ s_criterion t' = nan.
Proof.
  exists ink, quiet, unmeasured, (snd (save ink unmeasured)), (filed unmeasured), blank, (reloaded unmeasured).
  split; [exact ink_lawful|]. split; [vm_compute; reflexivity|]. split; [vm_compute; reflexivity|]. split; [intros H; discriminate H|].
  split; [reflexivity|]. split; [reflexivity|]. split; vm_compute; reflexivity.
Qed.

Lemma test_size_lost : exists X G s s1 f t t', lawful X /\ save X s = (Ok f, s1) /\ load X G (read_csv X f) t = (Ok tt, t') /\
  s_train s = integer 4 /\ s_test s = integer 1 /\ s_test t' = integer 4.
Proof.
  exists ink, quiet, prices, (snd (save ink prices)), (filed prices), blank, (reloaded prices).
  split; [exact ink_lawful|]. split; [exact prices_saved|]. split; [exact prices_loaded|].
  split; [reflexivity|]. split; [reflexivity|]. vm_compute. reflexivity.
Qed.

Lemma names_lost : exists X G s s1 f t t', lawful X /\ save X s = (Ok f, s1) /\ load X G (read_csv X f) t = (Ok tt, t') /\
  map (slot "_name") (s_rules s1) = [text "R_0(1)+"; text "R_1(1)+"] /\
  map (slot "_name") (s_rules t') = [text "Unnamed: 0"; text "Unnamed: 0"].
Proof.
  exists ink, quiet, prices, (snd (save ink prices)), (filed prices), blank, (reloaded prices).
  split; [exact ink_lawful|]. split; [exact prices_saved|]. split; [exact prices_loaded|].
  split; vm_compute; reflexivity.
Qed.

(** ** What cannot be read *)

(** A bound that is infinite *)
Definition endless (s : string) (i : Z) : feature := mkFeat s i (numz 2) PInf.
Definition open_rule : rule :=
  put "_prediction" (number (Fin (1 # 2)))
    (regression_dict (mkRule KRegression (Some (raw_cond [endless "x" 0])) None None true None false false (initial_dict KRegression))).
Definition open_ended : ruleset := ledger [open_rule] KRegression.

Lemma open_described r : In r (s_rules open_ended) -> exists n, describable KRegression r n.
Proof.
  intros [<-|[]]. exists 1%nat. split; [|split].
  - exists (raw_cond [endless "x" 0]), ["x"]. split; [reflexivity|]. split; reflexivity.
  - intros a I. assert (A : forallb (fun a => match getattr open_rule a with Ok _ => true | Err _ => false end) (conditions ++ statistics KRegression) = true)
      by (vm_compute; reflexivity).
    rewrite forallb_forall in A. specialize (A a I). destruct (getattr open_rule a) as [v|]; [eauto|discriminate A].
  - left. reflexivity.
Qed.

Lemma open_unreadable : exists f s', save ink open_ended = (Ok f, s') /\ fst (load ink quiet (read_csv ink f) blank) <> Ok tt.
Proof.
  apply not_readable with (k := KRegression) (r := open_rule) (a := "bmaxs") (v := ONums [PInf]) (e := EValue).
  - exact ink_lawful.
  - intros H; discriminate H.
  - reflexivity.
  - exact open_described.
  - left. reflexivity.
  - intros t E. discriminate E.
  - cbn. auto.
  - vm_compute. reflexivity.
  - vm_compute. reflexivity.
  - vm_compute. reflexivity.
  - vm_compute. reflexivity.
Qed.

Lemma infinite_bounds : exists X G s f s1 t t', lawful X /\ s_rules s <> [] /\
  (forall r, In r (s_rules s) -> getattr r "bmaxs" = Ok (ONums [PInf])) /\
  save X s = (Ok f, s1) /\ load X G (read_csv X f) t = (Err EValue, t').
Proof.
  exists ink, quiet, open_ended, (filed open_ended), (snd (save ink open_ended)), blank, (reloaded open_ended).
  split; [exact ink_lawful|]. split; [intros H; discriminate H|].
  split; [intros r [<-|[]]; vm_compute; reflexivity|]. split; vm_compute; reflexivity.
Qed.

(** ** Names of classes *)

Definition named (t : string) : ruleset := ledger [noted KClassification "x" 0 (text t)] KClassification.

Lemma class_changed : exists X G s f s1 t t', lawful X /\ save X s = (Ok f, s1) /\ load X G (read_csv X f) t = (Ok tt, t') /\
  map (fun r => getattr r "prediction") (s_rules s) = [Ok (text "1")] /\
  map (fun r => getattr r "prediction") (s_rules t') = [Ok (number (numz 1))].
Proof.
  exists ink, quiet, (named "1"), (filed (named "1")), (snd (save ink (named "1"))), blank, (reloaded (named "1")).
  split; [exact ink_lawful|]. split; [vm_compute; reflexivity|]. split; [vm_compute; reflexivity|]. split; vm_compute; reflexivity.
Qed.

Lemma class_unreadable : exists X G s f s1 t t', lawful X /\ save X s = (Ok f, s1) /\ load X G (read_csv X f) t = (Err ESyntax, t') /\
  map (fun r => getattr r "prediction") (s_rules s) = [Ok (text "light red")].
Proof.
  exists ink, quiet, (named "light red"), (filed (named "light red")), (snd (save ink (named "light red"))), blank, (reloaded (named "light red")).
  split; [exact ink_lawful|]. split; [vm_compute; reflexivity|]. split; vm_compute; reflexivity.
Qed.

(** ** Indexes of the features, and the attributes of an empty ruleset *)

Lemma indexes_lost : exists X G s s1 f t', lawful X /\ save X s = (Ok f, s1) /\ load X G (read_csv X f) blank = (Ok tt, t') /\
  s_idx s = [0; 1] /\ map (fun r => getattr r "features_indexes") (s_rules t') = [Ok (OInts [0]); Ok (OInts [1])] /\ s_idx t' = [].
Proof.
  exists ink, quiet, prices, (snd (save ink prices)), (filed prices), (reloaded prices).
  split; [exact ink_lawful|]. split; [exact prices_saved|]. split; [exact prices_loaded|].
  split; [reflexivity|]. split; vm_compute; reflexivity.
Qed.

Definition hollow : ruleset := ledger [] KRegression.

Lemma empty_loses : exists X G s s1 f t', lawful X /\ save X s = (Ok f, s1) /\ load X G (read_csv X f) blank = (Ok tt, t') /\
  s_rules s = [] /\ s_train s = integer 4 /\ s_coverage s = number (Fin (3 # 4)) /\
  s_train t' = none /\ s_coverage t' = none.
Proof.
  exists ink, quiet, hollow, (snd (save ink hollow)), (filed hollow), (reloaded hollow).
  split; [exact ink_lawful|]. split; [vm_compute; reflexivity|]. split; [vm_compute; reflexivity|].
  split; [reflexivity|]. split; [reflexivity|]. split; [reflexivity|]. split; vm_compute; reflexivity.
Qed.

(** ** Other tables *)

Definition strange : rows := mkRows ["Unnamed: 0"; "features_names"; "colour"] [[text "a"; text "['x']"; text "red"]].

Lemma strange_rows row : In row (w_rows strange) -> plain_row row /\ List.length row = List.length (w_columns strange).
Proof.
  intros [<-|[]]. split; [|reflexivity]. intros label rest E. injection E as <- <-. intros [H|[H|[H|[H|[]]]]]; discriminate H.
Qed.

Definition two_rows (idx : list string) : list (string * list obj) :=
  [("first", map (fun _ => text "a") idx); ("second", map (fun _ => text "b") idx)].

Definition nested : nest Z := Node CList [Atom 1; Node CTuple [Atom 2; Node CRuleSet [Atom 3]]; Node CList []].

(** A table with a None and without statistics *)
Definition terse : rows := mkRows ["Unnamed: 0"; "features_names"; "features_indexes"; "bmins"; "bmaxs"; "prediction"]
  [[text "a"; text "['x']"; text "None"; text "[2]"; text "[5]"; text "red"]; [text "ruleset train set size"; text "4"]].

Lemma terse_readable row : In row (w_rows terse) -> plain_row row -> readable ink (g_env quiet) (combine (w_columns terse) row).
Proof.
  intros [<-|[<-|[]]] P; [|destruct (P "ruleset train set size" [text "4"] eq_refl); cbn; auto].
  constructor.
  - intros H; discriminate H.
  - intros a I. cbn in I. cbn. intuition.
  - intros a w I J. assert (K : a = "prediction" /\ w = text "red").
    { cbn in I, J. repeat (destruct I as [I|I]; [injection I as <- <-; try (repeat (destruct J as [J|J]; [discriminate J|]); destruct J); auto|]). destruct I. }
    destruct K as (-> & ->). exists (text "red"). apply text_class; [intros H; discriminate H|reflexivity|reflexivity].
  - intros w p I. right. cbn in I. repeat (destruct I as [I|I]; [injection I; try discriminate; intros <-; intros H; vm_compute in H; discriminate H|]). destruct I.
  - eexists. exists None, (Some [AInt 2]), (Some [AInt 5]), (Some [AStr "x"]). eexists.
    split; [eapply given_cell; [right; right; left; reflexivity|reflexivity|constructor]|].
    split; [eapply given_cell; [right; right; right; left; reflexivity|reflexivity|apply (arg_ints [2])]|].
    split; [eapply given_cell; [right; right; right; right; left; reflexivity|reflexivity|apply (arg_ints [5])]|].
    split; [eapply given_cell; [right; left; reflexivity|reflexivity|apply (arg_texts ["x"])]|].
    split; [reflexivity|reflexivity].
Qed.
