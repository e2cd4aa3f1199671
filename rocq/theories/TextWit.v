(** Concrete rules and rulesets for what is printed. *)
From Coq Require Import List ZArith QArith Bool String Ascii Lia.
From Coq Require Import List.
From Verif Require Import Base Num Arith CondModel CondSpec CondBase CondMore CondProofs CondWit ThrModel ThrSpec ThrProofs ThrWit
  MetModel MetSpec MetWit RuleModel RuleSpec RuleProofs RuleMisc RuleWit PredModel PredSpec PredReg PredMisc PredName PredWit
  SetModel SetSpec SetBase SetAct SetAdd SetMisc SetWit FitModel FitSpec FitWit TextModel TextSpec TextProofs TextMisc.
Import ListNotations.
Open Scope string_scope.
Open Scope list_scope.
Open Scope Z_scope.

Lemma plain_legible : legible plain.
Proof.
  split; [exact plain_without|]. intros x y. split; [apply plain_inj|].
  destruct x, y; cbn [same_num]; try tauto. intros E. cbn [plain]. rewrite (Qred_complete _ _ E). auto.
Qed.

(** ** A classification rule fitted alone and fitted together *)

Definition apart : setup := mkSetup free binary quoted false false [] false.
Definition together : setup := mkSetup free binary quoted false true [] false.
Definition lone : ruleset := set_of_rules apart false [on KClassification "x" 0].

Definition lone_fit (G : setup) : ruleset := snd (set_fit G target_prices false (Some market) false options lone).
Definition lone_rule (G : setup) : rule := nth 0 (s_rules (lone_fit G)) (on KClassification "x" 0).

Lemma class_text_refuted : exists G H y xs kw s s1 s2 r1 r2 p x,
  g_stacked G = false /\ g_stacked H = true /\ g_env G = g_env H /\
  set_fit G y false xs false kw s = (Ok [], s1) /\ set_fit H y false xs false kw s = (Ok [], s2) /\
  s_rules s1 = [r1] /\ s_rules s2 = [r2] /\ r_cond r1 = r_cond r2 /\
  getattr r1 "prediction" = Ok (number x) /\ getattr r2 "prediction" = Ok (number x) /\
  forall show, show (OTable p) <> show (number x) -> rule_str (g_env G) show r1 <> rule_str (g_env H) show r2.
Proof.
  set (x := match slot "_prediction" (lone_rule together) with OVal (XNum x) => x | _ => NaN end).
  set (p := match slot "_prediction" (lone_rule apart) with OTable p => p | _ => PNumbers [] end).
  exists apart, together, target_prices, (Some market), options, lone, (lone_fit apart), (lone_fit together), (lone_rule apart), (lone_rule together), p, x.
  split; [reflexivity|]. split; [reflexivity|]. split; [reflexivity|]. split; [vm_compute; reflexivity|]. split; [vm_compute; reflexivity|].
  split; [vm_compute; reflexivity|]. split; [vm_compute; reflexivity|]. split; [vm_compute; reflexivity|].
  split; [vm_compute; reflexivity|]. split; [vm_compute; reflexivity|].
  intros show D K. apply D.
  assert (A : exists s, rule_str (g_env apart) show (lone_rule apart) = Ok ("If " ++ s ++ " Then " ++ show (OTable p) ++ ".")%string /\
    rule_str (g_env together) show (lone_rule together) = Ok ("If " ++ s ++ " Then " ++ show (number x) ++ ".")%string)
    by (exists (match rule_name free (lone_rule apart) with Ok s => s | Err _ => "" end); split; vm_compute; reflexivity).
  destruct A as (s & A & B). rewrite A, B in K. injection K as K.
  assert (Q : forall u v w, (u ++ v)%string = (u ++ w)%string -> v = w).
  { induction u; cbn; intros v w E; auto. injection E as E. auto. }
  apply Q in K. injection K as K. clear - K.
  assert (Z : forall a b, (a ++ ".")%string = (b ++ ".")%string -> a = b); [|auto].
  induction a as [|c a IH]; intros [|d b] H; cbn in H; auto.
  - injection H as _ H. destruct b; discriminate.
  - injection H as _ H. destruct a; discriminate.
  - injection H as -> H. f_equal. auto.
Qed.

(** ** Stacked activations *)

Lemma stacked_refuted : exists G s t f,
  new_set G (Some (map ERule three)) false true = Ok s /\ s_stacked s = Some f /\ (0 < f_rows f)%nat /\ stacked_activations_available s = Err EAttr /\
  new_set G (Some (map ERule three)) true false = Ok t /\ s_stacked t = None /\ stacked_activations_available t = Ok true.
Proof.
  exists quiet. eexists _, _, _. split; [vm_compute; reflexivity|]. split; [vm_compute; reflexivity|].
  split; [cbn; lia|]. split; [vm_compute; reflexivity|]. split; [vm_compute; reflexivity|]. split; [vm_compute; reflexivity|]. vm_compute; reflexivity.
Qed.

(** ** Six rules *)

Definition say (o : obj) : string := match o with OVal (XNum x) => plain x | OVal (XText t) => t | _ => "?" end.

Definition told (s : string) (x : Z) : rule := RuleModel.put "_prediction" (number (numz x)) (on KRegression s 0).
Definition rows : list rule := [told "a" 1; on KRegression "b" 0; told "c" 3; mkRule KRegression None None None true None false false []; told "e" 2].

Definition rows_text : list string :=
  ["If a in [+11/1, +11111/1] Then +1/1."; "If b in [+11/1, +11111/1] Then <prediction unset>."; "If c in [+11/1, +11111/1] Then +111/1.";
   "empty rule"; "If e in [+11/1, +11111/1] Then +11/1."].

Lemma told_spelled s x : spelled plain_world say (told s x) ("If " ++ (s ++ " in [+11/1, +11111/1]") ++ " Then " ++ plain (numz x) ++ ".")%string.
Proof.
  apply spelled_rule.
  - exists (raw_cond [side s 0 2 5]), [side s 0 2 5]. split; [reflexivity|]. split; [repeat split|]. split; [discriminate|reflexivity].
  - apply (said_set say (told s x) (number (numz x))); [reflexivity|discriminate].
Qed.

Lemma rows_spelled : Forall2 (spelled plain_world say) rows rows_text.
Proof.
  unfold rows, rows_text. constructor; [exact (told_spelled "a" 1)|]. constructor.
  - apply (spelled_rule plain_world say (on KRegression "b" 0) "b in [+11/1, +11111/1]" "<prediction unset>").
    + exists (raw_cond [side "b" 0 2 5]), [side "b" 0 2 5]. split; [reflexivity|]. split; [repeat split|]. split; [discriminate|reflexivity].
    + apply said_unset. reflexivity.
  - constructor; [exact (told_spelled "c" 3)|]. constructor; [apply spelled_empty; reflexivity|]. constructor; [exact (told_spelled "e" 2)|constructor].
Qed.

Definition row_set : ruleset := with_rules rows (empty_set false).
