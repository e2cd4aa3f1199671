(** Concrete rulesets: witnesses against the properties that the code does not
    have, and instances for the examples of SetProps.v. *)
From Coq Require Import List ZArith QArith Bool String Ascii Lia Lqa Permutation.
From Coq Require Import List.
From Verif Require Import Base Num Arith CondModel CondSpec CondBase CondMore CondProofs CondWit ThrModel ThrSpec ThrProofs ThrWit
  MetModel MetSpec MetWit RuleModel RuleSpec RuleProofs RuleMisc RuleWit PredModel PredSpec PredReg PredMisc PredName PredWit
  SetModel SetSpec SetBase SetAct SetAdd SetMisc.
Import ListNotations.
Open Scope string_scope.
Open Scope list_scope.
Open Scope Z_scope.

(** ** Texts *)

(** Each character marked by "x", between quotes *)
Fixpoint marked (s : string) : string :=
  match s with "" => "'" | String c t => String "x" (String c (marked t)) end.
Definition quoted (s : string) : string := String "'" (marked s).

Lemma quoted_ok : quotes quoted.
Proof.
  split; [intros s; exists (marked s); auto|]. intros s s' u v H. unfold quoted in H. cbn in H. injection H as H.
  revert s' H. induction s as [|c s IH]; intros [|c' s'] H; cbn in H; try discriminate; auto.
  injection H as -> H. f_equal. apply IH; auto.
Qed.

Lemma plain_ok : prints plain.
Proof.
  split.
  - intros x. destruct (plain_without x) as (A & B). do 2 (split; [destruct x as [| |q|]; cbn; try discriminate; destruct (_ <? _); discriminate|]). auto.
  - intros x y. split; [apply plain_inj|]. destruct x, y; cbn [same_num]; try tauto. intros E. cbn [plain]. rewrite (Qred_complete _ _ E). auto.
Qed.

(** ** Settings *)

Definition quiet : setup := mkSetup free ideal quoted false false [] false.
Definition stacking : setup := mkSetup free ideal quoted false true [] false.
Definition checked : setup := mkSetup plain_world ideal quoted true false [] false.

Definition set_of_rules (G : setup) (stack : bool) (l : list rule) : ruleset :=
  match new_set G (Some (map ERule l)) true stack with Ok s => s | Err _ => empty_set false end.

(** ** Three rules *)

Definition trio : ruleset := set_of_rules quiet false three.
Definition tower : ruleset := set_of_rules quiet true three.

Lemma trio_ok : new_set quiet (Some (map ERule three)) true false = Ok trio.
Proof. vm_compute. reflexivity. Qed.

Lemma tower_ok : new_set quiet (Some (map ERule three)) true true = Ok tower.
Proof. vm_compute. reflexivity. Qed.

Lemma trio_made mixed : made quiet mixed trio.
Proof. exact (made_new _ _ _ _ _ trio_ok). Qed.

Lemma tower_made mixed : made quiet mixed tower.
Proof. exact (made_new _ _ _ _ _ tower_ok). Qed.

Lemma voter_present k s p v : bits v -> v <> [] -> present (voter k s p v).
Proof. intros B N. exists v. split; [apply voter_working|]. auto. Qed.

Lemma three_present r : In r three -> present r.
Proof. intros [<-|[<-|[<-|[]]]]; (apply voter_present; [bit_by_bit|discriminate]). Qed.

Lemma three_called r : In r three -> exists n, called free r n.
Proof. intros [<-|[<-|[<-|[]]]]; eexists; apply voter_called. Qed.

Lemma three_lengths r v : In r three -> working r None v -> List.length v = 4%nat.
Proof. intros [<-|[<-|[<-|[]]]] W; apply working_act in W as (a & A & _ & <-); injection A as <-; reflexivity. Qed.

Lemma voter_usable k s p v : usable (voter k s p v).
Proof. eexists _, _, _. split; [destruct k; reflexivity|]. split; reflexivity. Qed.

Lemma three_compatible : compatible three.
Proof.
  split; [exists KRegression; intros r [<-|[<-|[<-|[]]]]; reflexivity|]. split; [intros r [<-|[<-|[<-|[]]]]; apply voter_usable|].
  right. exists 4%nat. intros r [<-|[<-|[<-|[]]]]; (eexists; split; [apply voter_working|reflexivity]).
Qed.

Lemma voter_regular k s p v : regular (voter k s p v).
Proof.
  exists (raw_cond [side s 0 2 5]), [side s 0 2 5]. split; [destruct k; reflexivity|]. split.
  - apply raw_cond_ok. split; cbn; (constructor; [auto|constructor]).
  - intros f [<-|[]]. exists 2, 5. split; [reflexivity|]. split; [reflexivity|]. split; [reflexivity|]. split; [reflexivity|]. split; discriminate.
Qed.

Lemma three_regular r : In r three -> regular r.
Proof. intros [<-|[<-|[<-|[]]]]; apply voter_regular. Qed.

Lemma voter_distinct k s p v : distinct_names (voter k s p v).
Proof. intros c l C L. destruct k; cbn in C; injection C as <-; cbn in L; injection L as <-; distinct. Qed.

Lemma three_distinct r : In r three -> distinct_names r.
Proof. intros [<-|[<-|[<-|[]]]]; apply voter_distinct. Qed.

Lemma voter_same k s p v k' p' v' : same_rule (voter k s p v) (voter k' s p' v').
Proof.
  exists (raw_cond [side s 0 2 5]), (raw_cond [side s 0 2 5]), [side s 0 2 5], [side s 0 2 5].
  split; [destruct k; reflexivity|]. split; [destruct k'; reflexivity|].
  assert (C : condition (raw_cond [side s 0 2 5]) [side s 0 2 5]) by (apply raw_cond_ok; split; cbn; (constructor; [auto|constructor])).
  do 2 (split; auto). split; intros f [<-|[]]; exists (side s 0 2 5); (split; [left; auto|split; [auto|split; reflexivity]]).
Qed.

(** Another rule, and rulesets with the same rules *)
Definition fourth : rule := number_voter "d" 1 [0; 0; 1; 0].
Definition other_a : rule := number_voter "a" 7 [0; 1; 0; 0].
Definition reversed : ruleset := set_of_rules quiet false [number_voter "c" (-1) [0; 0; 0; 1]; other_a; number_voter "b" 4 [1; 0; 0; 1]; other_a].
Definition pair_set : ruleset := set_of_rules quiet false [other_a; fourth].

Lemma reversed_rules : s_rules reversed = [number_voter "c" (-1) [0; 0; 0; 1]; other_a; number_voter "b" 4 [1; 0; 0; 1]; other_a].
Proof. vm_compute. reflexivity. Qed.

Lemma trio_rules : s_rules trio = three.
Proof. vm_compute. reflexivity. Qed.

Lemma pair_rules : s_rules pair_set = [other_a; fourth].
Proof. vm_compute. reflexivity. Qed.

(** ** += that raises (C109) *)

Definition short_rule : rule := number_voter "z" 1 [1; 0].

Lemma raised_in : exists G s r s', made G false s /\ append G (ERule r) true s = (Err EValue, s') /\ s_rules s' <> s_rules s.
Proof.
  exists quiet, trio, short_rule. eexists. split; [apply trio_made|]. split; [vm_compute; reflexivity|]. discriminate.
Qed.

(** ** append(update_activation=False) that raises (C110) *)

Definition wordless : rule := sided KClassification "w".

Lemma switched_off : exists G s r s' q s1 s2, made G false s /\ append G (ERule r) false s = (Err EType, s') /\
  append G (ERule q) true s = (Ok tt, s1) /\ append G (ERule q) true s' = (Ok tt, s2) /\
  set_vector s1 = Ok (Some [1; 1; 1; 1]) /\ set_vector s2 = Ok (Some [1; 1; 0; 1]).
Proof.
  exists quiet, trio, wordless. eexists. exists fourth. eexists _, _. split; [apply trio_made|].
  split; [vm_compute; reflexivity|]. split; [vm_compute; reflexivity|]. split; [vm_compute; reflexivity|]. split; vm_compute; reflexivity.
Qed.

(** ** The setter of the rules (C111) *)

Lemma retyped : exists G s l s' t r, made G false s /\ set_rules G (Some l) s = (Ok tt, s') /\
  s_type s' = Some t /\ In r (s_rules s') /\ ~ instance r t.
Proof.
  exists quiet, trio, [ERule (class_voter "a" "red" [1; 1; 0; 1])]. eexists _, _, _.
  split; [apply trio_made|]. split; [vm_compute; reflexivity|]. split; [reflexivity|]. split; [left; reflexivity|].
  intros [H|H]; discriminate.
Qed.

(** ** Rules without feature (C112, C121) *)

Definition anything : rule := with_act (Some (new_activation [1; 0])) (regression_dict
  (mkRule KRegression (Some (raw_cond [])) None None true None false false (initial_dict KRegression))).
Definition vague : ruleset := set_of_rules quiet false [anything].

Lemma vague_made mixed : made quiet mixed vague.
Proof. apply (made_new quiet mixed (Some [ERule anything]) false). vm_compute. reflexivity. Qed.

Lemma vague_features f : ~ feature_name (s_rules vague) f.
Proof.
  intros (r & c & l & R & C & N & I). replace (s_rules vague) with [anything] in R by (vm_compute; reflexivity).
  destruct R as [<-|[]]. cbn in C. injection C as <-. cbn in N. injection N as <-. destruct I.
Qed.

Lemma no_counts : exists G s, made G false s /\ s_rules s <> [] /\ get_features_count s = Err EAttr /\ feature_counts (s_rules s) [].
Proof.
  exists quiet, vague. split; [apply vague_made|]. split; [discriminate|]. split; [vm_compute; reflexivity|].
  split; [constructor|]. split; [|split; [intros f n []|constructor]]. intros f. split; [intros []|]. intros H. destruct (vague_features f H).
Qed.

Lemma no_order : exists G s s', quotes (g_quote G) /\ made G false s /\ (forall r, In r (s_rules s) -> usable r) /\
  set_sort G None false s = (Err EKey, s').
Proof.
  exists quiet, vague, vague. split; [exact quoted_ok|]. split; [apply vague_made|]. split; [|vm_compute; reflexivity].
  intros r R. replace (s_rules vague) with [anything] in R by (vm_compute; reflexivity). destruct R as [<-|[]].
  eexists _, _, _. split; [reflexivity|]. split; reflexivity.
Qed.

(** ** Stacked activations (C114, C120) *)

Lemma lost_columns : exists G s t s' r, made G false s /\ made G false t /\ s_stack s = true /\ add_set t s = (Ok tt, s') /\
  In r (s_rules s') /\ present r /\
  exists f n, s_stacked s' = Some f /\ called (g_env G) r n /\ ~ In n (map fst (f_columns f)).
Proof.
  exists quiet, tower, pair_set. eexists. exists fourth. split; [apply tower_made|].
  split. { apply (made_new quiet false (Some [ERule other_a; ERule fourth]) false). vm_compute. reflexivity. }
  split; [reflexivity|]. split; [vm_compute; reflexivity|]. split; [cbn; auto 10|].
  split; [apply voter_present; [bit_by_bit|discriminate]|]. eexists. exists (name "d"). split; [reflexivity|]. split; [apply voter_called|].
  cbn. intuition discriminate.
Qed.

Lemma slice_forgets : exists G s s', made G false s /\ s_stack s = true /\ getitem_slice G None None None s = Ok s' /\
  s_rules s' = s_rules s /\ s_stack s' = false /\ s_stacked s' = None.
Proof.
  exists quiet, tower. eexists. split; [apply tower_made|]. split; [reflexivity|]. split; [vm_compute; reflexivity|].
  split; [vm_compute; reflexivity|]. split; reflexivity.
Qed.

(** ** Duplicates *)

Definition twins : list rule := three ++ [number_voter "b" 4 [0; 0; 1; 1]].

Lemma number_voter_like s q v : number_like (number_voter s q v).
Proof. split; [discriminate|]. right. exists (Fin q). reflexivity. Qed.

Lemma twins_comparable : SetSpec.comparable twins.
Proof. left. repeat (apply Forall_cons; [apply number_voter_like|]). apply Forall_nil. Qed.

Lemma three_comparable : SetSpec.comparable three.
Proof. left. repeat (apply Forall_cons; [apply number_voter_like|]). apply Forall_nil. Qed.

Lemma number_voter_alike b s q v v' : alike b (number_voter s q v) (number_voter s q v').
Proof.
  exists (raw_cond [side s 0 2 5]), (raw_cond [side s 0 2 5]), (regression_number q), (regression_number q).
  split; [reflexivity|]. split; [reflexivity|]. split; [destruct b; [apply same_names|apply same_indexes]; auto|].
  split; [constructor; constructor; [reflexivity|constructor]|]. split; [constructor; constructor; [reflexivity|constructor]|].
  split; [reflexivity|]. split; [reflexivity|]. apply sp_number. cbn. reflexivity.
Qed.

Lemma twins_repeated b : repeated b twins.
Proof.
  exists [number_voter "a" 2 [1; 1; 0; 0]], (number_voter "b" 4 [1; 0; 0; 1]), [number_voter "c" (-1) [0; 0; 0; 1]], (number_voter "b" 4 [0; 0; 1; 1]), [].
  split; [reflexivity|]. apply number_voter_alike.
Qed.

Lemma twins_compatible : compatible twins.
Proof.
  split; [exists KRegression; intros r [<-|[<-|[<-|[<-|[]]]]]; reflexivity|]. split; [intros r [<-|[<-|[<-|[<-|[]]]]]; apply voter_usable|].
  right. exists 4%nat. intros r [<-|[<-|[<-|[<-|[]]]]]; (eexists; split; [apply voter_working|reflexivity]).
Qed.

Lemma voter_feature k s p v l : In (voter k s p v) l -> feature_name l s.
Proof. intros I. exists (voter k s p v), (raw_cond [side s 0 2 5]), [s]. split; auto. split; [destruct k; reflexivity|]. split; [reflexivity|left; auto]. Qed.

(** ** Order *)

Definition wide (s t : string) (v : list Z) : rule :=
  with_act (Some (new_activation v)) (regression_dict
    (mkRule KRegression (Some (raw_cond [side s 0 2 5; side t 1 3 4])) None None true None false false (initial_dict KRegression))).
Definition bounded (s : string) (lo hi : Z) (v : list Z) : rule :=
  with_act (Some (new_activation v)) (regression_dict
    (mkRule KRegression (Some (raw_cond [side s 0 lo hi])) None None true None false false (initial_dict KRegression))).

Definition mess : list rule := [wide "b" "c" [1; 0]; bounded "b" 1 3 [0; 1]; bounded "a" 5 6 [1; 1]; bounded "b" 1 2 [0; 0]].
Definition tidy : list rule := [bounded "a" 5 6 [1; 1]; bounded "b" 1 2 [0; 0]; bounded "b" 1 3 [0; 1]; wide "b" "c" [1; 0]].
Definition messy (stack : bool) : ruleset := set_of_rules quiet stack mess.

Lemma messy_rules stack : s_rules (messy stack) = mess.
Proof. destruct stack; vm_compute; reflexivity. Qed.

Lemma messy_sortable stack : sortable quiet (messy stack).
Proof.
  intros r R. rewrite messy_rules in R. assert (N : s_names (messy stack) <> []) by (destruct stack; discriminate).
  destruct R as [<-|[<-|[<-|[<-|[]]]]].
  - exists 2%nat, (listed quoted ["b"; "c"]), [numz 2; numz 3; numz 5; numz 4]. split.
    + eexists _, _, _. split; [reflexivity|]. split; [reflexivity|]. split; [reflexivity|]. split; [reflexivity|].
      left. split; auto. exists ["b"; "c"]. auto.
    + split; [lia|]. repeat constructor; discriminate.
  - exists 1%nat, (listed quoted ["b"]), [numz 1; numz 3]. split.
    + eexists _, _, _. split; [reflexivity|]. split; [reflexivity|]. split; [reflexivity|]. split; [reflexivity|].
      left. split; auto. exists ["b"]. auto.
    + split; [lia|]. repeat constructor; discriminate.
  - exists 1%nat, (listed quoted ["a"]), [numz 5; numz 6]. split.
    + eexists _, _, _. split; [reflexivity|]. split; [reflexivity|]. split; [reflexivity|]. split; [reflexivity|].
      left. split; auto. exists ["a"]. auto.
    + split; [lia|]. repeat constructor; discriminate.
  - exists 1%nat, (listed quoted ["b"]), [numz 1; numz 2]. split.
    + eexists _, _, _. split; [reflexivity|]. split; [reflexivity|]. split; [reflexivity|]. split; [reflexivity|].
      left. split; auto. exists ["b"]. auto.
    + split; [lia|]. repeat constructor; discriminate.
Qed.

Lemma trio_numbers : Forall (number_attribute "prediction") (s_rules trio).
Proof. rewrite trio_rules. repeat apply Forall_cons; try apply Forall_nil; (eexists; split; [reflexivity|discriminate]). Qed.

(** ** Evaluation *)

Definition rows4 : table := TArray 1 [[numz 3]; [numz 9]; [numz 4]; [numz 1]].
Definition both : ruleset := set_of_rules quiet false [bounded "b" 1 3 [0; 1]; bounded "a" 4 6 [1; 1]].
