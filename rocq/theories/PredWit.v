(** Concrete predictions: witnesses against the properties that the code does
    not have, and instances for the examples of PredProps.v. *)
From Coq Require Import List ZArith QArith Bool String Ascii Lia Lqa.
From Coq Require Import List.
From Verif Require Import Base Num Arith CondModel CondSpec CondBase CondProofs CondWit ThrModel ThrSpec ThrProofs ThrWit
  MetModel MetSpec MetWit RuleModel RuleSpec RuleProofs RuleMisc RuleWit PredModel PredSpec PredReg PredMisc PredName.
Import ListNotations.
Open Scope string_scope.
Open Scope list_scope.
Open Scope Z_scope.

(** ** Rules with one feature each *)

Definition sided (k : kind) (s : string) : rule :=
  regression_dict (mkRule k (Some (raw_cond [side s 0 2 5])) None None true None false false (initial_dict k)).

Definition voter (k : kind) (s : string) (p : obj) (v : list Z) : rule :=
  put "_prediction" p (with_act (Some (new_activation v)) (sided k s)).

Definition name (s : string) : string := (s ++ " in [1.0, 1.0]")%string.

Lemma voter_called k s p v : called free (voter k s p v) (name s).
Proof.
  exists (raw_cond [side s 0 2 5]), [side s 0 2 5]. split; [destruct k; reflexivity|]. split; [repeat split|]. split; [discriminate|]. reflexivity.
Qed.

Lemma voter_features k s p v : has_features (voter k s p v).
Proof.
  exists (raw_cond [side s 0 2 5]), [side s 0 2 5]. split; [destruct k; reflexivity|]. split; [repeat split|discriminate].
Qed.

Lemma voter_prediction k s p v : (exists x, p = OVal x) -> getattr (voter k s p v) "prediction" = Ok p.
Proof. intros (x & ->). rewrite prediction_attr. destruct k; reflexivity. Qed.

Lemma voter_working k s p v : working (voter k s p v) None v.
Proof. exists (new_activation v). split; destruct k; reflexivity. Qed.

Lemma voter_gives {A} (value : A -> obj) k s p v : (exists x, value p = OVal x) -> bits v -> v <> [] ->
  gives value None (voter k s (value p) v) (Some (p, v)).
Proof.
  intros K B N. split; [apply voter_features|]. split; [apply voter_prediction; auto|]. split; [apply voter_working|]. auto.
Qed.

Lemma voter_one {A} (value : A -> obj) k s p v : (exists x, value p = OVal x) -> bits v -> v <> [] ->
  casts_one value None (voter k s (value p) v) (Some (mkBallot 1 p v)).
Proof. intros K B N. apply one_vote. apply voter_gives; auto. Qed.

Lemma voter_casts {A} (value : A -> obj) k s p v ws w : (exists x, value p = OVal x) -> bits v -> v <> [] -> In (name s, Fin w) ws -> ~ (w == 0)%Q ->
  casts free ws value None (voter k s (value p) v) (Some (mkBallot w p v)).
Proof. intros K B N I W. apply casts_vote with (name s); auto using voter_called. apply voter_gives; auto. Qed.

Ltac vote_of :=
  first [ apply collected_nil
        | apply collected_some; [first [apply voter_one | apply voter_casts];
            [eexists; reflexivity|bit_by_bit|discriminate|..]; try (cbn; tauto); try discriminate|vote_of] ].

Definition number_voter (s : string) (q : Q) (v : list Z) : rule := voter KRegression s (regression_number q) v.
Definition class_voter (s : string) (c : string) (v : list Z) : rule := voter KClassification s (class_object (LText c)) v.

Definition stacked_of (l : list (string * list Z)) : frame Z :=
  mkFrame (match l with [] => O | (_, v) :: _ => List.length v end) l.

(** ** Regression *)

Definition three : list rule :=
  [number_voter "a" 2 [1; 1; 0; 0]; number_voter "b" 4 [1; 0; 0; 1]; number_voter "c" (-1) [0; 0; 0; 1]].

Definition three_ballots : list (ballot Q) :=
  [mkBallot 1 2%Q [1; 1; 0; 0]; mkBallot 1 4%Q [1; 0; 0; 1]; mkBallot 1 (-1)%Q [0; 0; 0; 1]].

Definition three_columns : list (string * list Z) :=
  [(name "a", [1; 1; 0; 0]); (name "b", [1; 0; 0; 1]); (name "c", [0; 0; 0; 1])].

Definition some_weights : list (string * num) := [(name "b", Fin 3); (name "z", Fin 1); (name "a", Fin (1 # 2)); (name "c", NaN)].

Lemma three_one : collected (casts_one regression_number None) three three_ballots.
Proof. unfold three, three_ballots, number_voter. vote_of. Qed.

Lemma three_rows : rows 4 three_ballots.
Proof. intros b [<-|[<-|[<-|[]]]]; reflexivity. Qed.

Lemma three_start : starts_well three_ballots.
Proof. right. eexists. eexists. split; [reflexivity|]. discriminate. Qed.

Lemma three_numbers : predicts_numbers three.
Proof. intros r [<-|[<-|[<-|[]]]]; eexists; reflexivity. Qed.

Lemma three_stacks : stacks free None three 4 (stacked_of three_columns).
Proof.
  exists three_columns. split; [|reflexivity]. split; [|split; [distinct|lia]].
  repeat apply Forall2_cons; try apply Forall2_nil; (split; [apply voter_called|split; [apply voter_working|split; [bit_by_bit|reflexivity]]]).
Qed.

Definition weighted_ballots : list (ballot Q) :=
  [mkBallot (1 # 2) 2%Q [1; 1; 0; 0]; mkBallot 3 4%Q [1; 0; 0; 1]].

Lemma three_weighted : collected (casts free some_weights regression_number None) three weighted_ballots.
Proof.
  unfold three, weighted_ballots, number_voter.
  apply collected_some; [apply voter_casts; [eexists; reflexivity|bit_by_bit|discriminate|cbn; tauto|discriminate]|].
  apply collected_some; [apply voter_casts; [eexists; reflexivity|bit_by_bit|discriminate|cbn; tauto|discriminate]|].
  apply collected_none; [|apply collected_nil]. apply casts_ignored with (name "c"); [apply voter_called|].
  intros w W. cbn in W. repeat destruct W as [W|W]; try contradiction; try discriminate. injection W as <-. auto.
Qed.

(** A first rule that predicts 0 *)
Definition zero_first : list rule := [number_voter "a" 0 [1; 1]; number_voter "b" 4 [1; 0]].
Definition zero_ballots : list (ballot Q) := [mkBallot 1 0%Q [1; 1]; mkBallot 1 4%Q [1; 0]].

Lemma zero_first_refuted : exists E rules bs n l,
  collected (casts_one regression_number None) rules bs /\ rows n bs /\ List.length (rules) = 2%nat /\
  fst (predict_rules E false false (Some KRegression) rules None None None) = Err EType /\
  each_row n NaN l (fun i => is_mean i bs).
Proof.
  exists free, zero_first, zero_ballots, 2%nat, [Fin 2; Fin 0]. split; [unfold zero_first, zero_ballots, number_voter; vote_of|].
  split; [intros b [<-|[<-|[]]]; reflexivity|]. split; [reflexivity|]. split; [vm_compute; reflexivity|].
  split; [reflexivity|]. intros [|[|i]] I; try lia; right; (split; [eexists; split; [left; reflexivity|reflexivity]|]);
    eexists; (split; [reflexivity|]); reflexivity.
Qed.

(** Predictions that cancel out *)
Definition opposite : list rule := [number_voter "a" 3 [1; 1]; number_voter "b" (-3) [1; 0]].
Definition opposite_ballots : list (ballot Q) := [mkBallot 1 3%Q [1; 1]; mkBallot 1 (-3)%Q [1; 0]].

Lemma cancel_refuted : exists E rules bs n x y,
  collected (casts_one regression_number None) rules bs /\ rows n bs /\
  fst (predict_rules E false false (Some KRegression) rules None None None) = Ok (Numbers [NaN; x]) /\ same_num x (Fin 3) /\
  is_mean 0 bs y /\ same_num y (Fin 0).
Proof.
  exists free, opposite, opposite_ballots, 2%nat, (Fin 3), (Fin 0).
  split; [unfold opposite, opposite_ballots, number_voter; vote_of|].
  split; [intros b [<-|[<-|[]]]; reflexivity|]. split; [vm_compute; reflexivity|]. split; [reflexivity|]. split; [|reflexivity].
  right. split; [eexists; split; [left; reflexivity|reflexivity]|]. eexists. split; [reflexivity|]. reflexivity.
Qed.

(** 256 rules active at the same row *)
Definition crowd : list rule := repeat (number_voter "a" 1 [1]) 256.
Definition crowd_ballots : list (ballot Q) := repeat (mkBallot 1 1%Q [1]) 256.

Lemma crowd_one : collected (casts_one regression_number None) crowd crowd_ballots.
Proof.
  unfold crowd, crowd_ballots. generalize 256%nat. intros k. induction k as [|k IH]; [apply collected_nil|]. cbn [repeat].
  apply collected_some; auto. apply (voter_one regression_number); [eexists; reflexivity|bit_by_bit|discriminate].
Qed.

Lemma crowd_refuted : exists E rules bs n x,
  collected (casts_one regression_number None) rules bs /\ rows n bs /\
  fst (predict_rules E false false (Some KRegression) rules None None None) = Ok (Numbers [PInf]) /\
  is_mean 0 bs x /\ same_num x (Fin 1).
Proof.
  exists free, crowd, crowd_ballots, 1%nat, (Fin 1). split; [apply crowd_one|].
  split; [intros b B; apply repeat_spec in B; subst; reflexivity|]. split; [vm_compute; reflexivity|]. split; [|reflexivity].
  right. split; [exists (mkBallot 1 1%Q [1]); split; [left; reflexivity|reflexivity]|]. eexists. split; [reflexivity|].
  vm_compute. reflexivity.
Qed.

(** The activation of the first rule after a prediction *)
Definition two : list rule := [number_voter "a" 2 [1; 1; 0]; number_voter "b" 4 [1; 0; 1]].

Lemma overwritten_refuted : exists E rules rules' l r r',
  predict_rules E false true (Some KRegression) rules None None None = (Ok (Numbers l), rules') /\
  nth_error rules 0 = Some r /\ nth_error rules' 0 = Some r' /\
  working r None [1; 1; 0] /\ working r' None [2; 1; 1] /\ bits [1; 1; 0].
Proof.
  eexists free, two, _, _, _, _. split; [vm_compute; reflexivity|]. split; [vm_compute; reflexivity|]. split; [vm_compute; reflexivity|].
  split; [eexists; split; reflexivity|]. split; [eexists; split; reflexivity|]. bit_by_bit.
Qed.

(** ** Classification *)

Definition jury : list rule :=
  [class_voter "a" "red" [1; 1; 0; 1]; class_voter "b" "blue" [1; 1; 0; 0]; class_voter "c" "red" [1; 0; 0; 0]].
Definition jury_ballots : list (ballot label) :=
  [mkBallot 1 (LText "red") [1; 1; 0; 1]; mkBallot 1 (LText "blue") [1; 1; 0; 0]; mkBallot 1 (LText "red") [1; 0; 0; 0]].
Definition jury_columns : list (string * list Z) :=
  [(name "a", [1; 1; 0; 1]); (name "b", [1; 1; 0; 0]); (name "c", [1; 0; 0; 0])].

Lemma jury_one : collected (casts_one class_object None) jury jury_ballots.
Proof. unfold jury, jury_ballots, class_voter. vote_of. Qed.

Lemma jury_rows : rows 4 jury_ballots.
Proof. intros b [<-|[<-|[<-|[]]]]; reflexivity. Qed.

Lemma jury_present : all_present None jury.
Proof. intros r [<-|[<-|[<-|[]]]]; right; discriminate. Qed.

Lemma jury_called : forall r, In r jury -> exists s, called free r s.
Proof. intros r [<-|[<-|[<-|[]]]]; eexists; apply voter_called. Qed.

Lemma jury_texts : predicts_texts jury.
Proof. intros r [<-|[<-|[<-|[]]]]; eexists; (split; [reflexivity|discriminate]). Qed.

Lemma jury_comparable : forall b, In b jury_ballots -> comparable (b_value b).
Proof. intros b [<-|[<-|[<-|[]]]]; discriminate. Qed.

Lemma jury_somebody : somebody 4 jury_ballots.
Proof. eexists. exists 0%nat. split; [left; reflexivity|]. split; [lia|reflexivity]. Qed.

Lemma jury_stacks : stacks free None jury 4 (stacked_of jury_columns).
Proof.
  exists jury_columns. split; [|reflexivity]. split; [|split; [distinct|lia]].
  repeat apply Forall2_cons; try apply Forall2_nil; (split; [apply voter_called|split; [apply voter_working|split; [bit_by_bit|reflexivity]]]).
Qed.

Definition jury_weights : list (string * num) := [(name "a", Fin 2); (name "b", Fin 3); (name "c", Fin 2)].
Definition heavy_ballots : list (ballot label) :=
  [mkBallot 2 (LText "red") [1; 1; 0; 1]; mkBallot 3 (LText "blue") [1; 1; 0; 0]; mkBallot 2 (LText "red") [1; 0; 0; 0]].

Lemma jury_weighted : collected (casts free jury_weights class_object None) jury heavy_ballots.
Proof.
  unfold jury, heavy_ballots, class_voter.
  repeat (apply collected_some; [apply voter_casts; [eexists; reflexivity|bit_by_bit|discriminate|cbn; tauto|discriminate]|]). apply collected_nil.
Qed.

Lemma heavy_rows : rows 4 heavy_ballots.
Proof. intros b [<-|[<-|[<-|[]]]]; reflexivity. Qed.

Lemma heavy_fair : fair heavy_ballots.
Proof. intros b [<-|[<-|[<-|[]]]]; (split; [reflexivity|discriminate]). Qed.

Lemma heavy_somebody : somebody 4 heavy_ballots.
Proof. eexists. exists 0%nat. split; [left; reflexivity|]. split; [lia|reflexivity]. Qed.

(** Who wins *)
Ltac favored :=
  match goal with
  | |- favors _ _ [] _ => apply favors_nil
  | |- favors _ _ (_ :: _) _ =>
      first [ eapply favors_for; [reflexivity|constructor|favored]
            | apply favors_not; [intros (A & S); first [discriminate A | inversion S]|favored] ]
  end.

Lemma favors_fun i c bs p q : favors i c bs p -> favors i c bs q -> (p == q)%Q.
Proof. intros P Q. rewrite (PredVote.favors_favor _ _ _ _ P), (PredVote.favors_favor _ _ _ _ Q). reflexivity. Qed.

Ltac beaten :=
  let b := fresh in let p := fresh in let B := fresh in let N := fresh in let F := fresh in
  intros b p B N F; cbn in B; repeat destruct B as [B|B]; try contradiction; subst b; cbn [b_value] in *;
  try (destruct N; constructor; fail);
  match type of F with favors ?i ?c ?bs _ =>
    let X := fresh in eassert (X : favors i c bs _) by favored; rewrite (favors_fun _ _ _ _ _ F X); reflexivity end.

Lemma jury_wins : wins 0 jury_ballots (LText "red") /\ wins 3 jury_ballots (LText "red").
Proof.
  split.
  - eexists. split; [unfold jury_ballots; favored|]. split; [reflexivity|]. unfold jury_ballots. beaten.
  - eexists. split; [unfold jury_ballots; favored|]. split; [reflexivity|]. unfold jury_ballots. beaten.
Qed.

(** One decided row, that is not the first *)
Definition late : list rule := [class_voter "a" "red" [1; 1]; class_voter "b" "blue" [1; 0]].
Definition late_ballots : list (ballot label) := [mkBallot 1 (LText "red") [1; 1]; mkBallot 1 (LText "blue") [1; 0]].
Definition late_columns : list (string * list Z) := [(name "a", [1; 1]); (name "b", [1; 0])].

Lemma late_stacks : stacks free None late 2 (stacked_of late_columns).
Proof.
  exists late_columns. split; [|reflexivity]. split; [|split; [distinct|lia]].
  repeat apply Forall2_cons; try apply Forall2_nil; (split; [apply voter_called|split; [apply voter_working|split; [bit_by_bit|reflexivity]]]).
Qed.

Lemma late_refuted : exists E rules bs st,
  stacks E None rules 2 st /\ collected (casts_one class_object None) rules bs /\ wins 1 bs (LText "red") /\
  fst (predict_rules E true false (Some KClassification) rules (Some st) None None) = Ok (Outcomes [Class (LText "red"); Class (LNum NaN)]) /\
  fst (predict_rules E false false (Some KClassification) rules None None None) = Ok (Outcomes [Class (LNum NaN); Class (LText "red")]).
Proof.
  exists free, late, late_ballots, (stacked_of late_columns). split; [apply late_stacks|].
  split; [unfold late, late_ballots, class_voter; vote_of|]. split.
  - eexists. split; [unfold late_ballots; favored|]. split; [reflexivity|]. unfold late_ballots. beaten.
  - split; vm_compute; reflexivity.
Qed.

(** No decided row *)
Definition undecided : list rule := [class_voter "a" "red" [1; 1]; class_voter "b" "blue" [1; 1]].
Definition undecided_columns : list (string * list Z) := [(name "a", [1; 1]); (name "b", [1; 1])].

Lemma undecided_stacks : stacks free None undecided 2 (stacked_of undecided_columns).
Proof.
  exists undecided_columns. split; [|reflexivity]. split; [|split; [distinct|lia]].
  repeat apply Forall2_cons; try apply Forall2_nil; (split; [apply voter_called|split; [apply voter_working|split; [bit_by_bit|reflexivity]]]).
Qed.

Lemma undecided_refuted : exists E rules st,
  stacks E None rules 2 st /\ predicts_texts rules /\
  fst (predict_rules E true false (Some KClassification) rules (Some st) None None) = Ok (Outcomes [Frame; Class (LNum NaN)]) /\
  fst (predict_rules E false false (Some KClassification) rules None None None) = Ok (Outcomes [Class (LNum NaN); Class (LNum NaN)]).
Proof.
  exists free, undecided, (stacked_of undecided_columns). split; [apply undecided_stacks|].
  split; [intros r [<-|[<-|[]]]; eexists; (split; [reflexivity|discriminate])|]. split; vm_compute; reflexivity.
Qed.

(** Stacked, the class of the heaviest rule, not the heaviest class *)
Lemma heaviest_refuted : exists E rules ws bs st a b,
  stacks E None rules 4 st /\ collected (casts E ws class_object None) rules bs /\ fair bs /\ wins 0 bs (LText "red") /\
  fst (predict_rules E true false (Some KClassification) rules (Some st) None (Some (WSeries ws))) = Ok (Outcomes (Class (LText "blue") :: a)) /\
  fst (predict_rules E false false (Some KClassification) rules None None (Some (WSeries ws))) = Ok (Outcomes (Class (LText "red") :: b)).
Proof.
  eexists free, jury, jury_weights, heavy_ballots, (stacked_of jury_columns), _, _. split; [apply jury_stacks|].
  split; [apply jury_weighted|]. split; [apply heavy_fair|]. split.
  - eexists. split; [unfold heavy_ballots; favored|]. split; [reflexivity|]. unfold heavy_ballots. beaten.
  - split; vm_compute; reflexivity.
Qed.

(** A rule without activation *)
Definition silent : rule := sided KClassification "b".

Lemma missing_refuted : exists E rules bs n,
  collected (casts_one class_object None) rules bs /\ rows n bs /\ somebody n bs /\ (forall b, In b bs -> comparable (b_value b)) /\
  fst (predict_rules E false false (Some KClassification) rules None None None) = Err EAttr.
Proof.
  exists free, [class_voter "a" "red" [1; 1]; silent], [mkBallot 1 (LText "red") [1; 1]], 2%nat.
  split; [|split; [|split; [|split]]].
  - apply collected_some; [apply voter_one; [eexists; reflexivity|bit_by_bit|discriminate]|]. apply collected_none; [|apply collected_nil].
    apply one_absent. left. split; reflexivity.
  - intros b [<-|[]]. reflexivity.
  - eexists. exists 0%nat. split; [left; reflexivity|]. split; [lia|reflexivity].
  - intros b [<-|[]]. discriminate.
  - vm_compute. reflexivity.
Qed.

(** ** Names *)

Definition nested : rule := sided KRegression "a in [1.0, 1.0] AND b".
Definition pair_rule : rule :=
  regression_dict (mkRule KRegression (Some (raw_cond [side "a" 0 2 5; side "b" 1 2 5])) None None true None false false (initial_dict KRegression)).

Lemma names_refuted : exists E r r' s c c' fs gs,
  called E r s /\ called E r' s /\ r_cond r = Some c /\ r_cond r' = Some c' /\ condition c fs /\ condition c' gs /\
  List.length fs = 1%nat /\ List.length gs = 2%nat.
Proof.
  exists free, nested, pair_rule, (name "a in [1.0, 1.0] AND b"), (raw_cond [side "a in [1.0, 1.0] AND b" 0 2 5]), (raw_cond [side "a" 0 2 5; side "b" 1 2 5]),
    [side "a in [1.0, 1.0] AND b" 0 2 5], [side "a" 0 2 5; side "b" 1 2 5].
  split; [exists (raw_cond [side "a in [1.0, 1.0] AND b" 0 2 5]), [side "a in [1.0, 1.0] AND b" 0 2 5]; split; [reflexivity|];
    split; [repeat split|]; split; [discriminate|reflexivity]|].
  split; [exists (raw_cond [side "a" 0 2 5; side "b" 1 2 5]), [side "a" 0 2 5; side "b" 1 2 5]; split; [reflexivity|];
    split; [repeat split|]; split; [discriminate|reflexivity]|].
  split; [reflexivity|]. split; [reflexivity|]. split; [apply raw_cond_ok; split; distinct|]. split; [apply raw_cond_ok; split; distinct|].
  split; reflexivity.
Qed.

(** A printer of numbers that tells them apart *)
Fixpoint strokes (k : nat) : string := match k with O => "" | S k => String "1" (strokes k) end.

Definition plain (x : num) : string :=
  match x with
  | NaN => "nan" | MInf => "-inf" | PInf => "inf"
  | Fin q =>
      let r := Qred q in
      ((if (Qnum r <? 0)%Z then "-" else "+") ++ strokes (Z.to_nat (Z.abs (Qnum r))) ++ "/" ++ strokes (Pos.to_nat (Qden r)))%string
  end.

Lemma strokes_lacks c k : c <> "1"%char -> lacks c (strokes k).
Proof. intros C. induction k; cbn; auto. Qed.

Lemma strokes_inj k l : strokes k = strokes l -> k = l.
Proof. revert l. induction k as [|k IH]; intros [|l] H; cbn in H; try discriminate; auto. injection H as H. f_equal. auto. Qed.

Lemma lacks_without c s : lacks c s -> without c s.
Proof. intros L u v ->. induction u as [|a u IH]; cbn in L; [tauto|]. apply IH. tauto. Qed.

Lemma lacks_app c s t : lacks c s -> lacks c t -> lacks c (s ++ t)%string.
Proof. induction s; cbn; auto. tauto. Qed.

Lemma plain_without x : without "," (plain x) /\ without "]" (plain x).
Proof.
  split; apply lacks_without; destruct x as [| |q|]; cbn [plain]; try (cbn; repeat split; discriminate);
    (apply lacks_app; [destruct (Qnum (Qred q) <? 0); cbn; repeat split; discriminate|]); apply lacks_app;
    try (apply strokes_lacks; discriminate); apply (lacks_app _ "/"); try (apply strokes_lacks; discriminate); cbn; repeat split; discriminate.
Qed.

Lemma plain_inj x y : plain x = plain y -> same_num x y.
Proof.
  assert (H0 : forall q, exists c t, plain (Fin q) = String c t /\ (c = "-"%char \/ c = "+"%char) /\
    (c = "-"%char -> exists d u, t = String d u /\ (d = "1"%char \/ d = "/"%char))).
  { intros q. cbn [plain]. destruct (Qnum (Qred q) <? 0); cbn; eexists; eexists; (split; [reflexivity|]); split; auto; intros X; try discriminate.
    destruct (Z.to_nat (Z.abs (Qnum (Qred q)))); cbn; eauto. }
  destruct x as [| |q|], y as [| |p|]; intros H; try exact I; try discriminate H;
    try (destruct (H0 p) as (c & t & E & [->| ->] & D); rewrite E in H; try discriminate; destruct D as (d & u & -> & [->| ->]); auto; discriminate);
    try (destruct (H0 q) as (c & t & E & [->| ->] & D); rewrite E in H; try discriminate; destruct D as (d & u & -> & [->| ->]); auto; discriminate).
  cbn [plain] in H. assert (S : (Qnum (Qred q) <? 0) = (Qnum (Qred p) <? 0) /\
    (strokes (Z.to_nat (Z.abs (Qnum (Qred q)))) ++ String "/" (strokes (Pos.to_nat (Qden (Qred q)))))%string =
    (strokes (Z.to_nat (Z.abs (Qnum (Qred p)))) ++ String "/" (strokes (Pos.to_nat (Qden (Qred p)))))%string).
  { destruct (Qnum (Qred q) <? 0), (Qnum (Qred p) <? 0); cbn [append] in H; try discriminate; injection H as H; auto. }
  destruct S as (S & T). apply split_at in T; try (apply strokes_lacks; discriminate). destruct T as (T1 & T2).
  apply strokes_inj in T1. apply strokes_inj in T2. apply Pos2Nat.inj in T2. cbn [same_num].
  rewrite <- (Qred_correct q), <- (Qred_correct p). unfold Qeq. rewrite T2. f_equal.
  apply Z2Nat.inj in T1; try apply Z.abs_nonneg.
  destruct (Qnum (Qred q) <? 0) eqn:A; symmetry in S; [apply Z.ltb_lt in A; apply Z.ltb_lt in S|apply Z.ltb_ge in A; apply Z.ltb_ge in S]; lia.
Qed.

Definition plain_world : env := mkEnv untouched ex_lib root plain (fun _ => Fin 1) false "index".

(** The weights as an attribute *)
Lemma coverage_values : attribute_values free three "coverage" [(name "a", Fin (2 # 4)); (name "b", Fin (2 # 4)); (name "c", Fin (1 # 4))].
Proof.
  split; [|distinct]. repeat apply Forall2_cons; try apply Forall2_nil; (split; [apply voter_called|vm_compute; reflexivity]).
Qed.
