(** Concrete predictions where an activation has one point. *)
From Coq Require Import List ZArith QArith Bool String Ascii Lia Lqa.
From Coq Require Import List.
From Verif Require Import Base Num Arith CondModel CondSpec CondBase CondProofs CondWit ThrModel ThrSpec ThrProofs ThrWit
  MetModel MetSpec MetWit RuleModel RuleSpec RuleProofs RuleMisc RuleWit PredModel PredSpec PredReg PredMisc PredName PredWit PredSpread.
Import ListNotations.
Open Scope string_scope.
Open Scope list_scope.
Open Scope Z_scope.

Definition short : list rule :=
  [number_voter "a" 2 [1; 0; 1]; number_voter "b" 4 [1]; number_voter "c" (-1) [0; 0; 1]].

Definition short_ballots : list (ballot Q) :=
  [mkBallot 1 2%Q [1; 0; 1]; mkBallot 1 4%Q [1]; mkBallot 1 (-1)%Q [0; 0; 1]].

Lemma short_one : collected (casts_one regression_number None) short short_ballots.
Proof. unfold short, short_ballots, number_voter. vote_of. Qed.

Lemma short_rows : rows_or_one 3 short_ballots.
Proof. split; auto. intros c [<-|[<-|[]]]; auto. Qed.

Lemma short_start : starts_well short_ballots.
Proof. right. eexists. eexists. split; [reflexivity|]. discriminate. Qed.

Definition short_weights : list (string * num) := [(name "a", Fin 1); (name "b", Fin 3); (name "c", Fin 2)].

Definition short_weighted : list (ballot Q) :=
  [mkBallot 1 2%Q [1; 0; 1]; mkBallot 3 4%Q [1]; mkBallot 2 (-1)%Q [0; 0; 1]].

Lemma short_casts : collected (casts free short_weights regression_number None) short short_weighted.
Proof. unfold short, short_weighted, number_voter. vote_of. Qed.

Definition uneven : list rule := [number_voter "a" 2 [1; 0; 1]; number_voter "b" 4 [1]; number_voter "c" (-1) [0; 1]].

Definition uneven_ballots : list (ballot Q) :=
  [mkBallot 1 2%Q [1; 0; 1]; mkBallot 1 4%Q [1]; mkBallot 1 (-1)%Q [0; 1]].

Lemma uneven_one : collected (casts_one regression_number None) uneven uneven_ballots.
Proof. unfold uneven, uneven_ballots, number_voter. vote_of. Qed.

Definition uneven_weighted : list (ballot Q) :=
  [mkBallot 1 2%Q [1; 0; 1]; mkBallot 3 4%Q [1]; mkBallot 2 (-1)%Q [0; 1]].

Lemma uneven_casts : collected (casts free short_weights regression_number None) uneven uneven_weighted.
Proof. unfold uneven, uneven_weighted, number_voter. vote_of. Qed.

Lemma mixed_lengths : exists E rules bs b c l,
  collected (casts_one regression_number None) rules bs /\ In b bs /\ In c bs /\
  List.length (b_active b) <> List.length (b_active c) /\
  fst (predict_rules E false false (Some KRegression) rules None None None) = Ok (Numbers l).
Proof.
  exists free, short, short_ballots. do 2 eexists.
  destruct (spread_mean free false false short None None short_ballots 3 (or_introl eq_refl) short_one short_rows short_start) as (l & L & _).
  exists l. split; [apply short_one|]. split; [left; reflexivity|]. split; [right; left; reflexivity|]. split; [discriminate|exact L].
Qed.

(** ** Votes *)

Definition panel : list rule :=
  [class_voter "a" "red" [1; 0; 1]; class_voter "b" "blue" [0; 1; 1]; class_voter "c" "red" [1]].

Definition panel_ballots : list (ballot label) :=
  [mkBallot 1 (LText "red") [1; 0; 1]; mkBallot 1 (LText "blue") [0; 1; 1]; mkBallot 1 (LText "red") [1]].

Lemma panel_one : collected (casts_one class_object None) panel panel_ballots.
Proof. unfold panel, panel_ballots, class_voter. vote_of. Qed.

Definition panel_weighted : list (ballot label) :=
  [mkBallot 1 (LText "red") [1; 0; 1]; mkBallot 3 (LText "blue") [0; 1; 1]; mkBallot 2 (LText "red") [1]].

Lemma panel_casts : collected (casts free short_weights class_object None) panel panel_weighted.
Proof. unfold panel, panel_weighted, class_voter. vote_of. Qed.

Lemma red_red : same_class (LText "red") (LText "red").
Proof. constructor. Qed.

Lemma joins_third (a b c : ballot label) : List.length (b_active a) = 3%nat -> List.length (b_active b) = 3%nat ->
  b_value a = LText "red" -> b_value c = LText "red" -> active 0 a -> List.length (b_active c) = 1%nat -> joins 3 [a; b; c].
Proof.
  intros LA LB VA VC AC LC u x v H. destruct u as [|y [|z [|w u]]]; inversion H; subst; auto.
  - right. split; auto. exists y, O. rewrite VA, VC. split; [left; auto|]. split; [auto|apply red_red].
  - destruct u; discriminate.
Qed.

Lemma panel_joins : joins 3 panel_ballots.
Proof. apply joins_third; reflexivity. Qed.

Lemma panel_weighted_joins : joins 3 panel_weighted.
Proof. apply joins_third; reflexivity. Qed.

Lemma panel_called : forall r, In r panel -> exists s, called free r s.
Proof. intros r [<-|[<-|[<-|[]]]]; eexists; apply voter_called. Qed.

Lemma panel_present : all_present None panel.
Proof. intros r [<-|[<-|[<-|[]]]]; right; discriminate. Qed.

(** The one-point rule has a new class. *)
Definition newcomer : list rule := [class_voter "a" "red" [1; 0; 1]; class_voter "b" "blue" [1]].

Lemma newcomer_one : collected (casts_one class_object None) newcomer ([mkBallot 1 (LText "red") [1; 0; 1]] ++ mkBallot 1 (LText "blue") [1] :: []).
Proof. unfold newcomer, class_voter. cbn [app]. vote_of. Qed.

Lemma newcomer_casts : collected (casts free short_weights class_object None) newcomer
  ([mkBallot 1 (LText "red") [1; 0; 1]] ++ mkBallot 3 (LText "blue") [1] :: []).
Proof. unfold newcomer, class_voter. cbn [app]. vote_of. Qed.

Lemma newcomer_called : forall r, In r newcomer -> exists s, called free r s.
Proof. intros r [<-|[<-|[]]]; eexists; apply voter_called. Qed.

Lemma newcomer_present : all_present None newcomer.
Proof. intros r [<-|[<-|[]]]; right; discriminate. Qed.

Lemma alone_joins w : joins 3 [mkBallot w (LText "red") [1; 0; 1]].
Proof.
  intros u x v H. destruct u as [|y u]; inversion H; subst; auto. destruct u; discriminate.
Qed.

Lemma red_blue : ~ same_class (LText "blue") (LText "red").
Proof. intros X. inversion X; discriminate. Qed.
