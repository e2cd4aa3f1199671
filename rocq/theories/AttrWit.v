(** Concrete rules with their own lists of attributes. *)
From Coq Require Import List ZArith QArith Bool String Ascii Lia.
From Coq Require Import List.
From Verif Require Import Base Num Arith CondModel CondSpec CondBase CondWit ThrModel ThrSpec ThrProofs ThrWit
  MetModel MetSpec MetWit RuleModel RuleSpec RuleProofs RuleWit AttrModel AttrSpec AttrProofs AttrValues.
Import ListNotations.
Open Scope string_scope.
Open Scope list_scope.
Open Scope Z_scope.

Ltac each_case := repeat match goal with |- _ /\ _ => split end; vm_compute; reflexivity.

Definition run_fit (names : list string) (k : kind) : res unit * rule :=
  fit_with free names target_prices (Some points) false options (fresh k).

(** A bad rule: nothing is looked up, so that an unknown name goes through. *)
Lemma unknown_refuted : exists E r r' y xs kw,
  is_bad r /\ starts r xs kw /\ ~ In "colour" ("activation" :: computable (r_kind r)) /\
  fit_with E ["colour"] y xs false kw r = (Ok tt, r') /\ getattr r "_colour" = Err EAttr /\
  getattr r' "_colour" = Ok nan /\ fst (fit_with E ["colour"] y xs true kw r) = Err EAttr.
Proof.
  exists free, (with_bad "std" (fresh KRegression)),
    (snd (fit_with free ["colour"] target_prices (Some points) false options (with_bad "std" (fresh KRegression)))),
    target_prices, (Some points), options.
  split; [reflexivity|]. split; [split; [reflexivity|discriminate]|].
  split; [cbn; intuition discriminate|]. each_case.
Qed.

(** The sign before the prediction *)
Lemma order_refuted : exists E r r1 r2 y xs kw,
  new_rule E KRegression (CCond segment) VNone = Ok r /\
  fit_with E ["prediction"; "sign"] y xs false kw r = (Ok tt, r1) /\ is_good r1 /\
  fit_with E ["sign"; "prediction"] y xs false kw r = (Ok tt, r2) /\ is_good r2 /\
  getattr r1 "prediction" = getattr r2 "prediction" /\
  getattr r1 "sign" = Ok (text "+") /\ getattr r2 "sign" = Ok none.
Proof.
  exists free, (fresh KRegression), (snd (run_fit ["prediction"; "sign"] KRegression)),
    (snd (run_fit ["sign"; "prediction"] KRegression)), target_prices, (Some points), options.
  each_case.
Qed.

(** The zscore before the prediction *)
Lemma order_raises : exists E r r1 y xs kw,
  new_rule E KRegression (CCond segment) VNone = Ok r /\
  fit_with E ["prediction"; "zscore"] y xs false kw r = (Ok tt, r1) /\ is_good r1 /\
  fst (fit_with E ["zscore"; "prediction"] y xs false kw r) = Err EType.
Proof.
  exists free, (fresh KRegression), (snd (run_fit ["prediction"; "zscore"] KRegression)), target_prices, (Some points), options.
  each_case.
Qed.

(** A rule fitted again on other prices: the sign is that of the old prediction. *)
Definition losses : target label := YVector (map (fun x => LNum (numz x)) [-1; -7; -3; -5]).
Definition refitted (names : list string) : res unit * rule :=
  fit_with free names losses (Some points) false options (snd (run_fit ["prediction"; "sign"] KRegression)).

Lemma order_stale : exists E r r' y xs kw,
  is_good r /\ starts r xs kw /\ fit_with E ["sign"; "prediction"] y xs false kw r = (Ok tt, r') /\ is_good r' /\
  (exists q, getattr r' "prediction" = Ok (number q) /\ nlt q (Fin 0)) /\ getattr r' "sign" = Ok (text "+").
Proof.
  exists free, (snd (run_fit ["prediction"; "sign"] KRegression)), (snd (refitted ["sign"; "prediction"])), losses,
    (Some points), options.
  split; [vm_compute; reflexivity|]. split; [split; [reflexivity|discriminate]|].
  split; [vm_compute; reflexivity|]. split; [vm_compute; reflexivity|].
  split; [eexists; split; [vm_compute; reflexivity|vm_compute; reflexivity]|]. vm_compute. reflexivity.
Qed.

(** The classes predicted on a test set: those of the training points *)
Definition other_points : table := TArray 1 [[numz 9]; [numz 3]; [numz 8]; [numz 7]].
Definition evaluated_colours : rule :=
  snd (eval_with free ["prediction"] (YVector colours) (Some other_points) false false options fitted_colours).

Lemma test_prediction_refuted : exists E r r' y ys xs kw act c,
  r_kind r = KClassification /\ is_target y ys /\ evaluates r xs false kw /\
  eval_with E ["prediction"] y xs false false kw r = (Ok tt, r') /\ is_good r' /\ working r xs act /\
  rbind (class_probabilities (e_repr E) act ys) most_probable = Ok c /\
  getattr r' "prediction" <> Ok (class_obj c) /\ getattr r' "prediction" = getattr r "prediction".
Proof.
  exists free, fitted_colours, evaluated_colours, (YVector colours), colours, (Some other_points), options,
    [0; 1; 0; 0], (LText "blue").
  split; [reflexivity|]. split; [left; reflexivity|].
  split; [split; [reflexivity|split; [left; vm_compute; reflexivity|discriminate]]|].
  split; [vm_compute; reflexivity|]. split; [vm_compute; reflexivity|].
  split; [exists segment; split; vm_compute; reflexivity|].
  split; [vm_compute; reflexivity|]. split; vm_compute; [discriminate|reflexivity].
Qed.

Lemma ordered_pair a : a = "sign" \/ a = "zscore" -> in_order ["prediction"; "std"; a] /\ in_order ["std"; "prediction"; a].
Proof.
  intros A. split; intros u n v F O.
  - destruct u as [|x u]; [injection F as <- _; destruct O; discriminate|]. injection F as <- _. left. auto.
  - destruct u as [|x u]; [injection F as <- _; destruct O; discriminate|]. injection F as <- F.
    destruct u as [|x u]; [injection F as <- _; destruct O; discriminate|]. injection F as <- _. right. left. auto.
Qed.
