(** The calc_ methods of a rule that has no activation or no prediction. *)
From Coq Require Import List ZArith QArith Bool String Lia.
From Coq Require Import List.
From Verif Require Import Base Num CondModel ThrModel MetModel RuleModel RuleSpec.
Import ListNotations.
Open Scope string_scope.
Open Scope list_scope.
Open Scope Z_scope.

Lemma calc_nothing E attr y kw r : r_act r = None ->
  (r_kind r = KRegression -> In attr ["prediction"; "std"; "zscore"; "criterion"] -> launch E attr y None kw r = (Ok tt, r)) /\
  (r_kind r = KClassification -> launch E "criterion" y None kw r = (Ok tt, r)) /\
  (r_kind r = KClassification -> launch E "prediction" y None kw r = (Err EValue, r)).
Proof.
  intros A. split; [|split].
  - intros K I. unfold launch. rewrite K. unfold calc_mean, calc_std, calc_rule_zscore, calc_error, if_activation, raw_of. rewrite A.
    cbn in I. destruct I as [<-|[<-|[<-|[<-|[]]]]]; auto.
  - intros K. unfold launch. rewrite K. cbn. unfold calc_rate, if_activation, raw_of. rewrite A. auto.
  - intros K. unfold launch. rewrite K. cbn. unfold calc_classes, activation_vector. rewrite A. auto.
Qed.

Lemma extract_long {A} v (l : list A) : (List.length v <= List.length l)%nat -> exists u, extract v l = Ok u.
Proof.
  intros L. unfold extract.
  assert (B : forall i, In i (nonzero O v) -> (i < List.length l)%nat).
  { assert (G : forall v k i, In i (nonzero k v) -> (i < k + List.length v)%nat).
    { clear. induction v as [|x t IH]; intros k i H; [destruct H|]. cbn in H. destruct (x =? 0); cbn; [apply IH in H; lia|].
      destruct H as [<-|H]; [lia|apply IH in H; lia]. }
    intros i H. apply G in H. lia. }
  induction (nonzero O v) as [|i t IH]; [exists []; auto|]. cbn.
  destruct (nth_error l i) as [x|] eqn:N; [|apply nth_error_None in N; specialize (B i (or_introl eq_refl)); lia].
  destruct IH as (u & E); [intros j J; apply B; right; auto|]. rewrite E. cbn. eauto.
Qed.

Lemma rate_nothing E y kw r a v : r_kind r = KClassification -> slot "_prediction" r = none -> r_act r = Some a -> raw a = Ok v ->
  (List.length v <= List.length y)%nat -> k_criterion kw = None -> launch E "criterion" (YVector y) None kw r = (Err EType, r).
Proof.
  intros K P A R L C. unfold launch. rewrite K. cbn. unfold calc_rate, if_activation, raw_of. rewrite A, R. cbn [step].
  unfold prediction. rewrite K, P. cbn [none rbind label_arg]. unfold calc_classification_criterion. cbn [flat rbind].
  destruct (extract_long v y L) as (u & ->). rewrite C. auto.
Qed.

Lemma no_condition r : r_cond r = None ->
  rule_len r = Err EType /\ (forall q, get_correlation r q = Err EType) /\
  (forall a v p, r_act r = Some a -> v <> [] -> raw a = Ok v -> prediction r = Ok p ->
     calc_prediction_vector r = if match p with OVal XNone => true | _ => false end then Ok (Some (map (fun _ => LNum NaN) v)) else Err EType).
Proof.
  intros C. assert (L : rule_len r = Err EType) by (unfold rule_len; rewrite C; auto). split; [exact L|]. split.
  - intros q. unfold get_correlation. rewrite L. auto.
  - intros a v p A V R P. unfold calc_prediction_vector, activation_vector. rewrite A, R.
    assert (N : alen a =? 0 = false) by (unfold raw, alen in *; destruct (v_here a); [|discriminate R]; injection R as ->; destruct v; [congruence|reflexivity]).
    rewrite N. cbn [rmap rbind]. unfold prediction_vector. rewrite P. cbn [rbind]. rewrite L.
    destruct p as [[]| | | |]; auto.
Qed.
