(** What the names of a rule read: its own attributes, those of its condition, the
    prediction; and the order of the classes. *)
From Coq Require Import List ZArith QArith Bool String Lia Sorted.
From Coq Require Import List.
From Verif Require Import Base Num CondModel ThrModel ThrProofs MetModel RuleModel RuleSpec.
Import ListNotations.
Open Scope string_scope.
Open Scope list_scope.
Open Scope Z_scope.

Lemma dget_app {A} k (d e : list (string * A)) : dget k d = None -> dget k (d ++ e) = dget k e.
Proof. induction d as [|(k', v) t IH]; cbn; auto. destruct (str_eqb k k'); [discriminate|auto]. Qed.

(** An attribute that is neither a property nor in the dictionary *)
Lemma getattr_own r n : dget n (properties (r_kind r)) = None -> dget n (r_dict r) = None ->
  getattr r n = match dget n (fields r ++ constants (r_kind r)) with Some v => Ok v | None => delegated r n end.
Proof. intros P D. unfold getattr. rewrite P, dget_app by auto. auto. Qed.

Definition unset (names : list string) (r : rule) : Prop := forall n, In n names -> dget n (r_dict r) = None.

Lemma own_attributes (r : rule) :
  unset ["_condition"; "_activation"; "_thresholds"; "_good"; "_bad_because"; "_fitted"; "_evaluated"] r ->
  getattr r "_good" = Ok (OVal (XNum (numz (if r_good r then 1 else 0)))) /\ getattr r "_fitted" = Ok (OVal (XNum (numz (if r_fitted r then 1 else 0)))) /\
  getattr r "_evaluated" = Ok (OVal (XNum (numz (if r_evaluated r then 1 else 0)))) /\
  getattr r "_bad_because" = Ok (OVal (match r_bad r with Some a => XText a | None => XNone end)) /\
  (getattr r "_condition" = Ok (OVal XNone) <-> r_cond r = None) /\
  (getattr r "_activation" = Ok (OVal XNone) <-> r_act r = None) /\
  (getattr r "_thresholds" = Ok (OVal XNone) <-> r_thr r = None).
Proof.
  intros U. rewrite !getattr_own by (try (apply U; cbn; tauto); destruct (r_kind r); reflexivity).
  destruct r as [k c a t g b f e d]. cbn. repeat split; try (intros H); try (destruct b; reflexivity);
    try (destruct c); try (destruct a); try (destruct t); cbn in *; try reflexivity; try discriminate.
Qed.

Lemma condition_attributes_read (r : rule) (c : cond) :
  unset ["features_names"; "features_indexes"; "bmins"; "bmaxs"; "impossible"] r -> r_cond r = Some c ->
  getattr r "features_names" = Ok (match c_names c with Some l => OTexts l | None => OVal XNone end) /\
  getattr r "features_indexes" = Ok (match c_idx c with Some l => OInts l | None => OVal XNone end) /\
  getattr r "bmins" = Ok (match c_min c with Some l => ONums l | None => OVal XNone end) /\
  getattr r "bmaxs" = Ok (match c_max c with Some l => ONums l | None => OVal XNone end) /\
  getattr r "impossible" = Ok (OVal (XNum (numz (if c_imp c then 1 else 0)))).
Proof.
  intros U C. rewrite !getattr_own by (try (apply U; cbn; tauto); destruct (r_kind r); reflexivity).
  destruct r as [k c0 a t g b f e d]. cbn in C. subst c0.
  destruct k; destruct a; repeat split; reflexivity.
Qed.

Lemma no_classes (r : rule) (p : proba) : r_kind r = KClassification -> slot "_prediction" r = OTable p ->
  p = PNumbers [] \/ p = PTexts [] \/ p = PPairs [] -> getattr r "prediction" = Err EValue.
Proof.
  intros K S P. unfold getattr. rewrite K. cbn [properties app dget]. cbn. unfold prediction. rewrite K, S. destruct P as [-> | [-> | ->]]; reflexivity.
Qed.

(** ** COMPUTE_SUBATTRIBUTES *)

(** The names of index do not depend on the time of fit nor on the flag. *)
Lemma getattr_after_fit r v n : In n (index (r_kind r)) -> getattr (with_fitted (put "_time_fit" v r)) n = getattr r n.
Proof.
  intros I.
  assert (N : str_eqb n "_time_fit" = false /\ str_eqb n "_fitted" = false).
  { destruct (r_kind r); cbn in I; repeat (destruct I as [<-|I]; [split; reflexivity|]); destruct I. }
  destruct N as (N1 & N2).
  assert (SL : forall m, str_eqb m "_time_fit" = false -> slot m (with_fitted (put "_time_fit" v r)) = slot m r).
  { intros m M. unfold slot. cbn. rewrite dset_get, M. auto. }
  assert (PR : forall f, dget n (properties (r_kind r)) = Some f -> f (with_fitted (put "_time_fit" v r)) = f r).
  { intros f F. destruct r as [k c a t g b ft e d]. cbn [r_kind] in *.
    destruct k; cbn in I; repeat (destruct I as [<-|I]; [cbn in F; try discriminate F; injection F as <-; cbn [with_fitted put r_kind r_act r_cond];
      try (apply (f_equal Ok); apply SL; reflexivity)|]); try (destruct I).
    all: try (unfold coverage; cbn [with_fitted put r_act]; destruct a; auto; rewrite SL by reflexivity; auto).
    all: try (unfold prediction; rewrite SL by reflexivity; reflexivity). }
  unfold getattr. change (r_kind (with_fitted (put "_time_fit" v r))) with (r_kind r).
  change (delegated (with_fitted (put "_time_fit" v r)) n) with (delegated r n).
  destruct (dget n (properties (r_kind r))) as [f|] eqn:P; [rewrite (PR f eq_refl); auto|].
  assert (D : dget n (r_dict (with_fitted (put "_time_fit" v r)) ++ fields (with_fitted (put "_time_fit" v r)) ++ constants (r_kind r)) =
              dget n (r_dict r ++ fields r ++ constants (r_kind r))); [|rewrite D; auto].
  assert (A : forall d e e', (dget n e = dget n e') -> dget n (d ++ e) = dget n (d ++ e' : list (string * obj))).
  { induction d as [|(k, w) d IH]; cbn; auto. intros e e' H. destruct (str_eqb n k); auto. }
  assert (B : forall d d' e : list (string * obj), dget n d = dget n d' -> dget n (d ++ e) = dget n (d' ++ e)).
  { intros d d' e H. assert (O : forall u, dget n (u ++ e) = match dget n u with Some w => Some w | None => dget n e end).
    { induction u as [|(k, w) u IH]; cbn; auto. destruct (str_eqb n k); auto. }
    rewrite !O, H. auto. }
  rewrite (B _ (r_dict r)) by (cbn; rewrite dset_get, N1; auto). apply A, B.
  unfold fields. cbn. rewrite N2. reflexivity.
Qed.

Lemma triggered (E : env) (y : target label) (xs : option table) (force : bool) (kw : keywords) (r r' : rule) (n : string) :
  e_subattributes E = true -> r_fitted r = false -> (forall t, xs = Some t -> nrows t <> O) ->
  fit E y xs force kw r = (Ok tt, r') -> In n (index (r_kind r')) -> exists v, getattr r' n = Ok v.
Proof.
  intros S F X E1 I. unfold fit in E1. rewrite S, F in E1. cbn [andb] in E1. destruct (k_method kw); [discriminate|].
  assert (Z : match xs with Some t => (nrows t =? 0)%nat | None => false end = false).
  { destruct xs as [t|]; auto. apply Nat.eqb_neq. apply (X t); auto. }
  rewrite Z in E1. unfold andthen in E1.
  destruct (calc_activation E xs r) as [[[]|] r1]; [|discriminate].
  destruct (compute E (train_attributes (r_kind r1)) y None kw force r1) as [[[]|] r2]; [|discriminate].
  destruct (if r_good r2 then check_all E r2 else (Ok tt, r2)) as [[[]|] r3]; [|discriminate].
  destruct (trigger r3) as [[]|] eqn:T; [|discriminate]. injection E1 as <-.
  unfold put_time in *. change (r_kind (with_fitted (put "_time_fit" (number (e_time E "_time_fit")) r3))) with (r_kind r3) in I.
  rewrite getattr_after_fit by exact I.
  unfold trigger in T. destruct (rseq (map (getattr r3) (index (r_kind r3)))) as [vs|] eqn:Q; [|discriminate]. clear T.
  revert vs Q. induction (index (r_kind r3)) as [|m l IH]; [destruct I|]. cbn. intros vs Q.
  destruct (getattr r3 m) as [v|] eqn:G; [|discriminate]. destruct (rseq (map (getattr r3) l)) as [ws|]; [|discriminate].
  destruct I as [<-|I]; eauto.
Qed.

(** ** The order of the classes *)

Lemma nan_sorted {B} (l : list (num * B)) : exists a b, sorted (fun p q => before (fst p) (fst q)) l = a ++ b /\
  (forall p, In p a -> fst p <> NaN) /\ (forall p, In p b -> fst p = NaN).
Proof.
  induction l as [|x t (a & b & E & Ha & Hb)]; [exists [], []; repeat split; auto; intros p []|]. cbn [sorted]. rewrite E. clear E.
  assert (D : fst x = NaN \/ fst x <> NaN) by (destruct (fst x); auto; right; discriminate). destruct D as [X|X].
  - (* NaN goes behind the numbers *)
    exists a, (x :: b). split; [|split; auto; intros p [<-|I]; auto].
    induction a as [|y a IH]; cbn [app insert].
    + destruct b as [|z b]; auto. cbn [insert]. rewrite (Hb z (or_introl eq_refl)). auto.
    + assert (Y : before (fst y) (fst x) = true) by (rewrite X; destruct (fst y) eqn:Y; auto; exfalso; apply (Ha y); cbn; auto).
      rewrite Y, IH; auto. intros p I. apply Ha. right. auto.
  - exists (insert (fun p q => before (fst p) (fst q)) x a), b. split; [|split; auto].
    + clear Ha. induction a as [|y a IH]; cbn [app insert].
      * destruct b as [|z b]; auto. cbn [insert]. rewrite (Hb z (or_introl eq_refl)). auto.
      * destruct (before (fst y) (fst x)); cbn [app]; [rewrite IH|]; auto.
    + intros p I. assert (O : p = x \/ In p a).
      { clear - I. induction a as [|y a IH]; cbn in I; [destruct I as [<-|[]]; auto|].
        destruct (before (fst y) (fst x)); destruct I as [<-|I]; cbn; auto; destruct (IH I); auto. }
      destruct O as [->|O]; auto.
Qed.

Lemma nan_last (repr : num -> string) (act : list Z) (y : list label) (rows : list (num * num)) :
  class_probabilities repr act y = Ok (PNumbers rows) ->
  exists a b, rows = a ++ b /\ (forall p, In p a -> fst p <> NaN) /\ (forall p, In p b -> fst p = NaN).
Proof.
  unfold class_probabilities. destruct (extract act y) as [v|]; [|discriminate]. cbn [rbind].
  destruct (map _ (counter label_eqb v)) as [|q qs] eqn:E; [discriminate|]. rewrite <- E. destruct (existsb is_text v); [discriminate|].
  intros H. injection H as <-. apply nan_sorted.
Qed.
