(** The text of a condition tells what the condition is. *)
From Coq Require Import List ZArith QArith Bool String Ascii Lia.
From Coq Require Import List.
From Verif Require Import Base Num CondModel CondSpec CondBase ThrModel MetModel RuleModel RuleSpec PredModel PredSpec PredReg.
Import ListNotations.
Open Scope string_scope.
Open Scope list_scope.

Fixpoint lacks (c : ascii) (s : string) : Prop :=
  match s with EmptyString => True | String a t => a <> c /\ lacks c t end.

Lemma without_lacks c s : without c s -> lacks c s.
Proof.
  induction s as [|a t IH]; intros W; cbn; auto. split.
  - intros ->. apply (W "" t). auto.
  - apply IH. intros u v ->. apply (W (String a u) v). auto.
Qed.

Lemma split_at c s s' t t' : lacks c s -> lacks c s' -> (s ++ String c t)%string = (s' ++ String c t')%string -> s = s' /\ t = t'.
Proof.
  revert s'. induction s as [|a s IH]; intros [|a' s'] L L' H; cbn in *.
  - injection H. auto.
  - injection H as H _. destruct L' as (L' & _). congruence.
  - injection H as H _. destruct L as (L & _). congruence.
  - injection H as -> H. destruct (IH s') as (X & Y); try tauto. split; congruence.
Qed.

Lemma append_assoc a b c : ((a ++ b) ++ c)%string = (a ++ (b ++ c))%string.
Proof. induction a; cbn; congruence. Qed.

Lemma printed_inj repr f g u v :
  without " " (f_name f) -> without " " (f_name g) ->
  (forall x, without "," (repr x) /\ without "]" (repr x)) -> (forall x y, repr x = repr y -> same_num x y) ->
  (printed repr f ++ u)%string = (printed repr g ++ v)%string ->
  f_name f = f_name g /\ same_num (f_low f) (f_low g) /\ same_num (f_high f) (f_high g) /\ u = v.
Proof.
  intros F G R I H. unfold printed in H. rewrite !append_assoc in H. cbn [append] in H.
  apply split_at in H; try (apply without_lacks; auto). destruct H as (N & H).
  injection H as H. rewrite ?append_assoc in H. cbn [append] in H.
  apply split_at in H; try (apply without_lacks; apply R). destruct H as (L & H).
  injection H as H. rewrite ?append_assoc in H. cbn [append] in H.
  apply split_at in H; try (apply without_lacks; apply R). destruct H as (K & H). auto.
Qed.

Lemma concat_cons sep x y t : String.concat sep (x :: y :: t) = (x ++ (sep ++ String.concat sep (y :: t)))%string.
Proof. reflexivity. Qed.

Lemma append_nil s : (s ++ "")%string = s.
Proof. induction s; cbn; congruence. Qed.

Lemma texts_inj repr fs gs :
  (forall f, In f (fs ++ gs) -> without " " (f_name f)) ->
  (forall x, without "," (repr x) /\ without "]" (repr x)) -> (forall x y, repr x = repr y -> same_num x y) ->
  String.concat " AND " (map (printed repr) fs) = String.concat " AND " (map (printed repr) gs) -> fs <> [] -> gs <> [] ->
  Forall2 same_bounds fs gs.
Proof.
  intros W R I. revert gs W. induction fs as [|f fs IH]; intros gs W H F G; [congruence|]. destruct gs as [|g gs]; [congruence|].
  assert (Wf : without " " (f_name f)) by (apply W; left; auto).
  assert (Wg : without " " (f_name g)) by (apply W; apply in_or_app; right; left; auto).
  destruct fs as [|f2 fs], gs as [|g2 gs]; cbn [map] in H; rewrite ?concat_cons in H.
  - cbn [String.concat] in H. destruct (printed_inj repr f g "" "") as (N & L & K & _); auto; [rewrite !append_nil; auto|].
    constructor; [split; auto|auto].
  - exfalso. cbn [String.concat] in H. destruct (printed_inj repr f g "" (" AND " ++ String.concat " AND " (printed repr g2 :: map (printed repr) gs))) as (_ & _ & _ & X); auto.
    + rewrite append_nil. exact H.
    + discriminate.
  - exfalso. destruct (printed_inj repr f g (" AND " ++ String.concat " AND " (printed repr f2 :: map (printed repr) fs)) "") as (_ & _ & _ & X); auto.
    + rewrite append_nil. exact H.
    + discriminate.
  - destruct (printed_inj repr f g _ _ Wf Wg R I H) as (N & L & K & X). constructor; [split; auto|auto]. apply IH; try discriminate.
    + intros x Hx. apply W. right. apply in_app_or in Hx. apply in_or_app. destruct Hx; [left; auto|right; right; auto].
    + cbn [append] in X. injection X. auto.
Qed.

Lemma lists_fun c fs gs : lists c fs -> lists c gs -> fs = gs.
Proof.
  intros (A1 & A2 & A3 & A4) (B1 & B2 & B3 & B4). rewrite A1 in B1. rewrite A2 in B2. rewrite A3 in B3. rewrite A4 in B4.
  clear A1 A2 A3 A4. revert gs B1 B2 B3 B4. induction fs as [|[n i l h] t IH]; intros [|[n' i' l' h'] gs] B1 B2 B3 B4; try discriminate; auto.
  cbn in *. injection B1 as -> B1. injection B2 as -> B2. injection B3 as -> B3. injection B4 as -> B4. f_equal. apply IH; congruence.
Qed.

Lemma names_tell E r r' s c c' fs gs :
  called E r s -> called E r' s -> r_cond r = Some c -> r_cond r' = Some c' -> lists c fs -> lists c' gs ->
  (forall f, In f (fs ++ gs) -> without " " (f_name f)) ->
  (forall x, without "," (e_repr E x) /\ without "]" (e_repr E x)) -> (forall x y, e_repr E x = e_repr E y -> same_num x y) ->
  Forall2 same_bounds fs gs.
Proof.
  intros (c1 & fs1 & C1 & L1 & N1 & S1) (c2 & fs2 & C2 & L2 & N2 & S2) C C' L L' W R I.
  rewrite C in C1. injection C1 as <-. rewrite C' in C2. injection C2 as <-.
  assert (fs1 = fs) by (eapply lists_fun; eauto). assert (fs2 = gs) by (eapply lists_fun; eauto). subst.
  eapply texts_inj; eauto.
Qed.
