(** Texts of lists; rules that are alike. *)
From Coq Require Import Decimal DecimalString DecimalZ DecimalFacts.
From Coq Require Import List ZArith QArith Bool String Ascii Permutation Lia.
From Coq Require Import List.
From Verif Require Import Base Num CondModel CondSpec CondBase CondProofs ThrModel ThrProofs MetModel MetSpec RuleModel RuleSpec RuleProofs.
From Verif Require Import PredModel PredSpec PredName SetModel SetSpec SetBase.
Import ListNotations.
Open Scope string_scope.
Open Scope list_scope.
Open Scope Z_scope.

(** ** Lists *)

Definition ends (u : string) : Prop := exists c t, u = String c t /\ (c = "," \/ c = "]")%char.

(** A text that tells what it is the text of, before a comma or a bracket *)
Definition tells {A} (w : A -> string) (same : A -> A -> Prop) : Prop :=
  (forall a, exists c t, w a = String c t /\ c <> "]"%char) /\
  forall a b u v, ends u -> ends v -> (w a ++ u)%string = (w b ++ v)%string -> same a b /\ u = v.

Lemma quote_tells q : quotes q -> tells q eq.
Proof.
  intros (Q & D). split.
  - intros s. destruct (Q s) as (t & [-> | ->]); eexists _, _; split; eauto; discriminate.
  - intros a b u v _ _ H. assert (a = b) as <- by eauto. split; auto. apply append_inj in H. auto.
Qed.

Lemma ends_comma l : ends (", " ++ l).
Proof. eexists _, _. cbn. eauto. Qed.

Lemma ends_bracket l : ends ("]" ++ l).
Proof. eexists _, _. cbn. eauto. Qed.

Lemma split_ends s s' u v :
  lacks "," s -> lacks "]" s -> lacks "," s' -> lacks "]" s' -> ends u -> ends v ->
  (s ++ u)%string = (s' ++ v)%string -> s = s' /\ u = v.
Proof.
  revert s'. induction s as [|a s IH]; intros [|b s'] A B C D U V H; cbn in *; auto.
  - exfalso. destruct U as (c & t & -> & K). injection H as -> _. destruct C, D, K; congruence.
  - exfalso. destruct V as (c & t & -> & K). injection H as -> _. destruct A, B, K; congruence.
  - injection H as -> H. destruct (IH s') as (-> & E); tauto.
Qed.

Lemma repr_tells repr : prints repr -> tells repr same_num.
Proof.
  intros (P & I). split.
  - intros x. destruct (P x) as (N & _ & _ & B). apply without_lacks in B.
    destruct (repr x) as [|c t]; [congruence|]. exists c, t. split; auto. apply B.
  - intros x y u v U V H. destruct (P x) as (_ & _ & Cx & Bx), (P y) as (_ & _ & Cy & By).
    apply split_ends in H; auto using without_lacks. destruct H as (E & ->). split; auto. apply I. auto.
Qed.

Lemma uint_lacks c d : (forall k, In k ["0";"1";"2";"3";"4";"5";"6";"7";"8";"9"]%char -> k <> c) ->
  lacks c (NilEmpty.string_of_uint d).
Proof. intros H. induction d; cbn; auto; split; auto; apply H; cbn; tauto. Qed.

Lemma decimal_lacks z c : (forall k, In k ["-";"0";"1";"2";"3";"4";"5";"6";"7";"8";"9"]%char -> k <> c) -> lacks c (show_int z).
Proof.
  intros H. unfold show_int. assert (U : forall d, lacks c (NilEmpty.string_of_uint d)).
  { intros d. apply uint_lacks. intros k K. apply H. right. auto. }
  destruct (Z.to_int z); cbn; auto. split; auto. apply H. left. auto.
Qed.

Lemma decimal_nonempty z : show_int z <> "".
Proof.
  unfold show_int. destruct z; cbn; try discriminate. change (NilEmpty.string_of_uint (Pos.to_uint p) <> "").
  assert (N : Pos.to_uint p <> Nil) by apply DecimalPos.Unsigned.to_uint_nonnil. destruct (Pos.to_uint p); cbn; congruence.
Qed.

Lemma int_tells : tells show_int eq.
Proof.
  assert (C : forall z, lacks "," (show_int z)) by (intros z; apply decimal_lacks; cbn; intuition (subst; discriminate)).
  assert (B : forall z, lacks "]" (show_int z)) by (intros z; apply decimal_lacks; cbn; intuition (subst; discriminate)).
  split.
  - intros z. specialize (B z). pose proof (decimal_nonempty z). destruct (show_int z) as [|c t]; [congruence|].
    exists c, t. split; auto. apply B.
  - intros x y u v U V H. apply split_ends in H; auto. destruct H as (E & ->). split; auto. apply show_int_inj. auto.
Qed.

Lemma concat_tells {A} (w : A -> string) (same : A -> A -> Prop) (T : tells w same) l m u v :
  (String.concat ", " (map w l) ++ "]" ++ u)%string = (String.concat ", " (map w m) ++ "]" ++ v)%string ->
  Forall2 same l m /\ u = v.
Proof.
  destruct T as (F & T). revert m. induction l as [|x l IH]; intros [|y m] H.
  - cbn in H. injection H as H. auto.
  - exfalso. destruct (F y) as (c & t & E & N). destruct m; cbn [map] in H; rewrite ?concat_cons in H; cbn [String.concat] in H;
      rewrite E in H; cbn in H; injection H as H _; congruence.
  - exfalso. destruct (F x) as (c & t & E & N). destruct l; cbn [map] in H; rewrite ?concat_cons in H; cbn [String.concat] in H;
      rewrite E in H; cbn in H; injection H as H _; congruence.
  - destruct l as [|x2 l], m as [|y2 m]; cbn [map] in H; rewrite ?concat_cons in H; cbn [String.concat] in H; rewrite ?append_assoc in H.
    + apply T in H as (S & H); try apply ends_bracket. injection H as H. split; [constructor; auto|auto].
    + exfalso. apply T in H as (_ & H); [discriminate|apply ends_bracket|apply ends_comma].
    + exfalso. apply T in H as (_ & H); [discriminate|apply ends_comma|apply ends_bracket].
    + apply T in H as (S & H); try apply ends_comma. cbn [append] in H. injection H as H.
      apply (IH (y2 :: m)) in H as (K & E). split; [constructor; auto|auto].
Qed.

Lemma option_tells {A} (w : A -> string) (same : A -> A -> Prop) (T : tells w same) o p u v :
  (show_option w o ++ u)%string = (show_option w p ++ v)%string -> same_list same o p /\ u = v.
Proof.
  unfold show_option, show_list. destruct o as [l|], p as [m|]; intros H.
  - rewrite !append_assoc in H. cbn [append] in H. injection H as H.
    apply (concat_tells w same T) in H as (F & E). split; auto. constructor; auto.
  - cbn in H. discriminate.
  - cbn in H. discriminate.
  - apply append_inj in H. split; auto. constructor.
Qed.

Lemma forall2_eq {A} (l m : list A) : Forall2 eq l m -> l = m.
Proof. induction 1; congruence. Qed.

Lemma same_list_eq {A} (o p : option (list A)) : same_list eq o p -> o = p.
Proof. intros [|l m F]; auto. f_equal. apply forall2_eq. auto. Qed.

Lemma items_concat {A} (w : A -> string) l : items w l = String.concat ", " (map w l).
Proof. induction l as [|x [|y l] IH]; auto. cbn [map] in *. rewrite concat_cons, <- IH. auto. Qed.

Lemma listed_show {A} (w : A -> string) l : listed w l = show_list w l.
Proof. unfold listed, show_list. rewrite items_concat. auto. Qed.

Lemma listed_inj {A} (w : A -> string) (T : tells w eq) l m : listed w l = listed w m -> l = m.
Proof.
  rewrite !listed_show. intros H. unfold show_list in H. cbn [append] in H. injection H as H.
  change "]" with ("]" ++ "")%string in H. apply (concat_tells w eq T) in H as (F & _). apply forall2_eq. auto.
Qed.

(** ** Alike *)

Lemma same_text repr o p : prints repr -> same_list same_num o p -> show_option repr o = show_option repr p.
Proof.
  intros (_ & P) [|l m F]; auto. cbn. unfold show_list. f_equal. f_equal. f_equal. induction F; cbn; auto. f_equal; auto. apply P. auto.
Qed.

Lemma same_num_list_refl l : same_list same_num l l.
Proof. destruct l as [l|]; constructor. induction l; constructor; auto. apply same_num_refl. Qed.

Lemma key_spec G rules by_name :
  quotes (g_quote G) -> prints (e_repr (g_env G)) -> comparable rules ->
  exists k, (forall r, In r rules -> key G by_name r = Ok (k r)) /\
    forall r r', In r rules -> In r' rules -> (k r = k r' <-> alike by_name r r').
Proof.
  intros Q P C. exists (fun r => match key G by_name r with Ok s => s | Err _ => "" end).
  assert (K : forall r, In r rules -> exists c p s, r_cond r = Some c /\ prediction r = Ok p /\ show_prediction (g_env G) p = Ok s /\
     key G by_name r = Ok ((if by_name then show_option (g_quote G) (c_names c) else show_option show_int (c_idx c)) ++
         show_option (e_repr (g_env G)) (c_min c) ++ show_option (e_repr (g_env G)) (c_max c) ++ s)%string).
  { intros r I. assert (X : r_cond r <> None /\ exists p s, prediction r = Ok p /\ show_prediction (g_env G) p = Ok s).
    { destruct C as [C|C]; rewrite Forall_forall in C; specialize (C _ I).
      - destruct C as (C & [E|(x & E)]); split; auto; rewrite E; do 2 eexists; split; reflexivity.
      - destruct C as (C & (x & E)); split; auto; rewrite E; do 2 eexists; split; reflexivity. }
    destruct X as (X & p & s & E & S). destruct (r_cond r) as [c|] eqn:Rc; [|congruence].
    exists c, p, s. repeat (split; auto). unfold key. rewrite Rc, E. cbn [rbind]. rewrite S. cbn [rmap]. auto. }
  split.
  { intros r I. destruct (K r I) as (c & p & s & _ & _ & _ & ->). auto. }
  intros r r' I I'. destruct (K r I) as (c & p & s & Rc & E & S & ->), (K r' I') as (c' & p' & s' & Rc' & E' & S' & ->).
  assert (PS : s = s' <-> same_prediction p p').
  { destruct P as (P & PI). destruct C as [C|C]; rewrite Forall_forall in C; pose proof (C _ I) as Hr; pose proof (C _ I') as Hr'.
    - destruct Hr as (_ & [X|(x & X)]), Hr' as (_ & [Y|(y & Y)]); rewrite E in X; rewrite E' in Y; injection X as ->; injection Y as ->;
        cbn in S, S'; injection S as <-; injection S' as <-.
      + split; [constructor|auto].
      + split; [intros Z; destruct (P y) as (_ & Z' & _); congruence|intros Z; inversion Z].
      + split; [intros Z; destruct (P x) as (_ & Z' & _); congruence|intros Z; inversion Z].
      + rewrite PI. split; [constructor; auto|intros Z; inv Z; auto].
    - destruct Hr as (_ & (x & X)), Hr' as (_ & (y & Y)); rewrite E in X; rewrite E' in Y; injection X as ->; injection Y as ->;
        cbn in S, S'; injection S as <-; injection S' as <-.
      split; [intros ->; constructor|intros Z; inv Z; auto]. }
  split.
  - intros H. assert (F : same_features by_name c c' /\ (show_option (e_repr (g_env G)) (c_min c) ++ show_option (e_repr (g_env G)) (c_max c) ++ s)%string =
      (show_option (e_repr (g_env G)) (c_min c') ++ show_option (e_repr (g_env G)) (c_max c') ++ s')%string).
    { destruct by_name.
      - apply (option_tells _ _ (quote_tells _ Q)) in H as (F & H). split; auto. constructor; auto. apply same_list_eq; auto.
      - apply (option_tells _ _ int_tells) in H as (F & H). split; auto. apply same_indexes; auto. apply same_list_eq; auto. }
    destruct F as (F & H1). apply (option_tells _ _ (repr_tells _ P)) in H1 as (M1 & H1).
    apply (option_tells _ _ (repr_tells _ P)) in H1 as (M2 & H1).
    exists c, c', p, p'. repeat (split; auto). apply PS. auto.
  - intros (d & d' & q & q' & D & D' & F & M1 & M2 & Z & Z' & SP).
    rewrite Rc in D. injection D as <-. rewrite Rc' in D'. injection D' as <-. rewrite E in Z. injection Z as <-. rewrite E' in Z'. injection Z' as <-.
    apply PS in SP. subst s'. rewrite (same_text _ _ _ P M1), (same_text _ _ _ P M2). f_equal.
    destruct F as [? ? -> ->|? ? -> ->]; auto.
Qed.

Lemma has_dup_iff (l : list string) : has_dup str_eqb l = true <-> exists a x b c, l = a ++ x :: b ++ x :: c.
Proof.
  split.
  - intros H. assert (N : ~ NoDup l). { intros N. apply (has_dup_spec _ str_eqb_iff) in N. congruence. }
    clear H. induction l as [|x l IH]; [exfalso; apply N; constructor|].
    destruct (in_dec string_dec x l) as [I|I].
    + apply in_split in I as (b & c & ->). exists [], x, b, c. auto.
    + destruct IH as (a & y & b & c & ->). { intros K. apply N. constructor; auto. } exists (x :: a), y, b, c. auto.
  - intros (a & x & b & c & ->). destruct (has_dup str_eqb _) eqn:E; auto. apply (has_dup_spec _ str_eqb_iff) in E.
    apply NoDup_remove_2 in E. exfalso. apply E. apply in_or_app. right. apply in_or_app. right. left. auto.
Qed.

Lemma map_split {A B} (f : A -> B) l a b : map f l = a ++ b -> exists l1 l2, l = l1 ++ l2 /\ map f l1 = a /\ map f l2 = b.
Proof. apply map_eq_app. Qed.

Lemma check_ok G rules by_name :
  quotes (g_quote G) -> prints (e_repr (g_env G)) -> comparable rules ->
  (check_duplicated_rules G rules by_name = Ok tt /\ ~ repeated by_name rules) \/
  (check_duplicated_rules G rules by_name = Err EValue /\ repeated by_name rules).
Proof.
  intros Q P C. destruct (key_spec G rules by_name Q P C) as (k & K & I). unfold check_duplicated_rules.
  rewrite (rseq_ok _ k) by auto. cbn [rbind].
  assert (E : has_dup str_eqb (map k rules) = true <-> repeated by_name rules).
  { rewrite has_dup_iff. split.
    - intros (a & x & b & c & H). apply map_split in H as (l1 & l2 & -> & H1 & H2). destruct l2 as [|r l2]; [discriminate|].
      cbn in H2. injection H2 as Hx H2. apply map_split in H2 as (l3 & l4 & -> & H3 & H4). destruct l4 as [|r' l4]; [discriminate|].
      cbn in H4. injection H4 as Hx' H4. exists l1, r, l3, r', l4. split; auto. apply I.
      + apply in_or_app. right. left. auto.
      + apply in_or_app. right. right. apply in_or_app. right. left. auto.
      + congruence.
    - intros (l & r & m & r' & n & -> & H). exists (map k l), (k r), (map k m), (map k n). rewrite map_app. cbn. rewrite map_app. cbn.
      replace (k r') with (k r); auto. apply I; auto.
      + apply in_or_app. right. left. auto.
      + apply in_or_app. right. right. apply in_or_app. right. left. auto. }
  destruct (has_dup str_eqb (map k rules)).
  - right. split; auto. apply E. auto.
  - left. split; auto. intros R. apply E in R. discriminate.
Qed.

Lemma uses_names_iff s by_name : (by_name = true <-> s_names s <> []) -> uses_names s = by_name.
Proof.
  unfold uses_names. intros H. destruct (s_names s), by_name; auto.
  - destruct H as (H & _). destruct H; auto.
  - destruct H as (_ & H). symmetry. apply H. discriminate.
Qed.

Lemma contains_ok G s r by_name : (by_name = true <-> s_names s <> []) ->
  quotes (g_quote G) -> prints (e_repr (g_env G)) -> comparable (r :: s_rules s) ->
  exists b, contains G s r = Ok b /\
    (b = true <-> exists r', In r' (s_rules s) /\ alike by_name r' r).
Proof.
  intros U Q P C. apply uses_names_iff in U. subst by_name. destruct (key_spec G _ (uses_names s) Q P C) as (k & K & I). unfold contains.
  rewrite (rseq_ok _ k) by (intros; apply K; right; auto). cbn [rbind]. rewrite (K r) by (left; auto). cbn [rmap].
  eexists. split; eauto. rewrite (mem_spec _ str_eqb_iff), in_map_iff. split.
  - intros (r' & E & H). exists r'. split; auto. apply I; cbn; auto.
  - intros (r' & H & A). exists r'. split; auto. apply I; cbn; auto.
Qed.
