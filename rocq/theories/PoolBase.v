From Coq Require Import List ZArith QArith Bool String Lia.
From Coq Require Import List.
From Verif Require Import Base Num CondModel ThrModel MetModel RuleModel PredModel SetModel SetSpec SetBase SetAdd SetEq SerialModel PoolModel PoolSpec.
Import ListNotations.
Open Scope string_scope.
Open Scope list_scope.
Open Scope Z_scope.

(** ** Objects *)

Lemma put_same {A} l (x : A) f : put_at l x f l = x.
Proof. unfold put_at. rewrite Nat.eqb_refl. auto. Qed.

Lemma put_other {A} l (x : A) f k : k <> l -> put_at l x f k = f k.
Proof. intros N. unfold put_at. destruct (Nat.eqb_spec k l); congruence. Qed.

Lemma put_all_other {A} : forall ls (xs : list A) f k, ~ In k ls -> put_all ls xs f k = f k.
Proof.
  induction ls as [|l ls IH]; intros [|x xs] f k N; cbn; auto. rewrite put_other.
  - apply IH. intros I. apply N. right; auto.
  - intros ->. apply N. left; auto.
Qed.

Lemma put_all_same {A} : forall ls (xs : list A) f, NoDup ls -> List.length xs = List.length ls -> map (put_all ls xs f) ls = xs.
Proof.
  induction ls as [|l ls IH]; intros [|x xs] f D L; cbn in *; try discriminate; auto. inversion D; subst. rewrite put_same. f_equal.
  rewrite <- (IH xs f) at 2; auto. apply map_ext_in. intros k K. apply put_other. intros ->. auto.
Qed.

Lemma put_all_id {A} : forall ls (f : nat -> A) k, put_all ls (map f ls) f k = f k.
Proof.
  induction ls as [|l ls IH]; intros f k; cbn; auto. unfold put_at. destruct (Nat.eqb_spec k l); subst; auto.
Qed.

Lemma replace_other {A} : forall i (x : A) l j, i <> j -> nth_error (replace i x l) j = nth_error l j.
Proof.
  induction i as [|i IH]; intros x [|y l] [|j] N; cbn; auto; congruence.
Qed.

Lemma replace_same {A} : forall i (x : A) l y, nth_error l i = Some y -> nth_error (replace i x l) i = Some x.
Proof. induction i as [|i IH]; intros x [|z l] y E; cbn in *; try discriminate; auto. eauto. Qed.

Lemma replace_length {A} : forall i (x : A) l, List.length (replace i x l) = List.length l.
Proof. induction i as [|i IH]; intros x [|z l]; cbn; auto. Qed.

Lemma same_ruleset a b : s_rules a = s_rules b -> s_stacked a = s_stacked b ->
  with_rules [] (with_stacked None a) = with_rules [] (with_stacked None b) -> a = b.
Proof. destruct a, b. cbn. intros -> -> E. inversion E. auto. Qed.

Lemma view_of p h s : map (p_rules p) (b_rules h) = s_rules s -> option_map (p_frames p) (b_frame h) = s_stacked s -> b_rest h = s ->
  view p h = s.
Proof. intros A B C. unfold view. rewrite A, B, C. destruct s; auto. Qed.

Lemma view_same p p' h : (forall l, In l (b_rules h) -> p_rules p' l = p_rules p l) ->
  (forall k, b_frame h = Some k -> p_frames p' k = p_frames p k) -> view p' h = view p h.
Proof.
  intros R F. unfold view. f_equal.
  - apply map_ext_in. auto.
  - f_equal. destruct (b_frame h) as [k|]; cbn; auto. rewrite F; auto.
Qed.

Lemma get_ok p i h : get p i = Ok h <-> ruleset_at p i h.
Proof. unfold get, ruleset_at. destruct (nth_error (p_sets p) i); split; intros E; congruence. Qed.

Lemma get_err p i e : get p i = Err e -> forall h, ~ ruleset_at p i h.
Proof. unfold get, ruleset_at. destruct (nth_error (p_sets p) i); intros E g K; congruence. Qed.

(** ** What a command leaves *)

(** [c] sets the ruleset [t] if any, changes the rules [R] at most, and the DataFrame
    [F] at most; [q] is the ruleset afterwards, or the new one. *)
Record effect (p p' : pool) (t : option nat) (R : nat -> Prop) (F : nat -> Prop) : Prop := mkEffect {
  ef_rules : forall l, ~ R l -> p_rules p' l = p_rules p l;
  ef_frames : forall k, (k < p_next p)%nat -> ~ F k -> p_frames p' k = p_frames p k;
  ef_next : (p_next p <= p_next p')%nat;
  ef_sets : forall j h, ruleset_at p j h -> t <> Some j -> ruleset_at p' j h }.

Lemma effect_none p t R F : effect p p t R F.
Proof. constructor; auto. Qed.

(** The rulesets afterwards: [q] at [t] or at the end, and the others *)
Definition rulesets_after (p p' : pool) (t : option nat) (q : handle) : Prop :=
  forall j g, ruleset_at p' j g ->
    (ruleset_at p j g /\ t <> Some j) \/ (g = q /\ (t = Some j \/ (t = None /\ j = List.length (p_sets p)))).

(** Either nothing happens, or a ruleset is set. *)
Definition does (p p' : pool) (t : option nat) (R F : nat -> Prop) (Q : handle -> Prop) : Prop :=
  effect p p' t R F /\ (p_sets p' = p_sets p /\ p_next p' = p_next p \/ exists q, rulesets_after p p' t q /\ Q q).

Lemma does_none p t R F Q : does p p t R F Q.
Proof. split; [apply effect_none|]. left; auto. Qed.

Lemma after_replace p p' i q h : ruleset_at p i h -> p_sets p' = replace i q (p_sets p) -> rulesets_after p p' (Some i) q.
Proof.
  intros A E j g J. unfold ruleset_at in *. rewrite E in J. destruct (Nat.eq_dec i j) as [->|N].
  - rewrite (replace_same _ _ _ _ A) in J. right. split; [congruence|auto].
  - rewrite replace_other in J by auto. left. split; auto. congruence.
Qed.

Lemma after_snoc p p' q : p_sets p' = p_sets p ++ [q] -> rulesets_after p p' None q.
Proof.
  intros E j g J. unfold ruleset_at in *. rewrite E in J. destruct (Nat.lt_ge_cases j (List.length (p_sets p))) as [L|L].
  - rewrite nth_error_app1 in J by auto. left. split; auto. discriminate.
  - rewrite nth_error_app2 in J by auto. right. destruct (j - List.length (p_sets p))%nat eqn:D; cbn in J.
    + split; [congruence|]. right. split; auto. lia.
    + destruct n; discriminate.
Qed.

(** A new DataFrame, or none *)
Definition newer (p p' : pool) (f : option nat) : Prop := f = None \/ exists k, f = Some k /\ (p_next p <= k < p_next p')%nat.

Lemma newer_next p p' : p_next p' = S (p_next p) -> newer p p' (Some (p_next p)).
Proof. intros E. right. exists (p_next p). split; auto. lia. Qed.

(** The DataFrame of the ruleset [i] afterwards: the same, a new one, or none *)
Definition own (p p' : pool) (h : handle) (q : handle) : Prop := b_frame q = b_frame h \/ newer p p' (b_frame q).

Lemma sets_kept p p' i q : p_sets p' = replace i q (p_sets p) -> forall j h, ruleset_at p j h -> Some i <> Some j -> ruleset_at p' j h.
Proof. intros E j h J N. unfold ruleset_at in *. rewrite E, replace_other; congruence. Qed.

Lemma fresh_cases s p : (s_stacked s = None /\ fresh_frame s p = (None, p)) \/
  (exists f, s_stacked s = Some f /\ fresh_frame s p =
     (Some (p_next p), mkPool (p_rules p) (put_at (p_next p) f (p_frames p)) (S (p_next p)) (p_sets p))).
Proof. unfold fresh_frame. destruct (s_stacked s) as [f|]; [right; exists f|left]; auto. Qed.

