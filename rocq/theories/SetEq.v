(** Sums, equality and hashes of rulesets. *)
From Coq Require Import List ZArith QArith Bool String Ascii Permutation Lia.
From Coq Require Import List.
From Verif Require Import Base Num CondModel CondSpec CondBase CondMore CondSet ThrModel ThrProofs MetModel MetSpec RuleModel RuleSpec RuleProofs RuleValues RuleMisc PredName.
From Verif Require Import PredModel PredSpec PredReg PredStack SetModel SetSpec SetBase SetSort SetAct SetAdd.
Import ListNotations.
Open Scope string_scope.
Open Scope list_scope.
Open Scope Z_scope.

(** ** The constructor succeeds *)

Lemma available_working r : activation_available r = true <-> exists v, working r None v.
Proof.
  unfold activation_available. split.
  - destruct (r_act r) as [a|] eqn:A; [|discriminate]. intros H. exists (v_bits a). apply working_act. eauto.
  - intros (v & W). apply working_act in W as (a & A & H & _). rewrite A. auto.
Qed.

Lemma add_rule_plain G r s : s_compute s = false -> s_stack s = false -> usable r ->
  (s_type s = None \/ exists t, s_type s = Some t /\ instance r t) ->
  exists s', add_rule G r s = (Ok tt, s').
Proof.
  intros C K (c & i & n & Rc & Ci & Cn) T. unfold add_rule.
  assert (X : exists s1, (match s_type s with
         | None => done (with_type (Some (r_kind r)) s)
         | Some t => if isinstance (r_kind r) t then done s else (Err EType, s)
         end) = (Ok tt, s1) /\ s_compute s1 = false /\ s_stack s1 = false).
  { destruct T as [T|(t & T & I)]; rewrite T; [eexists; split; [reflexivity|]; auto|]. apply isinstance_spec in I. rewrite I. exists s. auto. }
  destruct X as (s1 & X & C1 & K1). rewrite X. cbn [chain]. unfold add_features, rule_indexes, rule_names. rewrite Rc, Ci, Cn. cbn.
  rewrite C1. cbn. rewrite K1. eexists. reflexivity.
Qed.

Lemma append_plain G r s k : s_compute s = true -> usable r -> r_kind r = k -> (s_type s = None \/ s_type s = Some k) ->
  exists s', append G (ERule r) false s = (Ok tt, s') /\ s_compute s' = true /\ s_type s' = Some k.
Proof.
  intros C U R T. destruct (add_rule_plain G r (with_stack false (with_compute false s))) as (s1 & H); auto.
  { cbn. destruct T as [T|T]; [auto|right; exists k; split; auto; right; auto]. }
  assert (A : append G (ERule r) false s = (Ok tt, with_stack (s_stack s) (with_compute true s1))).
  { unfold append. rewrite H. reflexivity. }
  eexists. split; [exact A|]. split; auto. cbn. apply add_rule_ok in H. rewrite (ad_type _ _ _ _ H). f_equal. unfold type_after. cbn.
  destruct T as [T|T]; rewrite T; auto.
Qed.

Lemma append_all_plain G k l : (forall r, In r l -> r_kind r = k) -> (forall r, In r l -> usable r) -> forall s,
  s_compute s = true -> (s_type s = None \/ s_type s = Some k) -> exists s', append_all G (map ERule l) s = (Ok tt, s').
Proof.
  induction l as [|r l IH]; intros K U s C T; [exists s; auto|].
  destruct (append_plain G r s k) as (s1 & H & C1 & T1); auto; [apply U|apply K|]; try (left; reflexivity).
  destruct (IH (fun q Q => K q (or_intror Q)) (fun q Q => U q (or_intror Q)) s1) as (s2 & H2); auto.
  exists s2. cbn [map append_all]. rewrite H. cbn [chain]. auto.
Qed.

Lemma evaluate_self_plain s : compatible (s_rules s) -> exists o, evaluate_self_activation None s = Ok o.
Proof.
  intros (_ & _ & V). unfold evaluate_self_activation. destruct (s_rules s) as [|r0 t0] eqn:R; [eauto|]. rewrite <- R in *.
  destruct (forallb activation_available (s_rules s)) eqn:F; [|cbn; eauto].
  rewrite forallb_forall in F. destruct V as [(r & I & N)|(n & V)].
  { specialize (F r I). apply available_working in F as (v & W). destruct (N v W). }
  assert (X : exists acs, rseq (map (fun r => match r_act r with Some a => Ok a | None => Err EAttr end) (s_rules s)) = Ok acs /\
    Forall (fun a => v_here a = true /\ List.length (v_bits a) = n) acs).
  { clear R F. induction (s_rules s) as [|r l IH]; [exists []; auto|].
    destruct (V r (or_introl eq_refl)) as (v & W & L). apply working_act in W as (a & A & Ha & E).
    destruct IH as (acs & E2 & F2). { intros q Q. apply V. right; auto. }
    exists (a :: acs). cbn [map rseq]. rewrite A, E2. split; auto. constructor; auto. split; auto. congruence. }
  destruct X as (acs & E & FA). rewrite E. cbn [rmap rbind].
  assert (X : exists vs, rseq (map raw acs) = Ok vs /\ Forall (fun v => List.length v = n) vs).
  { clear E. induction FA as [|a acs (Ha & La) FA (vs & E & FV)]; [exists []; auto|]. exists (v_bits a :: vs). cbn [map rseq].
    unfold raw at 1. rewrite Ha, E. split; auto. }
  destruct X as (vs & EV & FV).
  assert (NE : acs <> []). { rewrite R in E. cbn [map rseq] in E. destruct (r_act r0); [|discriminate]. destruct (rseq _) in E; [|discriminate]. cbn in E. congruence. }
  assert (M : exists a, multi_or acs = Ok a).
  { unfold multi_or. rewrite EV. cbn [rbind]. destruct acs as [|a acs]; [congruence|].
    destruct vs as [|v vs].
    { cbn [map rseq] in EV. destruct (raw a); [|discriminate]. destruct (rseq _) in EV; discriminate. }
    inv FV. replace (forallb _ vs) with true; [eauto|]. symmetry. apply forallb_forall. intros w I. rewrite Forall_forall in H2.
    apply Nat.eqb_eq. auto. }
  destruct M as (a & M). destruct acs as [|a1 [|a2 acs]]; [congruence| |rewrite M; cbn; eauto].
  cbn [map rseq] in EV. destruct (raw a1) as [v|]; [|discriminate]. cbn. eauto.
Qed.

Lemma new_set_total G l compute : compatible l -> g_indexes G = [] -> g_check G = false ->
  exists s, new_set G (Some (map ERule l)) compute false = Ok s.
Proof.
  intros C GI GC. pose proof C as ((k & K) & U & V). destruct (append_all_plain G k l K U (empty_set false)) as (s1 & H1); auto.
  pose proof (append_all_extends _ _ _ _ H1) as (X & _). rewrite the_rules_map in X. destruct X as [R _ _ _ _ _ _ _]. cbn in R.
  unfold new_set. rewrite H1. cbn [chain].
  destruct (evaluate_self_plain s1) as (o & E). { rewrite R. auto. }
  assert (X : exists s2, (if compute then compute_self_activation None s1 else done s1) = (Ok tt, s2) /\ s_rules s2 = l).
  { destruct compute; [|exists s1; auto]. unfold compute_self_activation. rewrite E. cbn. eexists. split; [reflexivity|auto]. }
  destruct X as (s2 & E2 & R2). rewrite E2. cbn [chain done].
  assert (X : exists names, rseq (map (fun r => rbind (rule_names r) need) (s_rules s2)) = Ok names).
  { rewrite R2. clear - U. induction l as [|r l IH]; [exists []; auto|]. destruct (U r (or_introl eq_refl)) as (c & i & n & A & B & D).
    destruct IH as (names & E). { intros q Q. apply U. right; auto. }
    exists (n :: names). cbn [map rseq]. unfold rule_names at 1. rewrite A. cbn [rbind]. rewrite D. cbn [need rbind]. rewrite E. auto. }
  destruct X as (names & EN). rewrite EN. cbn [use chain done]. unfold init_features_indexes. rewrite GI. cbn [rbind done].
  rewrite GC. eauto.
Qed.

Lemma new_set_same G l compute stacking s : g_indexes G = [] -> new_set G (Some (map ERule l)) compute stacking = Ok s -> s_rules s = l.
Proof. intros I H. apply new_set_ok in H as (B & _). rewrite the_rules_map in B. apply (bu_same _ _ _ _ _ B). auto. Qed.

(** The rules of a new ruleset are those given, up to the indexes of the features. *)
Lemma constructed G l compute stacking s : new_set G (Some l) compute stacking = Ok s ->
  ~ In EOther l /\ s_stack s = stacking /\ s_coverage s = none /\ s_criterion s = none /\
  Forall2 (fun r r' => r_kind r' = r_kind r /\ r_act r' = r_act r /\ r_dict r' = r_dict r /\
    exists c c', r_cond r = Some c /\ r_cond r' = Some c' /\ c_names c' = c_names c /\ c_min c' = c_min c /\ c_max c' = c_max c /\
      (g_indexes G = [] -> c_idx c' = c_idx c))
    (the_rules l) (s_rules s).
Proof.
  intros H. apply new_set_ok in H as (B & N & _). destruct (bu_rest _ _ _ _ _ B) as (B1 & B2 & _ & _ & B5 & _).
  do 4 (split; auto). pose proof (bu_rules _ _ _ _ _ B) as F. pose proof (bu_same _ _ _ _ _ B) as Sm.
  destruct (g_indexes G) as [|p t].
  - rewrite (Sm eq_refl) in *. clear - F. apply forall2_diag. intros r R. do 3 (split; auto).
    destruct (forall2_in _ _ _ F) as (F1 & _). destruct (F1 r R) as (r' & _ & [_ _ _ _ (c & c' & l' & C & _)]).
    exists c, c. do 5 (split; auto).
  - clear - F. induction F as [|r r' l1 m [A1 A2 A3 A4 (c & c' & l' & C & C' & M1 & M2 & M3 & M4 & M5)] F IH]; constructor; auto.
    do 3 (split; auto). exists c, c'. do 5 (split; auto). discriminate.
Qed.

(** ** + *)

Lemma plus_rule_ok G s r u : plus_rule G s r = Ok u -> g_indexes G = [] -> s_rules u = s_rules s ++ [r] /\ s_stack u = s_stack s.
Proof.
  unfold plus_rule. intros H I. split; [eapply new_set_same; eauto|].
  apply new_set_ok in H as (B & _). destruct (bu_rest _ _ _ _ _ B) as (_ & _ & _ & _ & B5 & _). auto.
Qed.

Lemma plus_rule_total G s r : compatible (s_rules s ++ [r]) -> s_stack s = false -> g_indexes G = [] -> g_check G = false ->
  exists u, plus_rule G s r = Ok u.
Proof. intros C K I X. unfold plus_rule. rewrite K. apply new_set_total; auto. Qed.

(** Hashes of rules *)
Section Hash.
Variable H : hashing.
Hypothesis HU : unordered H.
Hypothesis HC : collision_free H.

Definition code (h : Z) (r : rule) : Prop := rule_hash H r = Ok h.

Lemma regular_code r : regular r -> exists h, code h r.
Proof.
  intros (c & fs & C & Cf & P). unfold code, rule_hash, rule_to_hash. rewrite C, (to_hash_lists H c fs) by apply Cf. cbn. eauto.
Qed.

Lemma same_code r r' h : regular r -> regular r' -> same_rule r r' -> code h r -> code h r'.
Proof.
  intros _ _ (c & d & fs & gs & C & D & Cf & Dg & S) E.
  destruct (equal_rules H r r' c d fs gs HU C D Cf Dg S) as (_ & k & K1 & K2). unfold code in *. congruence.
Qed.

Lemma code_same r r' h : regular r -> regular r' -> code h r -> code h r' -> same_rule r r' /\ rule_eq H r r' = Ok true.
Proof.
  intros (c & fs & C & Cf & P) (d & gs & D & Dg & Q) E E'. unfold code, rule_hash, rule_to_hash in *. rewrite C in E. rewrite D in E'.
  rewrite (to_hash_lists H c fs) in E by apply Cf. rewrite (to_hash_lists H d gs) in E' by apply Dg. cbn in E, E'.
  assert (X : h_set H (h_str H "r" :: map (hash_feature H) fs) = h_set H (h_str H "r" :: map (hash_feature H) gs)) by congruence.
  apply HC in X. apply Permutation_cons_inv in X.
  assert (K : ceq H c d = Ok true).
  { unfold ceq, hash. rewrite (to_hash_lists H c fs) by apply Cf. rewrite (to_hash_lists H d gs) by apply Dg. cbn.
    rewrite (HU (h_str H "c" :: map (hash_feature H) fs) (h_str H "c" :: map (hash_feature H) gs)) by (constructor; auto).
    rewrite Z.eqb_refl. auto. }
  split; [|unfold rule_eq; rewrite C, D; auto].
  exists c, d, fs, gs. do 4 (split; auto). eapply equal_converse; eauto.
Qed.

Lemma same_refl r : regular r -> same_rule r r.
Proof. intros R. destruct (regular_code r R) as (h & E). apply (code_same r r h R R E E). Qed.

Definition coded (l : list (Z * rule)) : Prop := forall h r, In (h, r) l -> regular r /\ code h r.

Lemma same_element_ok h r k q : regular r -> regular q -> code h r -> code k q ->
  exists b, same_element H (h, r) (k, q) = Ok b /\ (b = true <-> h = k) /\ (b = true <-> same_rule r q).
Proof.
  intros R Q E F. unfold same_element. cbn [fst snd]. destruct (h =? k) eqn:X.
  - apply Z.eqb_eq in X. subst k. destruct (code_same r q h R Q E F) as (S1 & S2). exists true. rewrite S2. split; auto. split; split; auto.
  - apply Z.eqb_neq in X. exists false. split; auto. split; split; try discriminate; [congruence|]. intros S. exfalso. apply X.
    pose proof (same_code r q h R Q S E) as Y. unfold code in *. congruence.
Qed.

Lemma member_ok h r l : regular r -> code h r -> coded l ->
  exists b, member H (h, r) l = Ok b /\ (b = true <-> In h (map fst l)) /\ (b = true <-> exists q, In q (map snd l) /\ same_rule r q).
Proof.
  intros R E. induction l as [|(k, q) l IH]; intros C.
  - exists false. split; auto. split; split; try discriminate; [intros []|intros (q & [] & _)].
  - destruct (C k q (or_introl eq_refl)) as (Q & F). destruct (same_element_ok h r k q R Q E F) as (b & B & B1 & B2).
    destruct IH as (b' & B' & B1' & B2'). { intros k' q' I. apply C. right; auto. }
    cbn [member]. rewrite B. cbn [rbind map fst snd]. destruct b.
    + exists true. split; auto. split; split; auto; intros _.
      * left. symmetry. apply B1. auto.
      * exists q. split; [left; auto|apply B2; auto].
    + exists b'. split; auto. split; [rewrite B1'|rewrite B2']; split.
      * right; auto.
      * intros [X|X]; auto. exfalso. symmetry in X. apply B1 in X. discriminate.
      * intros (q' & I & S). exists q'. split; [right; auto|auto].
      * intros (q' & [<-|I] & S); [apply B2 in S; discriminate|]. exists q'. auto.
Qed.

Lemma rule_set_snoc l r : rule_set H (l ++ [r]) =
  rbind (rule_set H l) (fun u => rbind (rule_hash H r) (fun h => rbind (member H (h, r) u) (fun b => if b then Ok u else Ok (u ++ [(h, r)])))).
Proof. unfold rule_set. rewrite fold_left_app. reflexivity. Qed.

Lemma fop_snoc {A} (R : A -> A -> Prop) l x : ForallOrdPairs R l -> (forall y, In y l -> R y x) -> ForallOrdPairs R (l ++ [x]).
Proof.
  induction 1 as [|y l F1 F2 IH]; intros K; cbn [app].
  - constructor; [constructor|constructor].
  - constructor.
    + apply Forall_app. split; auto. constructor; auto. apply K. left; auto.
    + apply IH. intros z Z. apply K. right; auto.
Qed.

Lemma rule_set_ok l : (forall r, In r l -> regular r) ->
  exists u, rule_set H l = Ok u /\ coded u /\ NoDup (map fst u) /\
    (forall h r, In r l -> code h r -> In h (map fst u)) /\ without_repetition l (map snd u).
Proof.
  induction l as [|r l IH] using rev_ind; intros R.
  - exists []. split; auto. split; [intros h r []|]. split; [constructor|]. split; [intros h r []|].
    split; [intros r []|]. split; [intros r []|constructor].
  - destruct IH as (u & E & C & N & I & W1 & W2 & W3). { intros q Q. apply R. apply in_or_app; auto. }
    assert (Rr : regular r) by (apply R; apply in_or_app; right; left; auto).
    destruct (regular_code r Rr) as (h & Eh). destruct (member_ok h r u Rr Eh C) as (b & B & B1 & B2).
    rewrite rule_set_snoc, E. cbn [rbind]. unfold code in Eh. rewrite Eh. cbn [rbind]. rewrite B. cbn [rbind].
    assert (F : forall q, In q (map snd u) -> exists a b, l ++ [r] = a ++ q :: b /\ forall q', In q' a -> ~ same_rule q' q).
    { intros q Q. destruct (W1 q Q) as (a & b' & -> & X). exists a, (b' ++ [r]). rewrite <- app_assoc. auto. }
    destruct b.
    + exists u. split; auto. split; auto. split; auto. split.
      { intros k q Q K. apply in_app_or in Q as [Q|[<-|[]]]; [eapply I; eauto|]. assert (k = h) as -> by (unfold code in K; congruence). apply B1. auto. }
      split; auto. split; auto. intros q Q. apply in_app_or in Q as [Q|[<-|[]]]; auto. apply B2. auto.
    + exists (u ++ [(h, r)]). split; auto.
      assert (NI : ~ In h (map fst u)) by (intros X; apply B1 in X; discriminate).
      assert (NS : forall q, In q (map snd u) -> ~ same_rule r q). { intros q Q S. assert (false = true) by (apply B2; eauto). discriminate. }
      assert (RU : forall q, In q (map snd u) -> regular q /\ exists k, code k q).
      { intros q Q. apply in_map_iff in Q as ((k, q') & <- & Q). destruct (C k q' Q). cbn; eauto. }
      assert (SY : forall q, regular q -> same_rule q r -> same_rule r q).
      { intros q Rq S. pose proof (regular_code q Rq) as (k & Ek). pose proof (same_code q r k Rq Rr S Ek) as Er.
        apply (code_same r q k Rr Rq Er Ek). }
      split; [|split; [|split; [|split; [|split]]]].
      * intros k q Q. apply in_app_or in Q as [Q|[Q|[]]]; [auto|]. injection Q as <- <-. auto.
      * rewrite map_app. cbn. apply (Permutation_NoDup (Permutation_cons_append (map fst u) h)). constructor; auto.
      * intros k q Q K. rewrite map_app, in_app_iff. apply in_app_or in Q as [Q|[<-|[]]]; [left; eapply I; eauto|]. right. left. unfold code in K. cbn. congruence.
      * rewrite map_app. intros q Q. apply in_app_or in Q as [Q|[<-|[]]]; auto. exists l, []. split; auto. cbn [snd].
        intros q' Q' S. assert (Rq : regular q') by (apply R; apply in_or_app; auto). destruct (W2 q' Q') as (q & Q & S').
        apply (NS q Q). destruct (RU q Q) as (Rq2 & k & Ek).
        pose proof (regular_code q' Rq) as (k' & Ek'). pose proof (same_code q' q k' Rq Rq2 S' Ek') as E3. pose proof (same_code q' r k' Rq Rr S Ek') as E4.
        apply (code_same r q k' Rr Rq2 E4 E3).
      * intros q Q. rewrite map_app. apply in_app_or in Q as [Q|[<-|[]]].
        -- destruct (W2 q Q) as (q' & Q' & S). exists q'. split; auto. apply in_or_app; auto.
        -- exists r. split; [apply in_or_app; right; left; auto|apply same_refl; auto].
      * rewrite map_app. apply fop_snoc; auto. cbn [snd]. intros q Q S. apply (NS q Q). apply SY; auto. apply RU. auto.
Qed.

Lemma all_members_ok l m : coded l -> coded m ->
  exists b, all_members H l m = Ok b /\ (b = true <-> incl (map fst l) (map fst m)).
Proof.
  induction l as [|(h, r) l IH]; intros C D.
  - exists true. split; auto. split; auto. intros _ x [].
  - destruct (C h r (or_introl eq_refl)) as (R & E). destruct (member_ok h r m R E D) as (b & B & B1 & _).
    destruct IH as (b' & B' & B1'); auto. { intros k q I. apply C. right; auto. }
    cbn [all_members]. rewrite B. cbn [rbind map fst]. destruct b.
    + exists b'. split; auto. rewrite B1'. split.
      * intros X x [<-|I]; [apply B1; auto|apply X; auto].
      * intros X x I. apply X. right; auto.
    + exists false. split; auto. split; [discriminate|]. intros X. apply B1. apply X. left; auto.
Qed.

Lemma set_eq_ok s t : (forall r, In r (s_rules s) -> regular r) -> (forall r, In r (s_rules t) -> regular r) ->
  exists b, set_eq H s t = Ok b /\
    (b = true <-> (forall r, In r (s_rules s) -> exists r', In r' (s_rules t) /\ same_rule r r') /\
                  (forall r, In r (s_rules t) -> exists r', In r' (s_rules s) /\ same_rule r r')).
Proof.
  intros R Q. destruct (rule_set_ok _ R) as (a & A & Ca & Na & Ia & Wa & _ & _). destruct (rule_set_ok _ Q) as (b & B & Cb & Nb & Ib & Wb & _ & _).
  unfold set_eq. rewrite A, B. cbn [rbind].
  assert (IN : forall l u (Cu : coded u) (W : forall r, In r (map snd u) -> exists a b, l = a ++ r :: b /\ forall q, In q a -> ~ same_rule q r) h,
    In h (map fst u) -> exists r, In r l /\ regular r /\ code h r).
  { intros l u Cu W h I. apply in_map_iff in I as ((h', r) & <- & I). destruct (Cu h' r I) as (X1 & X2). exists r. split; auto.
    apply (in_map snd) in I. destruct (W _ I) as (l1 & l2 & -> & _). cbn. apply in_or_app. right. left. auto. }
  assert (INC : forall l m u v (Rl : forall r, In r l -> regular r) (Rm : forall r, In r m -> regular r)
      (Cu : coded u) (Wu : forall r, In r (map snd u) -> exists a b, l = a ++ r :: b /\ forall q, In q a -> ~ same_rule q r)
      (Iu : forall h r, In r l -> code h r -> In h (map fst u))
      (Cv : coded v) (Wv : forall r, In r (map snd v) -> exists a b, m = a ++ r :: b /\ forall q, In q a -> ~ same_rule q r)
      (Iv : forall h r, In r m -> code h r -> In h (map fst v)),
      incl (map fst u) (map fst v) <-> forall r, In r l -> exists r', In r' m /\ same_rule r r').
  { intros l m u v Rl Rm Cu Wu Iu Cv Wv Iv. split.
    - intros X r I. destruct (regular_code r (Rl r I)) as (h & E). specialize (X h (Iu h r I E)). destruct (IN m v Cv Wv h X) as (r' & I' & R' & E').
      exists r'. split; auto. apply (code_same r r' h); auto.
    - intros X h I. destruct (IN l u Cu Wu h I) as (r & J & Rr & E). destruct (X r J) as (r' & J' & S). apply (Iv h r'); auto.
      apply (same_code r r' h); auto. }
  destruct (List.length a =? List.length b)%nat eqn:L.
  - apply Nat.eqb_eq in L. destruct (all_members_ok a b Ca Cb) as (o & O & O1). exists o. split; auto. rewrite O1. split.
    + intros X. assert (Y : incl (map fst b) (map fst a)) by (apply NoDup_length_incl; auto; rewrite !map_length; lia). split.
      * apply (INC _ _ a b); auto.
      * apply (INC _ _ b a); auto.
    + intros (X & _). apply (INC _ _ a b) in X; auto.
  - apply Nat.eqb_neq in L. exists false. split; auto. split; [discriminate|]. intros (X & Y). exfalso. apply L.
    apply (INC _ _ a b) in X; auto. apply (INC _ _ b a) in Y; auto.
    pose proof (NoDup_incl_length Na X) as P1. pose proof (NoDup_incl_length Nb Y) as P2. rewrite !map_length in P1, P2. lia.
Qed.

(** ** Hashes *)

Lemma set_to_hash_ok s : (forall r, In r (s_rules s) -> regular r) ->
  exists l, set_to_hash H s = Ok (h_str H "rs" :: l) /\
    forall x, In x l <-> exists r c fs f, In r (s_rules s) /\ r_cond r = Some c /\ condition c fs /\ In f fs /\ x = hash_feature H f.
Proof.
  intros R. unfold set_to_hash.
  assert (X : exists m, rseq (map (fun r => rmap (@tl Z) (rule_to_hash H r)) (s_rules s)) = Ok m /\
    forall x, In x (concat m) <-> exists r c fs f, In r (s_rules s) /\ r_cond r = Some c /\ condition c fs /\ In f fs /\ x = hash_feature H f).
  { induction (s_rules s) as [|r l IH].
    - exists []. split; auto. intros x. split; [intros []|intros (r & _ & _ & _ & [] & _)].
    - destruct IH as (m & E & M). { intros q Q. apply R. right; auto. }
      destruct (R r (or_introl eq_refl)) as (c & fs & C & Cf & P). exists (map (hash_feature H) fs :: m). cbn [map rseq].
      unfold rule_to_hash at 1. rewrite C, (to_hash_lists H c fs) by apply Cf. cbn [rmap tl]. rewrite E. split; auto.
      intros x. cbn [concat]. rewrite in_app_iff, M, in_map_iff. split.
      + intros [(f & <- & I)|(q & d & gs & f & I & K)]; [exists r, c, fs, f; cbn; auto 6|exists q, d, gs, f; cbn; tauto].
      + intros (q & d & gs & f & [<-|I] & K1 & K2 & K3 & K4).
        * left. assert (d = c) as -> by congruence. assert (gs = fs) as -> by (eapply lists_fun; [apply K2|apply Cf]). eauto.
        * right. exists q, d, gs, f. auto. }
  destruct X as (m & E & M). rewrite E. cbn. exists (concat m). auto.
Qed.

Lemma set_hash_ok s t : (forall r, In r (s_rules s) -> regular r) -> (forall r, In r (s_rules t) -> regular r) ->
  set_eq H s t = Ok true -> exists h, set_hash H s = Ok h /\ set_hash H t = Ok h.
Proof.
  intros R Q E. destruct (set_eq_ok s t R Q) as (b & B & X). rewrite E in B. injection B as <-.
  destruct X as (X & _). destruct (X eq_refl) as (X1 & X2). clear X.
  destruct (set_to_hash_ok s R) as (l & L & L1). destruct (set_to_hash_ok t Q) as (m & M & M1).
  unfold set_hash. rewrite L, M. cbn [rmap]. eexists. split; [reflexivity|]. f_equal. apply HU. apply NoDup_Permutation.
  - apply (set_of_NoDup _ z_eqb_spec).
  - apply (set_of_NoDup _ z_eqb_spec).
  - assert (HS : forall r r' c fs f, same_rule r r' -> r_cond r = Some c -> condition c fs -> In f fs ->
      exists d gs g, r_cond r' = Some d /\ condition d gs /\ In g gs /\ hash_feature H f = hash_feature H g).
    { intros r r' c fs f (c' & d & fs' & gs & C' & D & Cf' & Dg & (S1 & _)) C Cf I. assert (c' = c) as -> by congruence.
      assert (fs' = fs) as -> by (eapply lists_fun; [apply Cf'|apply Cf]). destruct (S1 f I) as (g & J & N & Lo & Hi).
      exists d, gs, g. do 3 (split; auto). unfold hash_feature. rewrite N, (hash_num_same H _ _ Lo), (hash_num_same H _ _ Hi). auto. }
    intros x. rewrite !(set_of_In _ z_eqb_spec). cbn [In]. rewrite L1, M1. apply or_iff_compat_l. split.
    + intros (r & c & fs & f & I & C & Cf & J & ->). destruct (X2 r I) as (r' & I' & S). destruct (HS r r' c fs f S C Cf J) as (d & gs & g & D & Dg & K & ->).
      exists r', d, gs, g. auto 6.
    + intros (r & c & fs & f & I & C & Cf & J & ->). destruct (X1 r I) as (r' & I' & S). destruct (HS r r' c fs f S C Cf J) as (d & gs & g & D & Dg & K & ->).
      exists r', d, gs, g. auto 6.
Qed.
End Hash.

Lemma plus_set_ok G s t u : unordered (g_hash G) -> collision_free (g_hash G) -> g_indexes G = [] ->
  (forall r, In r (s_rules s ++ s_rules t) -> regular r) ->
  plus_set G s t = Ok u -> without_repetition (s_rules s ++ s_rules t) (s_rules u) /\ s_stack u = s_stack s && s_stack t.
Proof.
  intros HU HC GI R H. destruct (rule_set_ok _ HU HC _ R) as (l & L & _ & _ & _ & W). unfold plus_set in H. rewrite L in H. cbn [rbind] in H.
  rewrite <- (map_map snd ERule) in H. pose proof H as H'. apply new_set_same in H; auto. rewrite H. split; auto.
  apply new_set_ok in H' as (B & _). destruct (bu_rest _ _ _ _ _ B) as (_ & _ & _ & _ & B5 & _). auto.
Qed.

Lemma compatible_sub l m : compatible l -> (forall r, In r m -> In r l) ->
  (forall r, In r l -> (forall v, ~ working r None v) -> exists r', In r' m /\ forall v, ~ working r' None v) -> compatible m.
Proof.
  intros ((k & K) & U & V) S N. split; [exists k; auto|]. split; auto. destruct V as [(r & I & X)|(n & X)]; [|right; exists n; auto].
  left. destruct (N r I X) as (r' & I' & X'). eauto.
Qed.

Lemma plus_set_total G s t n : unordered (g_hash G) -> collision_free (g_hash G) -> g_indexes G = [] -> g_check G = false ->
  (forall r, In r (s_rules s ++ s_rules t) -> regular r /\ exists v, working r None v /\ List.length v = n) ->
  (exists k, forall r, In r (s_rules s ++ s_rules t) -> r_kind r = k) -> s_stack s && s_stack t = false ->
  exists u, plus_set G s t = Ok u.
Proof.
  intros HU HC GI GC R (k & K) St. destruct (rule_set_ok _ HU HC (s_rules s ++ s_rules t)) as (l & L & _ & _ & _ & W); [intros r I; apply R; auto|].
  unfold plus_set. rewrite L. cbn [rbind]. rewrite St, <- (map_map snd ERule). apply new_set_total; auto.
  assert (IN : forall r, In r (map snd l) -> In r (s_rules s ++ s_rules t)).
  { intros r I. destruct W as (W & _). destruct (W r I) as (a & b & -> & _). apply in_or_app. right. left. auto. }
  split; [exists k; auto|]. split.
  - intros r I. destruct (R r (IN r I)) as ((c & fs & C & Cf & _) & _). exists c. destruct Cf as ((A1 & A2 & A3 & A4) & _). eauto.
  - right. exists n. intros r I. apply R. auto.
Qed.
