(** Lemmas about conditions of the base class. *)
From Coq Require Import List ZArith QArith Bool String Lia.
From Coq Require Import Sorting.Sorted Sorting.Permutation.
From Coq Require Import List.
From Verif Require Import Base Num CondModel CondSpec CondBase CondProofs CondMore ThrModel MetModel RuleModel RuleMisc PlainModel PlainSpec.
Import ListNotations.
Open Scope Z_scope.

(** ** Addition *)

Lemma plus_raises (p : plain) (c : cond) (r : rule) (A : Type) (other : A) :
  plain_add p other = Err EType /\ cond_add c other = Err EType /\ rule_add r other = Err EType.
Proof. repeat split. Qed.

(** ** Construction *)

Lemma integers_only l : existsb (fun a => negb (is_integer a)) l = false <-> l = map AInt (map the_int l).
Proof.
  induction l as [|a t IH]; [split; auto|].
  cbn [existsb map]. rewrite orb_false_iff, negb_false_iff, IH.
  destruct a; cbn [is_integer the_int]; split; intros E; try (destruct E; discriminate); try discriminate.
  - destruct E as [_ E]. congruence.
  - split; [auto|congruence].
Qed.

Lemma the_ints l : map the_int (map AInt l) = l.
Proof. rewrite map_map. cbn. apply map_id. Qed.

Lemma plain_accepts (idx : option (list item)) (p : plain) :
  new_plain idx false = Ok p <-> exists l, idx = Some (map AInt l) /\ about p l.
Proof.
  unfold new_plain, about. split.
  - destruct idx as [l|]; [|discriminate].
    destruct (existsb _ l) eqn:X; [discriminate|]. apply integers_only in X.
    destruct (has_dup Z.eqb (map the_int l)) eqn:D; [discriminate|]. intros [= <-].
    exists (map the_int l). split; [congruence|]. split; auto. apply (has_dup_spec _ Zeqb_spec); auto.
  - intros (l & -> & -> & N).
    assert (X : existsb (fun a => negb (is_integer a)) (map AInt l) = false).
    { apply integers_only. rewrite the_ints. auto. }
    rewrite X, the_ints. apply (has_dup_spec _ Zeqb_spec) in N. rewrite N. auto.
Qed.

Lemma plain_rejects (idx : option (list item)) (e : exn) :
  new_plain idx false = Err e <->
  (idx = None /\ e = EValue) \/
  (exists l a, idx = Some l /\ In a l /\ (forall z, a <> AInt z) /\ e = EType) \/
  (exists l, idx = Some (map AInt l) /\ ~ NoDup l /\ e = EDuplicated).
Proof.
  unfold new_plain. destruct idx as [l|].
  2: { split; [intros [= <-]; auto|]. intros [[_ ->]|[(l & a & E & _)|(l & E & _)]]; congruence. }
  destruct (existsb _ l) eqn:X.
  - apply existsb_exists in X. destruct X as (a & I & X).
    assert (N : forall z, a <> AInt z) by (intros z ->; discriminate).
    split.
    + intros [= <-]. right; left. exists l, a. auto.
    + intros [[E _]|[(l' & a' & E & _ & _ & ->)|(l' & E & _)]]; try congruence.
      injection E as ->. apply in_map_iff in I. destruct I as (z & <- & _). exfalso. apply (N z); auto.
  - pose proof X as Y. apply integers_only in Y.
    destruct (has_dup Z.eqb (map the_int l)) eqn:D.
    + apply (has_dup_true _ Zeqb_spec) in D. split.
      * intros [= <-]. right; right. exists (map the_int l). split; [congruence|auto].
      * intros [[E _]|[(l' & a' & [= <-] & I & N & _)|(l' & E & _ & ->)]]; try congruence; auto.
        exfalso. rewrite Y in I. apply in_map_iff in I. destruct I as (z & <- & _). apply (N z); auto.
    + apply (has_dup_spec _ Zeqb_spec) in D. split; [discriminate|].
      intros [[E _]|[(l' & a' & [= <-] & I & N & _)|(l' & [= E] & N & ->)]]; try congruence.
      * exfalso. rewrite Y in I. apply in_map_iff in I. destruct I as (z & <- & _). apply (N z); auto.
      * subst. rewrite the_ints in D. contradiction.
Qed.

(** ** Methods *)

Lemma plain_methods (p : plain) (l : list Z) :
  about p l ->
  plain_len p = Ok (List.length l) /\
  (exists l', plain_sort p = Ok (mkPlain (Some l') false) /\ Permutation l' l /\ StronglySorted Z.lt l') /\
  plain_normalize p = Ok (mkPlain (Some (map Z.of_nat (seq 0 (List.length l)))) false).
Proof.
  intros [-> N]. split; [auto|]. split; [|auto].
  exists (sorted Z.ltb l). split; [auto|]. split; [apply sorted_perm|].
  assert (S : StronglySorted (fun a b => Z.ltb a b = true) (sorted Z.ltb l)).
  { apply sorted_sorted; auto.
    - intros x y z X Y. apply Z.ltb_lt in X, Y. apply Z.ltb_lt. lia.
    - intros x y _ _ D. rewrite !Z.ltb_lt. lia. }
  clear N. induction S as [|x t S IH F]; constructor; auto.
  apply Forall_forall. intros y Hy. rewrite Forall_forall in F. apply Z.ltb_lt. auto.
Qed.

Lemma plain_assigned (p : plain) (l l' : list Z) (v : given Z) :
  about p l -> read_list v = Ok l' ->
  (NoDup l' /\ (l = [] \/ List.length l' = List.length l) /\
     plain_set_indexes v p = (Ok tt, mkPlain (Some l') false)) \/
  (NoDup l' /\ l <> [] /\ List.length l' <> List.length l /\ plain_set_indexes v p = (Err EIndex, p)) \/
  (~ NoDup l' /\ plain_set_indexes v p = (Err EDuplicated, p)).
Proof.
  intros [-> N] R. unfold plain_set_indexes. rewrite R.
  destruct (has_dup Z.eqb l') eqn:D.
  - apply (has_dup_true _ Zeqb_spec) in D. auto.
  - apply (has_dup_spec _ Zeqb_spec) in D. cbn [plain_len p_idx need rmap p_imp].
    destruct l as [|z t].
    + left. cbn. auto.
    + cbn [List.length Nat.ltb Nat.leb andb].
      destruct (Nat.eqb_spec (S (List.length t)) (List.length l')) as [L|L]; cbn [negb].
      * left. auto.
      * right; left. repeat split; auto. discriminate.
Qed.

Lemma plain_unread (p : plain) (v : given Z) (e : exn) :
  read_list v = Err e -> plain_set_indexes v p = (Err e, p).
Proof. intros R. unfold plain_set_indexes. rewrite R. auto. Qed.

(** ** Histories *)

Lemma plain_step (a : act_on) (p p' : plain) (l : list Z) :
  about p l -> takes_step a p p' ->
  exists l', about p' l' /\ (l = [] \/ List.length l' = List.length l).
Proof.
  intros A T. destruct a as [| |v]; cbn [takes_step] in T.
  - destruct (plain_methods p l A) as (_ & (l' & E & P & S) & _). rewrite E in T. subst p'.
    exists l'. split; [split; [auto|]|].
    + apply (Permutation_NoDup (Permutation_sym P)). apply A.
    + right. apply Permutation_length; auto.
  - destruct (plain_methods p l A) as (_ & _ & E). rewrite E in T. subst p'.
    exists (map Z.of_nat (seq 0 (List.length l))). split; [split; [auto|]|].
    + apply FinFun.Injective_map_NoDup; [intros x y; apply Nat2Z.inj|apply seq_NoDup].
    + right. rewrite map_length, seq_length. auto.
  - destruct (read_list v) as [l'|e] eqn:R.
    + destruct (plain_assigned p l l' v A R) as [(N & L & E)|[(N & L & _ & E)|(N & E)]]; rewrite E in T; cbn in T; subst p'.
      * exists l'. split; [split; auto|auto].
      * exists l. auto.
      * exists l. auto.
    + rewrite (plain_unread p v e R) in T. cbn in T. subst p'. exists l. auto.
Qed.

Lemma plain_history (acts : list act_on) (p p' : plain) (l : list Z) :
  about p l -> steps acts p p' ->
  exists l', about p' l' /\ (l <> [] -> List.length l' = List.length l).
Proof.
  intros A T. revert l A. induction T as [p|a acts p q r S T IH]; intros l A.
  - exists l. auto.
  - destruct (plain_step a p q l A S) as (l1 & A1 & L1).
    destruct (IH l1 A1) as (l2 & A2 & L2). exists l2. split; auto.
    intros N. destruct L1 as [->|L1]; [contradiction|]. rewrite <- L1. apply L2.
    intros ->. cbn in L1. destruct l; [apply N; auto|discriminate].
Qed.

(** ** Empty conditions *)

Lemma blank_plain_stays (idx : option (list item)) (b : plain) (acts : list act_on) (p : plain) :
  new_plain idx true = Ok b -> steps acts b p -> p = b.
Proof.
  intros [= <-] T. remember (mkPlain None false) as b eqn:B. induction T as [|a acts p q r S T IH]; auto.
  assert (q = mkPlain None false) as Q.
  { subst p. destruct a as [| |v]; cbn in S; auto.
    unfold plain_set_indexes in S. destruct (read_list v); [|cbn in S; auto].
    destruct (has_dup Z.eqb a); cbn in S; auto. }
  subst q. rewrite <- B in *. apply IH. auto.
Qed.

Lemma blank_plain (idx : option (list item)) (b : plain) (v : given Z) (H : hashing) :
  new_plain idx true = Ok b ->
  p_imp b = false /\
  plain_len b = Err EType /\
  plain_sort b = Err EType /\
  plain_normalize b = Err EType /\
  plain_hash H b = Err EType /\
  (forall l, read_list v = Ok l -> NoDup l -> plain_set_indexes v b = (Err EType, b)).
Proof.
  intros [= <-]. repeat split. intros l R N. unfold plain_set_indexes. rewrite R.
  apply (has_dup_spec _ Zeqb_spec) in N. rewrite N. auto.
Qed.

Lemma blank_cond_filled (sett : settings) (idx mins maxs names : option (list item)) (c : cond) (do_sort : bool) (v : given Z) (l : list Z) :
  build sett idx mins maxs names true do_sort = Ok c -> read_list v = Ok l -> NoDup l ->
  exists c', set_features_indexes v c = (Ok tt, c') /\ c_idx c' = Some l.
Proof.
  intros [= <-] R N. unfold set_features_indexes. rewrite R.
  apply (has_dup_spec _ Zeqb_spec) in N. rewrite N. cbn. eauto.
Qed.

Lemma blank_refuted :
  exists p v l, new_plain None true = Ok p /\ read_list v = Ok l /\ NoDup l /\
    forall p', plain_set_indexes v p <> (Ok tt, p').
Proof.
  exists (mkPlain None false), (GList [0]), [0]. repeat split.
  - repeat constructor. cbn. tauto.
  - intros p' E. discriminate.
Qed.

(** ** Evaluation *)

Lemma prule_never (r : prule) (xs : table) (other : prule) :
  (nrows xs <> O -> prule_calc_activation (Some xs) r = (Err EType, r)) /\
  prule_evaluate_activation r xs = Err EType /\
  (forall o, prule_and r other <> Ok o).
Proof.
  split; [|split].
  - intros N. cbn [prule_calc_activation]. destruct (Nat.eqb_spec (nrows xs) 0); [contradiction|]. auto.
  - auto.
  - intros o. unfold prule_and. destruct (q_act r), (q_act other); try discriminate.
    unfold rbind. destruct act_and; discriminate.
Qed.

Lemma prule_untouched (r : prule) (xs : option table) : snd (prule_calc_activation xs r) = r.
Proof.
  destruct xs as [xs|]; cbn [prule_calc_activation].
  - destruct (nrows xs =? 0)%nat; auto.
  - destruct (q_act r); auto.
Qed.

Lemma prule_and_fails (r1 r2 : prule) (a1 a2 : activation) :
  q_act r1 = Some a1 -> q_act r2 = Some a2 ->
  (forall e, act_and a1 a2 = Err e -> prule_and r1 r2 = Err e) /\
  (forall a, act_and a1 a2 = Ok a -> prule_and r1 r2 = Err EValue).
Proof.
  intros E1 E2. unfold prule_and. rewrite E1, E2.
  split; intros x ->; auto.
Qed.

Lemma plain_and_cond (sett : settings) (p : plain) (c : cond) (q : plain) :
  plain_and p c = None /\ plain_and p q = None /\ forall d, cond_and_plain sett c p <> Ok d.
Proof.
  repeat split. intros d. unfold cond_and_plain, rbind. destruct copied; discriminate.
Qed.

Lemma cond_and_plain_fails (sett : settings) (c : cond) (fs : list feature) (p : plain) :
  condition c fs -> CondSpec.known sett -> cond_and_plain sett c p = Err EAttr.
Proof.
  intros C K. unfold cond_and_plain. destruct (copied_ok sett c fs C K) as (d & -> & _). auto.
Qed.

Lemma always_refuted :
  exists p xs, new_plain (Some [AInt 0]) false = Ok p /\ nrows xs = 2%nat /\
    plain_evaluate p xs <> Some (repeat 1 (nrows xs)).
Proof.
  exists (mkPlain (Some [0]) false), (TArray 1 [[Fin 1]; [Fin 2]]). repeat split. discriminate.
Qed.

(** ** Hash and comparison *)

Lemma plain_hash_set (H : hashing) (p q : plain) (l m : list Z) :
  unordered H -> about p l -> about q m -> (forall z, In z l <-> In z m) ->
  exists h, plain_hash H p = Ok h /\ plain_hash H q = Ok h.
Proof.
  intros U [-> N] [-> M] I. exists (h_set H (h_str H "c" :: map hash_int l)). split; [auto|].
  unfold plain_hash. cbn [plain_to_hash need p_idx rmap]. f_equal. apply U. constructor.
  apply Permutation_map. apply NoDup_Permutation; auto. intros z. symmetry. auto.
Qed.

Lemma plain_hash_apart (H : hashing) (p q : plain) (l m : list Z) (h : Z) :
  collision_free H -> about p l -> about q m ->
  (forall z, In z (l ++ m) -> 0 <= z < 2 ^ 61 - 1) ->
  plain_hash H p = Ok h -> plain_hash H q = Ok h ->
  forall z, In z l <-> In z m.
Proof.
  intros (_ & _ & C & _) [-> N] [-> M] B E F.
  injection E as <-. injection F as F. apply C in F. apply Permutation_cons_inv in F.
  assert (I : forall k, (forall z, In z k -> 0 <= z < 2 ^ 61 - 1) -> map hash_int k = k).
  { intros k K. rewrite <- (map_id k) at 2. apply map_ext_in. intros z Hz.
    unfold hash_int. change hash_modulus with (2 ^ 61 - 1). pose proof (K z Hz) as Kz.
    rewrite Z.rem_small by lia. destruct (Z.eqb_spec z (-1)); lia. }
  rewrite (I m), (I l) in F.
  - intros z. split; intros Hz.
    + apply (Permutation_in _ (Permutation_sym F)). auto.
    + apply (Permutation_in _ F). auto.
  - intros z Hz. apply B. apply in_or_app; auto.
  - intros z Hz. apply B. apply in_or_app; auto.
Qed.

Lemma mixed_equality (H : hashing) (c : cond) (fs : list feature) (p : plain) (l : list Z) :
  collision_free H -> tuples_apart H -> condition c fs -> about p l ->
  exists b, cond_eq_plain H c p = Ok b /\ plain_eq_cond H p c = Ok b /\ (b = true <-> fs = [] /\ l = []).
Proof.
  intros (_ & _ & C & _) TA K [-> N].
  exists (h_set H (h_str H "c" :: map (hash_feature H) fs) =? h_set H (h_str H "c" :: map hash_int l)).
  assert (E : cond_eq_plain H c (mkPlain (Some l) false) =
              Ok (h_set H (h_str H "c" :: map (hash_feature H) fs) =? h_set H (h_str H "c" :: map hash_int l))).
  { unfold cond_eq_plain, hash. rewrite (to_hash_lists H c fs) by apply K. auto. }
  split; [auto|]. split; [auto|]. rewrite Z.eqb_eq. split.
  - intros P. apply C in P. apply Permutation_cons_inv in P.
    destruct fs as [|f fs].
    + apply Permutation_nil in P. destruct l; [auto|discriminate].
    + exfalso. pose proof (Permutation_in _ P (or_introl eq_refl)) as I.
      apply in_map_iff in I. destruct I as (z & I & _). unfold hash_feature in I. symmetry in I. exact (TA _ _ I).
  - intros [-> ->]. auto.
Qed.
