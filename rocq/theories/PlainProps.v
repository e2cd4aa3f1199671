(** Properties of the base class of conditions, and of sums of conditions and rules. *)
From Coq Require Import List ZArith QArith Bool String Ascii Lia.
From Coq Require Import Sorting.Sorted Sorting.Permutation.
From Coq Require Import List.
From Verif Require Import Base Num CondModel CondSpec CondWit ThrModel MetModel MetWit RuleModel RuleWit PlainModel PlainSpec PlainProofs PlainWit.
Import ListNotations.
Open Scope string_scope.
Open Scope list_scope.
Open Scope Z_scope.

(** ** C186 *)

Theorem C186_plus_refuted : (exists c d e, band "index" c d = Ok e /\ cond_add c d = Err EType) /\
  (exists E r1 r2 r, rule_and E r1 r2 = Ok r /\ rule_add r1 r2 = Err EType).
Proof. exact plus_refuted. Qed.
Print Assumptions C186_plus_refuted.

Theorem C186_plus_raises : forall (p : plain) (c : cond) (r : rule) (A : Type) (other : A),
  plain_add p other = Err EType /\ cond_add c other = Err EType /\ rule_add r other = Err EType.
Proof. exact plus_raises. Qed.
Print Assumptions C186_plus_raises.

Example C186_plus_raises_ex : cond_add floor_plan profile = Err EType /\ plain_add sites turned = Err EType.
Proof.
  destruct (C186_plus_raises sites floor_plan (plan_rule floor_plan [1; 0] 3) cond profile) as (_ & A & _).
  destruct (C186_plus_raises sites floor_plan (plan_rule floor_plan [1; 0] 3) plain turned) as (B & _).
  split; assumption.
Qed.

(** ** C187 *)

Theorem C187_always_refuted : exists p xs, new_plain (Some [AInt 0]) false = Ok p /\ nrows xs = 2%nat /\
    plain_evaluate p xs <> Some (repeat 1 (nrows xs)).
Proof. exact always_refuted. Qed.
Print Assumptions C187_always_refuted.

Theorem C187_rule : forall (r : prule) (xs : table) (other : prule),
  (nrows xs <> O -> prule_calc_activation (Some xs) r = (Err EType, r)) /\
  prule_evaluate_activation r xs = Err EType /\
  (forall o, prule_and r other <> Ok o).
Proof. exact prule_never. Qed.
Print Assumptions C187_rule.

Example C187_rule_ex : prule_calc_activation (Some rooms) placed = (Err EType, placed) /\ forall o, prule_and placed moved <> Ok o.
Proof.
  destruct (C187_rule placed rooms moved) as (A & _ & B). split; [apply A; vm_compute; discriminate|exact B].
Qed.

Theorem C187_keeps : forall (r : prule) (xs : option table),
  snd (prule_calc_activation xs r) = r.
Proof. exact prule_untouched. Qed.
Print Assumptions C187_keeps.

Example C187_keeps_ex : q_act (snd (prule_calc_activation (Some rooms) placed)) = Some (new_activation [1; 0; 1]).
Proof. rewrite C187_keeps. reflexivity. Qed.

Theorem C187_and_rules : forall (r1 r2 : prule) (a1 a2 : activation),
  q_act r1 = Some a1 -> q_act r2 = Some a2 ->
  (forall e, act_and a1 a2 = Err e -> prule_and r1 r2 = Err e) /\
  (forall a, act_and a1 a2 = Ok a -> prule_and r1 r2 = Err EValue).
Proof. exact prule_and_fails. Qed.
Print Assumptions C187_and_rules.

Example C187_and_rules_ex : act_and (new_activation [1; 0; 1]) (new_activation [1; 1; 0]) = Ok (new_activation [1; 0; 0]) /\ prule_and placed moved = Err EValue.
Proof.
  assert (A : act_and (new_activation [1; 0; 1]) (new_activation [1; 1; 0]) = Ok (new_activation [1; 0; 0])) by (vm_compute; reflexivity).
  split; [exact A|]. destruct (C187_and_rules placed moved _ _ eq_refl eq_refl) as (_ & B). exact (B _ A).
Qed.

Theorem C187_and : forall (sett : settings) (p : plain) (c : cond) (q : plain),
  plain_and p c = None /\ plain_and p q = None /\ forall d, cond_and_plain sett c p <> Ok d.
Proof. exact plain_and_cond. Qed.
Print Assumptions C187_and.

Example C187_and_ex : plain_and sites turned = None /\ cond_and_plain "index" floor_plan sites = Err EAttr.
Proof. split; [apply (C187_and "index" sites floor_plan turned)|vm_compute; reflexivity]. Qed.

Theorem C187_and_mixed : forall (sett : settings) (c : cond) (fs : list feature) (p : plain),
  condition c fs -> CondSpec.known sett -> cond_and_plain sett c p = Err EAttr.
Proof. exact cond_and_plain_fails. Qed.
Print Assumptions C187_and_mixed.

Example C187_and_mixed_ex : cond_and_plain "name" floor_plan sites = Err EAttr.
Proof. apply (C187_and_mixed _ _ _ _ floor_plan_ok). right. reflexivity. Qed.

(** ** C188 *)

Theorem C188_accepts : forall (idx : option (list item)) (p : plain),
  new_plain idx false = Ok p <-> exists l, idx = Some (map AInt l) /\ about p l.
Proof. exact plain_accepts. Qed.
Print Assumptions C188_accepts.

Example C188_accepts_ex : new_plain (Some [AInt 4; AInt 0; AInt 2]) false = Ok sites.
Proof. apply C188_accepts. exists [4; 0; 2]. split; [reflexivity|apply sites_about]. Qed.

Theorem C188_rejects : forall (idx : option (list item)) (e : exn),
  new_plain idx false = Err e <->
  (idx = None /\ e = EValue) \/
  (exists l a, idx = Some l /\ In a l /\ (forall z, a <> AInt z) /\ e = EType) \/
  (exists l, idx = Some (map AInt l) /\ ~ NoDup l /\ e = EDuplicated).
Proof. exact plain_rejects. Qed.
Print Assumptions C188_rejects.

Example C188_rejects_ex :
  new_plain (Some [AInt 1; AFloat (Fin 2); AInt 1]) false = Err EType /\ new_plain (Some [AInt 1; AInt 3; AInt 1]) false = Err EDuplicated.
Proof.
  split; apply C188_rejects.
  - right; left. exists [AInt 1; AFloat (Fin 2); AInt 1], (AFloat (Fin 2)). repeat split; [cbn; tauto|discriminate].
  - right; right. exists [1; 3; 1]. repeat split. intros N. inversion N as [|x l I M]. apply I. cbn. tauto.
Qed.

Theorem C188_methods : forall (p : plain) (l : list Z),
  about p l ->
  plain_len p = Ok (List.length l) /\
  (exists l', plain_sort p = Ok (mkPlain (Some l') false) /\ Permutation l' l /\ StronglySorted Z.lt l') /\
  plain_normalize p = Ok (mkPlain (Some (map Z.of_nat (seq 0 (List.length l)))) false).
Proof. exact plain_methods. Qed.
Print Assumptions C188_methods.

Example C188_methods_ex : plain_sort sites = Ok (mkPlain (Some [0; 2; 4]) false) /\ plain_normalize sites = Ok (mkPlain (Some [0; 1; 2]) false) /\ plain_len sites = Ok 3%nat.
Proof.
  destruct (C188_methods sites [4; 0; 2] sites_about) as (A & _ & B). split; [vm_compute; reflexivity|]. split; assumption.
Qed.

Theorem C188_assigned : forall (p : plain) (l l' : list Z) (v : given Z),
  about p l -> read_list v = Ok l' ->
  (NoDup l' /\ (l = [] \/ List.length l' = List.length l) /\
     plain_set_indexes v p = (Ok tt, mkPlain (Some l') false)) \/
  (NoDup l' /\ l <> [] /\ List.length l' <> List.length l /\ plain_set_indexes v p = (Err EIndex, p)) \/
  (~ NoDup l' /\ plain_set_indexes v p = (Err EDuplicated, p)).
Proof. exact plain_assigned. Qed.
Print Assumptions C188_assigned.

Example C188_assigned_ex :
  plain_set_indexes (GList [7; 5; 6]) sites = (Ok tt, mkPlain (Some [7; 5; 6]) false) /\
  plain_set_indexes (GText (Ok [7; 5])) sites = (Err EIndex, sites) /\
  plain_set_indexes (GList [7; 5; 7]) sites = (Err EDuplicated, sites).
Proof. repeat split. Qed.

Theorem C188_history : forall (acts : list act_on) (p p' : plain) (l : list Z),
  about p l -> steps acts p p' ->
  exists l', about p' l' /\ (l <> [] -> List.length l' = List.length l).
Proof. exact plain_history. Qed.
Print Assumptions C188_history.

Example C188_history_ex : exists p, steps [DoSort; DoAssign (GList [1]); DoAssign (GList [9; 8; 7]); DoNormalize] sites p /\
  exists l, about p l /\ List.length l = 3%nat.
Proof.
  exists (mkPlain (Some [0; 1; 2]) false).
  assert (S : steps [DoSort; DoAssign (GList [1]); DoAssign (GList [9; 8; 7]); DoNormalize] sites (mkPlain (Some [0; 1; 2]) false)).
  { repeat (eapply steps_cons; [reflexivity|]). apply steps_nil. }
  split; [exact S|]. destruct (C188_history _ _ _ _ sites_about S) as (l & A & L). exists l. split; [exact A|]. apply L. discriminate.
Qed.

(** ** C189 *)

Theorem C189_blank_refuted : exists p v l, new_plain None true = Ok p /\ read_list v = Ok l /\ NoDup l /\
    forall p', plain_set_indexes v p <> (Ok tt, p').
Proof. exact blank_refuted. Qed.
Print Assumptions C189_blank_refuted.

Theorem C189_stays : forall (idx : option (list item)) (b : plain) (acts : list act_on) (p : plain),
  new_plain idx true = Ok b -> steps acts b p -> p = b.
Proof. exact blank_plain_stays. Qed.
Print Assumptions C189_stays.

Example C189_stays_ex : exists b p, new_plain None true = Ok b /\ steps [DoAssign (GList [3]); DoSort; DoNormalize] b p /\ p = b.
Proof.
  exists (mkPlain None false), (mkPlain None false).
  assert (S : steps [DoAssign (GList [3]); DoSort; DoNormalize] (mkPlain None false) (mkPlain None false)).
  { repeat (eapply steps_cons; [reflexivity|]). apply steps_nil. }
  split; [reflexivity|]. split; [exact S|exact (C189_stays None _ _ _ eq_refl S)].
Qed.

Theorem C189_errors : forall (idx : option (list item)) (b : plain) (v : given Z) (H : hashing),
  new_plain idx true = Ok b ->
  p_imp b = false /\
  plain_len b = Err EType /\
  plain_sort b = Err EType /\
  plain_normalize b = Err EType /\
  plain_hash H b = Err EType /\
  (forall l, read_list v = Ok l -> NoDup l -> plain_set_indexes v b = (Err EType, b)).
Proof. exact blank_plain. Qed.
Print Assumptions C189_errors.

Example C189_errors_ex : exists b, new_plain None true = Ok b /\ plain_set_indexes (GList [3; 1]) b = (Err EType, b).
Proof.
  exists (mkPlain None false). split; [reflexivity|].
  apply (C189_errors None _ (GList [3; 1]) apart eq_refl) with (l := [3; 1]); [reflexivity|].
  constructor; [intros [H|H]; [discriminate|destruct H]|]. constructor; [intros H; destruct H|constructor].
Qed.

Theorem C189_hyperrectangle : forall (sett : settings) (idx mins maxs names : option (list item)) (c : cond) (do_sort : bool) (v : given Z) (l : list Z),
  build sett idx mins maxs names true do_sort = Ok c -> read_list v = Ok l -> NoDup l ->
  exists c', set_features_indexes v c = (Ok tt, c') /\ c_idx c' = Some l.
Proof. exact blank_cond_filled. Qed.
Print Assumptions C189_hyperrectangle.

Example C189_hyperrectangle_ex : exists c', set_features_indexes (GList [3; 1]) (mkCond None None None None false) = (Ok tt, c') /\ c_idx c' = Some [3; 1].
Proof.
  apply (C189_hyperrectangle "index" None None None None _ true (GList [3; 1]) [3; 1] eq_refl eq_refl).
  constructor; [intros [H|H]; [discriminate|destruct H]|]. constructor; [intros H; destruct H|constructor].
Qed.

(** ** C190 *)

Theorem C190_same_set : forall (H : hashing) (p q : plain) (l m : list Z),
  unordered H -> about p l -> about q m -> (forall z, In z l <-> In z m) ->
  exists h, plain_hash H p = Ok h /\ plain_hash H q = Ok h.
Proof. exact plain_hash_set. Qed.
Print Assumptions C190_same_set.

Example C190_same_set_ex : exists h, plain_hash ideal sites = Ok h /\ plain_hash ideal turned = Ok h.
Proof. apply (C190_same_set ideal sites turned _ _ ideal_unordered sites_about turned_about). cbn. tauto. Qed.

Theorem C190_other_set : forall (H : hashing) (p q : plain) (l m : list Z) (h : Z),
  collision_free H -> about p l -> about q m ->
  (forall z, In z (l ++ m) -> 0 <= z < 2 ^ 61 - 1) ->
  plain_hash H p = Ok h -> plain_hash H q = Ok h ->
  forall z, In z l <-> In z m.
Proof. exact plain_hash_apart. Qed.
Print Assumptions C190_other_set.

Example C190_other_set_ex : plain_hash ideal sites <> plain_hash ideal (mkPlain (Some [4; 0; 1]) false).
Proof.
  intros E. assert (A : about (mkPlain (Some [4; 0; 1]) false) [4; 0; 1]) by (split; [auto|repeat constructor; cbn; lia]).
  assert (I : In 2 [4; 0; 1]).
  { destruct (C190_same_set ideal sites sites _ _ ideal_unordered sites_about sites_about (fun z => iff_refl _)) as (h & F & _).
    apply (C190_other_set ideal sites (mkPlain (Some [4; 0; 1]) false) _ _ h ideal_collision_free sites_about A); [|exact F|congruence|cbn; tauto].
    intros z Hz. cbn in Hz. lia. }
  cbn in I. lia.
Qed.

Theorem C190_mixed : forall (H : hashing) (c : cond) (fs : list feature) (p : plain) (l : list Z),
  collision_free H -> tuples_apart H -> condition c fs -> about p l ->
  exists b, cond_eq_plain H c p = Ok b /\ plain_eq_cond H p c = Ok b /\ (b = true <-> fs = [] /\ l = []).
Proof. exact mixed_equality. Qed.
Print Assumptions C190_mixed.

Example C190_mixed_ex : exists b, cond_eq_plain apart floor_plan sites = Ok b /\ b = false.
Proof.
  destruct (C190_mixed apart floor_plan _ sites _ apart_collision_free apart_tuples floor_plan_ok sites_about) as (b & A & _ & B).
  exists b. split; [exact A|]. destruct b; [|reflexivity]. destruct (proj1 B eq_refl) as (C & _). discriminate.
Qed.

