(** Equality of conditions with infinite bounds. *)
From Coq Require Import List ZArith QArith Bool String Lia.
From Coq Require Import List.
From Coq Require Import Sorting.Permutation.
From Verif Require Import Base Num CondModel CondSpec CondBase CondProofs CondEval CondAnd CondMore CondSet CondWit.
Import ListNotations.
Open Scope Z_scope.

(** An infinity, or an integer whose hash is itself and not that of an infinity *)
Definition clear_bound (x : num) : Prop :=
  x = PInf \/ x = MInf \/ exists a, x = Fin (inject_Z a) /\ Z.abs a < 2 ^ 61 - 1 /\ a <> -1 /\ Z.abs a <> 314159.

Definition clear_bounds (fs : list feature) : Prop := forall f, In f fs -> clear_bound (f_low f) /\ clear_bound (f_high f).

Lemma clear_hash H x y : clear_bound x -> clear_bound y -> hash_num H x = hash_num H y -> same_num x y.
Proof.
  intros X Y E. destruct X as [-> | [-> | (a & -> & A1 & A2 & A3)]]; destruct Y as [-> | [-> | (b & -> & B1 & B2 & B3)]];
    rewrite ?hash_plain in E by auto; cbn [hash_num] in E; try exact I; try (exfalso; subst; cbn in *; lia); try discriminate E.
  subst. apply same_num_refl.
Qed.

Lemma equal_clear (H : hashing) (c d : cond) (fs gs : list feature) :
  collision_free H -> condition c fs -> condition d gs -> clear_bounds fs -> clear_bounds gs ->
  ceq H c d = Ok true -> same_content fs gs.
Proof.
  intros (F1 & F2 & F3 & F4) C D B1 B2 E.
  unfold ceq, hash in E. rewrite (to_hash_lists H c fs), (to_hash_lists H d gs) in E by (apply C || apply D).
  cbn [rmap rbind] in E. injection E as E. apply Z.eqb_eq in E. apply F3 in E. apply Permutation_cons_inv in E.
  assert (K : forall f g, In f fs -> In g gs -> hash_feature H f = hash_feature H g ->
     f_name g = f_name f /\ same_num (f_low f) (f_low g) /\ same_num (f_high f) (f_high g)).
  { intros f g Hf Hg Eh. unfold hash_feature in Eh. apply F2 in Eh. injection Eh as E1 E2 E3. apply F1 in E1.
    destruct (B1 f Hf) as (L1 & U1). destruct (B2 g Hg) as (L2 & U2). split; [auto|]. split; eapply clear_hash; eauto. }
  split.
  - intros f Hf. assert (I : In (hash_feature H f) (map (hash_feature H) gs)).
    { eapply Permutation_in; [exact E|]. apply in_map; auto. }
    apply in_map_iff in I. destruct I as (g & Eh & Hg). exists g. split; auto.
  - intros g Hg. assert (I : In (hash_feature H g) (map (hash_feature H) fs)).
    { eapply Permutation_in; [symmetry; exact E|]. apply in_map; auto. }
    apply in_map_iff in I. destruct I as (f & Eh & Hf). exists f. split; auto.
Qed.

(** The hash of inf is 314159. *)
Lemma infinite_equal (H : hashing) : exists c d fs gs xs,
  condition c fs /\ condition d gs /\ well_shaped xs /\ ceq H c d = Ok true /\ ~ same_content fs gs /\
  evaluate c xs = Ok [1] /\ evaluate d xs = Ok [0].
Proof.
  exists (raw_cond [mkFeat "width" 0 (numz 0) PInf]), (raw_cond [side "width" 0 0 314159]).
  exists [mkFeat "width"%string 0 (numz 0) PInf], [side "width" 0 0 314159], (TArray 1 [[numz 1000000]]).
  split; [apply raw_cond_ok, one_distinct|]. split; [apply raw_cond_ok, one_distinct|].
  split; [intros r [<-|[]]; reflexivity|].
  split.
  { unfold ceq, hash. rewrite (to_hash_lists H _ [mkFeat "width"%string 0 (numz 0) PInf]), (to_hash_lists H _ [side "width" 0 0 314159])
      by (repeat split; reflexivity).
    cbn [rmap rbind map hash_feature side f_name f_low f_high].
    unfold hash_feature. cbn [side f_name f_low f_high].
    replace (hash_num H (numz 314159)) with (hash_num H PInf) by (vm_compute; reflexivity).
    rewrite Z.eqb_refl. auto. }
  split; [|split; vm_compute; reflexivity].
  intros (F & _). destruct (F _ (or_introl eq_refl)) as (g & [<-|[]] & _ & _ & E). exact E.
Qed.
