(** Concrete conditions: witnesses against the properties that the code does not
    have, and instances for the examples of CondProps.v. *)
From Coq Require Import List ZArith QArith Bool String Ascii Lia Arith.Cantor.
From Coq Require Import List.
From Coq Require Import Sorting.Sorted Sorting.Permutation.
From Verif Require Import Base Num CondModel CondSpec CondBase CondProofs CondEval CondAnd CondMore CondSet.
Import ListNotations.
Open Scope Z_scope.

(** The interval [lo, hi] for the feature of name [n] and index [i]. *)
Definition side (n : string) (i lo hi : Z) : feature := mkFeat n i (numz lo) (numz hi).

Definition width := side "width" 0 1 5.
Definition depth := side "depth" 1 (-3) 4.
Definition height := side "height" 2 0 9.

Lemma two_distinct : distinct [width; depth].
Proof. split; repeat constructor; cbn; intuition discriminate. Qed.
Lemma other_distinct : distinct [depth; height].
Proof. split; repeat constructor; cbn; intuition discriminate. Qed.
Lemma one_distinct f : distinct [f].
Proof. split; repeat constructor; cbn; intuition. Qed.

Definition floor_plan := raw_cond [width; depth].
Definition profile := raw_cond [depth; height].

Lemma floor_plan_ok : condition floor_plan [width; depth].
Proof. apply raw_cond_ok, two_distinct. Qed.
Lemma profile_ok : condition profile [depth; height].
Proof. apply raw_cond_ok, other_distinct. Qed.

Lemma side_no_nan l : (forall f, In f l -> exists n i a b, f = side n i a b) -> no_nan l.
Proof. intros E f Hf. destruct (E f Hf) as (? & ? & ? & ? & ->). split; discriminate. Qed.

Lemma floor_plan_numbers : no_nan [width; depth].
Proof. apply side_no_nan. intros f [<-|[<-|[]]]; unfold width, depth; eauto. Qed.
Lemma profile_numbers : no_nan [depth; height].
Proof. apply side_no_nan. intros f [<-|[<-|[]]]; unfold depth, height; eauto. Qed.

(** Two rooms: the second one has a depth that is not a number. *)
Definition rooms : table :=
  TFrame 2 [("depth", [numz 4; NaN]); ("width", [numz 1; numz 2]); ("height", [numz 3; numz 3])]%string.
Definition rooms_array : table := TArray 3 [[numz 1; numz 4; numz 3]; [numz 2; NaN; numz 3]].

Lemma rooms_shaped : well_shaped rooms /\ well_shaped rooms_array.
Proof.
  split; [split|].
  - repeat constructor; cbn; intuition discriminate.
  - intros col [<-|[<-|[<-|[]]]]; reflexivity.
  - intros r [<-|[<-|[]]]; reflexivity.
Qed.

Lemma rooms_accepted : accepted rooms [width; depth] /\ accepted rooms_array [width; depth].
Proof.
  split; (split; [intros f [<-|[<-|[]]]; cbn; auto; lia|]); cbn; auto. discriminate.
Qed.

Lemma rooms_values :
  evaluate floor_plan rooms = Ok [1; 0] /\ evaluate floor_plan rooms_array = Ok [1; 0] /\
  evaluate profile rooms = Ok [1; 0].
Proof. repeat split; vm_compute; reflexivity. Qed.

(** An impossible condition. *)
Definition nowhere := raw_cond [side "width" 0 5 1].
Lemma nowhere_ok : condition nowhere [side "width" 0 5 1].
Proof. apply raw_cond_ok, one_distinct. Qed.
Lemma nowhere_crossed : crossed [side "width" 0 5 1].
Proof. exists (side "width" 0 5 1). split; [left; auto|]. vm_compute. auto. Qed.

(** Arguments *)
Lemma floor_plan_arguments :
  acceptable (Some [AInt 0; AInt 1]) (Some [AInt 1; AFloat (numz (-3))])
    (Some [AInt 5; AInt 4]) (Some [AStr "width"; AStr "depth"]%string) [width; depth].
Proof.
  apply given_both; try reflexivity; [| |apply two_distinct];
    (constructor; [constructor|constructor; [constructor|constructor]]).
Qed.

Lemma reversed_arguments :
  acceptable (Some [AInt 1; AInt 0]) (Some [AInt (-3); AInt 1])
    (Some [AInt 4; AInt 5]) (Some [AStr "depth"; AStr "width"]%string) [depth; width].
Proof.
  apply given_both; try reflexivity.
  1,2: (constructor; [constructor|constructor; [constructor|constructor]]).
  apply (distinct_perm [width; depth]); [apply perm_swap|apply two_distinct].
Qed.

(** ** A hashing without collisions *)

Definition code_z (z : Z) : nat :=
  if z <? 0 then S (2 * Z.to_nat (- z)) else 2 * Z.to_nat z.
Fixpoint code (l : list nat) : nat :=
  match l with
  | [] => O
  | x :: t => S (to_nat (x, code t))
  end.

Lemma code_z_inj a b : code_z a = code_z b -> a = b.
Proof.
  unfold code_z. destruct (Z.ltb_spec a 0), (Z.ltb_spec b 0); lia.
Qed.

Lemma code_inj l : forall l', code l = code l' -> l = l'.
Proof.
  induction l as [|x t IH]; intros [|y u] E; cbn [code] in E; auto; try discriminate.
  apply Nat.succ_inj in E. apply (f_equal of_nat) in E. rename E into F.
  rewrite !cancel_of_to in F. injection F as -> F. f_equal. auto.
Qed.

Lemma map_inj {A B} (f : A -> B) l : (forall x y, f x = f y -> x = y) ->
  forall l', map f l = map f l' -> l = l'.
Proof.
  intros I. induction l as [|x t IH]; intros [|y u] E; auto; try discriminate.
  cbn in E. injection E as E F. f_equal; auto.
Qed.

Definition codes (l : list Z) : nat := code (map code_z l).
Lemma codes_inj l l' : codes l = codes l' -> l = l'.
Proof. intros E. apply code_inj in E. apply (map_inj code_z); auto using code_z_inj. Qed.

Definition code_s (s : string) : nat := code (map nat_of_ascii (list_ascii_of_string s)).
Lemma code_s_inj s t : code_s s = code_s t -> s = t.
Proof.
  intros E. apply code_inj in E. apply map_inj in E.
  - rewrite <- (string_of_list_ascii_of_string s), <- (string_of_list_ascii_of_string t). congruence.
  - intros x y F. rewrite <- (ascii_nat_embedding x), <- (ascii_nat_embedding y). congruence.
Qed.

Definition ideal : hashing := {|
  h_str s := Z.of_nat (2 * code_s s);
  h_frac q := 0;
  h_nan := 0;
  h_tuple l := Z.of_nat (2 * codes l + 1);
  h_set l := Z.of_nat (codes (sorted Z.ltb l)) |}.

Lemma insert_comm x y l : insert Z.ltb x (insert Z.ltb y l) = insert Z.ltb y (insert Z.ltb x l).
Proof.
  induction l as [|z t IH]; cbn [insert].
  - destruct (Z.ltb_spec y x), (Z.ltb_spec x y); auto; try lia. replace y with x by lia. auto.
  - destruct (Z.ltb_spec z y), (Z.ltb_spec z x); cbn [insert];
      repeat match goal with |- context [Z.ltb ?a ?b] => destruct (Z.ltb_spec a b) end;
      cbn [insert]; try lia; try congruence.
    replace y with x by lia. auto.
Qed.

Lemma sorted_canonical l l' : Permutation l l' -> sorted Z.ltb l = sorted Z.ltb l'.
Proof.
  induction 1; cbn [sorted]; try congruence. apply insert_comm.
Qed.

Lemma ideal_unordered : unordered ideal.
Proof. intros l l' P. cbn. rewrite (sorted_canonical l l' P). auto. Qed.

Lemma ideal_collision_free : collision_free ideal.
Proof.
  repeat split.
  - intros s t E. cbn [h_str ideal] in E. apply code_s_inj. lia.
  - intros l l' E. cbn [h_tuple ideal] in E. apply codes_inj. lia.
  - intros l l' E. cbn [h_set ideal] in E. apply Nat2Z.inj in E. apply codes_inj in E.
    rewrite <- (sorted_perm Z.ltb l), E. apply sorted_perm.
  - intros l s E. cbn [h_str h_tuple ideal] in E. lia.
Qed.

(** ** Refutations *)

(** Different bounds with the same hash, whatever the hashes of strings, tuples
    and frozensets. *)
Lemma equality_false H : exists c d fs gs xs,
  condition c fs /\ condition d gs /\ well_shaped xs /\ ceq H c d = Ok true /\ ~ same_content fs gs /\
  evaluate c xs = Ok [0] /\ evaluate d xs = Ok [1].
Proof.
  exists (raw_cond [side "width" 0 (-1) 5]), (raw_cond [side "width" 0 (-2) 5]).
  exists [side "width" 0 (-1) 5], [side "width" 0 (-2) 5], (TArray 1 [[numz (-2)]]).
  split; [apply raw_cond_ok, one_distinct|]. split; [apply raw_cond_ok, one_distinct|].
  split; [intros r [<-|[]]; reflexivity|].
  split.
  { unfold ceq, hash. rewrite (to_hash_lists H _ [side "width" 0 (-1) 5]), (to_hash_lists H _ [side "width" 0 (-2) 5])
      by (repeat split; reflexivity).
    cbn [rmap rbind map hash_feature side f_name f_low f_high].
    replace (hash_num H (numz (-1))) with (-2) by (vm_compute; reflexivity).
    replace (hash_num H (numz (-2))) with (-2) by (vm_compute; reflexivity).
    rewrite Z.eqb_refl. auto. }
  split; [|split; vm_compute; reflexivity].
  intros (F & _). destruct (F _ (or_introl eq_refl)) as (g & [<-|[]] & _ & E & _).
  cbn in E. unfold Qeq in E. cbn in E. lia.
Qed.

(** So do large numbers that differ by 2^61 - 1. *)
Lemma equality_wraps H n : 0 <= n ->
  ceq H (raw_cond [side "width" 0 0 n]) (raw_cond [side "width" 0 0 (n + hash_modulus)]) = Ok true.
Proof.
  intros N. unfold ceq, hash.
  rewrite (to_hash_lists H _ [side "width" 0 0 n]), (to_hash_lists H _ [side "width" 0 0 (n + hash_modulus)])
    by (repeat split; reflexivity).
  assert (E : hash_num H (numz n) = hash_num H (numz (n + hash_modulus))).
  { unfold hash_num, numz. rewrite !Qred_inject. cbn [inject_Z Qden Qnum].
    rewrite Z.eqb_refl. unfold hash_int. rewrite <- (Z.rem_add n 1 hash_modulus), Z.mul_1_l; auto.
    - unfold hash_modulus. lia.
    - unfold hash_modulus. nia. }
  cbn [rmap rbind map hash_feature side f_name f_low f_high]. unfold side, hash_feature. cbn [f_name f_low f_high].
  rewrite E, Z.eqb_refl. auto.
Qed.

(** A bound of the second operand that is not a number. *)
Lemma nan_dropped : exists c1 c2 fs1 fs2 c xs,
  condition c1 fs1 /\ condition c2 fs2 /\ band "index"%string c1 c2 = Ok c /\ well_shaped xs /\
  evaluate c1 xs = Ok [1] /\ evaluate c2 xs = Ok [0] /\ evaluate c xs = Ok [1].
Proof.
  exists (raw_cond [width]), (raw_cond [mkFeat "width"%string 0 NaN (numz 5)]), [width], [mkFeat "width"%string 0 NaN (numz 5)].
  eexists. exists (TArray 1 [[numz 2]]).
  split; [apply raw_cond_ok, one_distinct|]. split; [apply raw_cond_ok, one_distinct|].
  split; [vm_compute; reflexivity|]. split; [intros r [<-|[]]; reflexivity|].
  repeat split; vm_compute; reflexivity.
Qed.

(** & of conditions given by their names only. *)
Lemma names_only : exists m1 x1 n1 m2 x2 n2 c1 c2 fs1 fs2,
  acceptable None (Some m1) (Some x1) (Some n1) fs1 /\
  acceptable None (Some m2) (Some x2) (Some n2) fs2 /\
  build "index"%string None (Some m1) (Some x1) (Some n1) false true = Ok c1 /\
  build "index"%string None (Some m2) (Some x2) (Some n2) false true = Ok c2 /\
  band "index"%string c1 c2 = Err EIndex.
Proof.
  exists [AInt 1], [AInt 5], [AStr "width"%string], [AInt 0], [AInt 9], [AStr "height"%string].
  do 2 eexists. exists [side "width" 0 1 5], [side "height" 0 0 9].
  split; [apply given_names; try reflexivity; [| |apply one_distinct]; repeat constructor|].
  split; [apply given_names; try reflexivity; [| |apply one_distinct]; repeat constructor|].
  split; [vm_compute; reflexivity|]. split; vm_compute; reflexivity.
Qed.

(** The flag stays when the bounds are corrected. *)
Lemma flag_stays : exists c fs l d xs,
  condition c fs /\ set_bmaxs (GList l) c = (Ok tt, d) /\ lists d (with_highs fs l) /\
  ~ crossed (with_highs fs l) /\ well_shaped xs /\ accepted xs (with_highs fs l) /\
  satisfied xs 0 (with_highs fs l) /\ evaluate d xs = Ok [0].
Proof.
  exists nowhere, [side "width" 0 5 1], [numz 9]. eexists. exists (TArray 1 [[numz 7]]).
  split; [apply nowhere_ok|]. split; [vm_compute; reflexivity|].
  split; [repeat split|].
  split; [intros (f & [<-|[]] & K); vm_compute in K; discriminate|].
  split; [intros r [<-|[]]; reflexivity|].
  split; [split; auto; intros f [<-|[]]; cbn; lia|].
  split; [|vm_compute; reflexivity].
  intros f [<-|[]]. exists (numz 7). split.
  - exists [numz 7]. split; auto. left. split; [vm_compute; discriminate|reflexivity].
  - split; [eexists; reflexivity|]. split; vm_compute; discriminate.
Qed.

(** Bounds given as text lose their fractional parts. *)
Lemma text_loses : exists c fs q d xs,
  condition c fs /\ set_bmins (GText (Ok [Fin q])) c = (Ok tt, d) /\ well_shaped xs /\
  ~ satisfied xs 0 (with_lows fs [Fin q]) /\ evaluate d xs = Ok [1].
Proof.
  exists (raw_cond [width]), [width], (5 # 2). eexists. exists (TArray 1 [[numz 2]]).
  split; [apply raw_cond_ok, one_distinct|]. split; [vm_compute; reflexivity|].
  split; [intros r [<-|[]]; reflexivity|]. split; [|vm_compute; reflexivity].
  intros S. destruct (S _ (or_introl eq_refl)) as (x & (row & E & V) & (_ & W & _)).
  cbn in E. injection E as <-. cbn in V. destruct V as [(_ & V)|(V & _)]; [|lia].
  injection V as <-. vm_compute in W. contradiction.
Qed.

(** A condition without features is met by every row of an array and is refused
    by a DataFrame. *)
Lemma nothing_refused : exists c xs,
  build "index"%string (Some []) (Some []) (Some []) (Some []) false true = Ok c /\ well_shaped xs /\
  evaluate c xs = Err EAttr /\ evaluate c (TArray 1 [[numz 1]]) = Ok [1].
Proof.
  exists (raw_cond []), rooms. split; [vm_compute; reflexivity|]. split; [apply rooms_shaped|].
  split; vm_compute; reflexivity.
Qed.

(** An empty condition cannot be given its bounds. *)
Lemma empty_raises : exists c l d,
  build "index"%string None None None None true true = Ok c /\ set_bmins (GList l) c = (Err EType, d) /\
  c_min d = Some l.
Proof.
  do 2 eexists. exists (mkCond None (Some [numz 1]) None None false).
  split; [reflexivity|]. split; reflexivity.
Qed.
