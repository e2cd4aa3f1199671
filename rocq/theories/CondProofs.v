(** Proofs about the constructor, sorting and the setters of conditions. *)
From Coq Require Import List ZArith QArith Bool String Ascii Lia.
From Coq Require Import Decimal DecimalString DecimalZ.
From Coq Require Import List.
From Coq Require Import Sorting.Sorted Sorting.Permutation.
From Verif Require Import Base Num CondModel CondSpec CondBase.
Import ListNotations.
Open Scope Z_scope.

(** ** Sorting *)

Definition arranged (sett : settings) (fs : list feature) : list feature :=
  if str_eqb sett "index" then sorted (fun f g => f_index f <? f_index g) fs
  else sorted (fun f g => str_ltb (f_name f) (f_name g)) fs.

Lemma arranged_perm sett fs : Permutation (arranged sett fs) fs.
Proof. unfold arranged. destruct str_eqb; apply sorted_perm. Qed.

Lemma arranged_order sett fs : known sett -> distinct fs -> in_order sett (arranged sett fs).
Proof.
  intros K (N1 & N2). unfold arranged. destruct K as [ -> | -> ]; cbn [str_eqb].
  - apply by_index; auto. cbn.
    assert (S : StronglySorted (fun f g => (f_index f <? f_index g) = true)
                  (sorted (fun f g => f_index f <? f_index g) fs)).
    { apply (sorted_sorted (fun f g => f_index f <? f_index g)).
      - intros x y z. rewrite !Z.ltb_lt. lia.
      - eapply NoDup_map_inv; eauto.
      - intros x y Hx Hy D. rewrite !Z.ltb_lt.
        destruct (Z.eq_dec (f_index x) (f_index y)) as [E|]; [|lia].
        exfalso. apply D. eapply (NoDup_map_inj f_index); eauto. }
    revert S. generalize (sorted (fun f g => f_index f <? f_index g) fs).
    induction l as [|x t IH]; intros S; constructor; inversion S; subst; auto.
    rewrite Forall_forall in *. intros y Hy. apply Z.ltb_lt. auto.
  - apply by_name; auto. cbn.
    apply (sorted_sorted (fun f g => str_ltb (f_name f) (f_name g))).
    + intros x y z. apply str_ltb_trans.
    + eapply NoDup_map_inv; eauto.
    + intros x y Hx Hy D. apply str_ltb_total. intros E. apply D.
      eapply (NoDup_map_inj f_name); eauto.
Qed.

Lemma distinct_perm fs gs : Permutation fs gs -> distinct fs -> distinct gs.
Proof.
  intros P (N1 & N2). split; eapply Permutation_NoDup; try eassumption; apply Permutation_map; auto.
Qed.

Lemma crossed_perm fs gs : Permutation fs gs -> crossed fs -> crossed gs.
Proof. intros P (f & Hf & L). exists f. split; auto. eapply Permutation_in; eauto. Qed.

Lemma clen_lists c fs : lists c fs -> clen c = List.length fs.
Proof. intros (A & B & C & D). unfold clen. rewrite D. apply map_length. Qed.

Lemma arranged_short sett fs : (List.length fs <= 1)%nat -> arranged sett fs = fs.
Proof.
  intros L. unfold arranged. destruct fs as [|a [|b t]]; cbn in *; try lia;
    destruct str_eqb; auto.
Qed.

Lemma sort_lists sett c fs :
  lists c fs -> distinct fs -> known sett ->
  exists c', sort sett c = Ok c' /\ lists c' (arranged sett fs) /\ c_imp c' = c_imp c.
Proof.
  intros L (N1 & N2) K. unfold sort. rewrite (clen_lists c fs L).
  destruct (Nat.ltb_spec 1 (List.length fs)) as [G|G].
  2: { exists c. rewrite arranged_short by auto. auto. }
  destruct L as (A & B & C & D). rewrite A, B, C, D. cbn [need rbind].
  destruct K as [ -> | -> ].
  - change (str_eqb "index" "index") with true. cbv iota.
    eexists. split; [reflexivity|]. split; [|reflexivity].
    unfold lists, arranged. cbn [c_idx c_min c_max c_names].
    change (str_eqb "index" "index") with true. cbv iota.
    repeat split; f_equal.
    + rewrite (sorted_keys f_index Z.ltb) by auto. auto.
    + apply (sort_values_map f_index f_low Z.eqb Z.ltb); auto using Zeqb_spec.
    + apply (sort_values_map f_index f_high Z.eqb Z.ltb); auto using Zeqb_spec.
    + apply (sort_values_map f_index f_name Z.eqb Z.ltb); auto using Zeqb_spec.
  - change (str_eqb "name" "index") with false. change (str_eqb "name" "name") with true.
    cbv iota. eexists. split; [reflexivity|]. split; [|reflexivity].
    unfold lists, arranged. cbn [c_idx c_min c_max c_names].
    change (str_eqb "name" "index") with false. cbv iota.
    repeat split; f_equal.
    + apply (sort_values_map f_name f_index str_eqb str_ltb); auto using seqb_spec.
    + apply (sort_values_map f_name f_low str_eqb str_ltb); auto using seqb_spec.
    + apply (sort_values_map f_name f_high str_eqb str_ltb); auto using seqb_spec.
    + rewrite (sorted_keys f_name str_ltb) by auto. auto.
Qed.

Lemma sort_unknown sett c :
  ~ known sett -> (1 < clen c)%nat -> sort sett c = Err EValue.
Proof.
  intros K L. unfold sort. destruct (Nat.ltb_spec 1 (clen c)); [|lia].
  destruct (str_eqb sett "index") eqn:E1.
  { apply seqb_spec in E1. exfalso. apply K. left; auto. }
  destruct (str_eqb sett "name") eqn:E2; auto.
  apply seqb_spec in E2. exfalso. apply K. right; auto.
Qed.

Lemma sort_short sett c : (clen c <= 1)%nat -> sort sett c = Ok c.
Proof. intros L. unfold sort. destruct (Nat.ltb_spec 1 (clen c)); auto. lia. Qed.

(** ** Impossible *)

Lemma some_above_spec fs :
  some_above (map f_low fs) (map f_high fs) = true <-> crossed fs.
Proof.
  unfold some_above, crossed. rewrite combine_map, existsb_exists. split.
  - intros (p & Hp & E). apply in_map_iff in Hp. destruct Hp as (f & <- & Hf).
    exists f. split; auto. apply nltb_spec. auto.
  - intros (f & Hf & E). exists (f_low f, f_high f). split.
    + apply in_map_iff. eauto.
    + apply nltb_spec. auto.
Qed.

(** ** Constructor *)

Lemma the_num_reads a x : reads a x -> the_num a = x.
Proof. destruct 1; reflexivity. Qed.

Lemma reads_number a x : reads a x -> is_number a = true.
Proof. destruct 1; reflexivity. Qed.

Lemma reads_the_num a : is_number a = true -> reads a (the_num a).
Proof. destruct a as [|[]| |]; cbn; try discriminate; intros; constructor. Qed.

Lemma Forall2_reads l xs :
  Forall2 reads l xs ->
  map the_num l = xs /\ existsb (fun a => negb (is_number a)) l = false /\
  List.length l = List.length xs.
Proof.
  induction 1 as [|a x l xs R _ (E1 & E2 & E3)]; cbn; auto.
  rewrite (the_num_reads _ _ R), (reads_number _ _ R). cbn. rewrite E2. split; [congruence|auto].
Qed.

Lemma map_show_names fs :
  (forall f, In f fs -> f_name f = String.append "X_" (show_int (f_index f))) ->
  map (fun i => String.append "X_" (show_int i)) (map f_index fs) = map f_name fs.
Proof.
  intros H. rewrite map_map. apply map_ext_in. intros f Hf. symmetry. auto.
Qed.

Lemma ints_ok zs : existsb (fun a => negb (is_integer a)) (map AInt zs) = false.
Proof. apply existsb_false. intros x Hx. apply in_map_iff in Hx. destruct Hx as (? & <- & _). auto. Qed.

Lemma strs_ok zs : existsb (fun a => negb (is_string a)) (map AStr zs) = false.
Proof. apply existsb_false. intros x Hx. apply in_map_iff in Hx. destruct Hx as (? & <- & _). auto. Qed.

Lemma the_ints zs : map the_int (map AInt zs) = zs.
Proof. rewrite map_map. apply map_id. Qed.

Lemma the_strs zs : map the_str (map AStr zs) = zs.
Proof. rewrite map_map. apply map_id. Qed.

(** What the constructor leaves before sorting. *)
Definition raw_cond (fs : list feature) : cond :=
  mkCond (Some (map f_index fs)) (Some (map f_low fs)) (Some (map f_high fs))
    (Some (map f_name fs)) (some_above (map f_low fs) (map f_high fs)).

Lemma raw_cond_ok fs : distinct fs -> condition (raw_cond fs) fs.
Proof.
  intros D. split; [repeat split|]. split; auto. cbn [raw_cond c_imp]. apply some_above_spec.
Qed.

Lemma nodup_test {A} (eqb : A -> A -> bool) (E : forall x y, eqb x y = true <-> x = y) l :
  NoDup l -> has_dup eqb l = false.
Proof. intros. apply has_dup_spec; auto. Qed.

Lemma build_acceptable sett idx mins maxs names fs s :
  acceptable idx mins maxs names fs ->
  build sett idx mins maxs names false s =
  (if s then sort sett (raw_cond fs) else Ok (raw_cond fs)).
Proof.
  intros H. destruct H as [idx mins maxs names fs E1 E2 R1 R2 (N1 & N2)
                          |idx mins maxs fs E1 E2 R1 R2 (N1 & N2)
                          |mins maxs names fs E2 E1 R1 R2 (N1 & N2)];
    destruct (Forall2_reads _ _ R1) as (M1 & M2 & M3);
    destruct (Forall2_reads _ _ R2) as (X1 & X2 & X3);
    rewrite map_length in M3, X3; unfold build; cbn [rbind].
  - replace idx with (map AInt (map f_index fs)) by (subst; apply map_map).
    replace names with (map AStr (map f_name fs)) by (subst; apply map_map).
    rewrite !map_length, M3, X3, !Nat.eqb_refl. cbn [negb].
    rewrite strs_ok, M2, X2, ints_ok. rewrite the_ints, the_strs, M1, X1.
    rewrite (nodup_test Z.eqb Zeqb_spec), (nodup_test str_eqb seqb_spec) by auto. reflexivity.
  - replace idx with (map AInt (map f_index fs)) by (subst; apply map_map).
    rewrite !map_length, M3, X3, !Nat.eqb_refl. cbn [negb].
    rewrite M2, X2, ints_ok. rewrite the_ints, M1, X1, map_show_names by auto.
    rewrite (nodup_test Z.eqb Zeqb_spec), (nodup_test str_eqb seqb_spec) by auto. reflexivity.
  - replace names with (map AStr (map f_name fs)) by (subst; apply map_map).
    replace (map Z.of_nat (seq 0 (List.length (map AStr (map f_name fs))))) with (map f_index fs)
      by (rewrite !map_length; auto).
    rewrite !map_length, M3, X3, !Nat.eqb_refl. cbn [negb].
    rewrite strs_ok, M2, X2, ints_ok. rewrite the_ints, the_strs, M1, X1.
    rewrite (nodup_test Z.eqb Zeqb_spec), (nodup_test str_eqb seqb_spec) by auto. reflexivity.
Qed.

Lemma condition_sorted sett c c' fs :
  condition c fs -> lists c' (arranged sett fs) -> c_imp c' = c_imp c ->
  condition c' (arranged sett fs).
Proof.
  intros (L & D & I) L' E. split; auto. split.
  - eapply distinct_perm; [symmetry; apply arranged_perm|]; auto.
  - rewrite E, I. split; apply crossed_perm; [symmetry|]; apply arranged_perm.
Qed.

Lemma build_sorted sett idx mins maxs names fs :
  acceptable idx mins maxs names fs -> known sett ->
  exists c, build sett idx mins maxs names false true = Ok c /\
            condition c (arranged sett fs).
Proof.
  intros A K. rewrite (build_acceptable _ _ _ _ _ fs true A).
  assert (D : distinct fs) by (destruct A; auto).
  destruct (sort_lists sett (raw_cond fs) fs) as (c & E & L & I); auto.
  { apply raw_cond_ok; auto. }
  exists c. split; auto. eapply condition_sorted; eauto. apply raw_cond_ok; auto.
Qed.

Lemma rebuild_ok sett fs :
  distinct fs -> known sett ->
  exists c, rebuild sett (map f_index fs) (map f_low fs) (map f_high fs) (map f_name fs) = Ok c /\
            condition c (arranged sett fs).
Proof.
  intros D K. unfold rebuild. apply build_sorted; auto. constructor; auto.
  - apply map_map.
  - apply map_map.
  - induction fs; cbn; constructor; auto using reads_float. apply IHfs.
    destruct D as (N1 & N2). inversion N1; inversion N2; split; auto.
  - induction fs; cbn; constructor; auto using reads_float. apply IHfs.
    destruct D as (N1 & N2). inversion N1; inversion N2; split; auto.
Qed.

Lemma show_int_inj i j : show_int i = show_int j -> i = j.
Proof.
  unfold show_int. intros H.
  assert (E : Z.to_int i = Z.to_int j).
  { assert (G : NilEmpty.int_of_string (NilEmpty.string_of_int (Z.to_int i)) =
                NilEmpty.int_of_string (NilEmpty.string_of_int (Z.to_int j))) by congruence.
    rewrite !NilEmpty.isi in G. congruence. }
  rewrite <- (DecimalZ.of_to i), <- (DecimalZ.of_to j). congruence.
Qed.

Lemma append_inj p s t : String.append p s = String.append p t -> s = t.
Proof. induction p; cbn; auto. intros H. injection H. auto. Qed.

Lemma default_names_distinct zs :
  NoDup zs -> NoDup (map (fun i => String.append "X_" (show_int i)) zs).
Proof.
  induction zs as [|z t IH]; cbn [map]; intros N; constructor; inversion N; subst; auto.
  intros H. apply in_map_iff in H. destruct H as (y & E & Hy).
  apply append_inj, show_int_inj in E. congruence.
Qed.

Lemma Forall2_the_num l :
  existsb (fun a => negb (is_number a)) l = false -> Forall2 reads l (map the_num l).
Proof.
  induction l as [|a t IH]; cbn; intros H; constructor; apply orb_false_iff in H; destruct H.
  - apply reads_the_num. destruct is_number; [auto|discriminate].
  - auto.
Qed.

Lemma all_ints l : existsb (fun a => negb (is_integer a)) l = false -> l = map AInt (map the_int l).
Proof.
  induction l as [|a t IH]; cbn; intros H; auto. apply orb_false_iff in H. destruct H.
  destruct a; try discriminate. cbn. f_equal; auto.
Qed.

Lemma all_strs l : existsb (fun a => negb (is_string a)) l = false -> l = map AStr (map the_str l).
Proof.
  induction l as [|a t IH]; cbn; intros H; auto. apply orb_false_iff in H. destruct H.
  destruct a; try discriminate. cbn. f_equal; auto.
Qed.

(** The features made of four lists. *)
Fixpoint zip4 (ns : list string) (zs : list Z) (lo hi : list num) : list feature :=
  match ns, zs, lo, hi with
  | n :: ns', z :: zs', a :: lo', b :: hi' => mkFeat n z a b :: zip4 ns' zs' lo' hi'
  | _, _, _, _ => []
  end.

Lemma zip4_maps n : forall ns zs lo hi,
  List.length ns = n -> List.length zs = n -> List.length lo = n -> List.length hi = n ->
  map f_name (zip4 ns zs lo hi) = ns /\ map f_index (zip4 ns zs lo hi) = zs /\
  map f_low (zip4 ns zs lo hi) = lo /\ map f_high (zip4 ns zs lo hi) = hi /\
  List.length (zip4 ns zs lo hi) = n.
Proof.
  induction n as [|n IH]; intros [|a ns] [|z zs] [|l lo] [|h hi]; cbn; intros; try discriminate.
  - auto 10.
  - destruct (IH ns zs lo hi) as (A & B & C & D & E); try lia.
    rewrite A, B, C, D, E. auto 10.
Qed.

Lemma not_NoDup_map {A B} (f : A -> B) l : (forall x y, f x = f y -> x = y) ->
  NoDup (map f l) <-> NoDup l.
Proof.
  intros I. split; [apply NoDup_map_inv|]. induction 1 as [|x t H N IH]; cbn; constructor; auto.
  intros K. apply in_map_iff in K. destruct K as (y & E & Hy). apply I in E. congruence.
Qed.

Ltac two_lists a b :=
  unfold misfit; right; right; right; exists a, b; cbn [In]; auto 10.

(** Every outcome of the constructor. *)
Lemma build_cases sett idx mins maxs names s :
  (misfit idx mins maxs names /\ build sett idx mins maxs names false s = Err EValue) \/
  (~ misfit idx mins maxs names /\ mistyped idx mins maxs names /\
     build sett idx mins maxs names false s = Err EType) \/
  (~ misfit idx mins maxs names /\ ~ mistyped idx mins maxs names /\ repeated idx names /\
     build sett idx mins maxs names false s = Err EDuplicated) \/
  (~ misfit idx mins maxs names /\ ~ mistyped idx mins maxs names /\ ~ repeated idx names /\
     exists fs, acceptable idx mins maxs names fs).
Proof.
  unfold build.
  destruct mins as [mins|]; [|left; split; auto; left; auto].
  destruct maxs as [maxs|]; [|left; split; auto; right; left; auto].
  destruct idx as [idx|].
  - cbn [rbind].
    destruct (Nat.eqb_spec (List.length maxs) (List.length idx)) as [L1|L1]; cbn [negb].
    2: { left. split; auto. two_lists maxs idx. }
    destruct (Nat.eqb_spec (List.length mins) (List.length idx)) as [L2|L2]; cbn [negb].
    2: { left. split; auto. two_lists mins idx. }
    assert (L3 : match names with Some ns => List.length ns = List.length idx | None => True end \/
                 (exists ns, names = Some ns /\ List.length ns <> List.length idx)).
    { destruct names as [ns|]; auto. destruct (Nat.eq_dec (List.length ns) (List.length idx)); eauto. }
    destruct L3 as [L3|(ns & -> & L3)].
    2: { left. destruct (Nat.eqb_spec (List.length ns) (List.length idx)); [congruence|].
         split; auto. two_lists ns idx. }
    assert (F : ~ misfit (Some idx) (Some mins) (Some maxs) names).
    { intros [M|[M|[(M & _)|(a & b & Ha & Hb & L)]]]; try discriminate. apply L.
      assert (G : forall a, In (Some a) [Some idx; Some mins; Some maxs; names] ->
                            List.length a = List.length idx).
      { intros c. cbn [In]. intros [K|[K|[K|[K|[]]]]]; try (injection K as <-; congruence).
        subst. auto. }
      rewrite (G a), (G b); auto. }
    assert ((if match names with Some ns => negb (List.length ns =? List.length idx)%nat
                               | None => false end then false else true) = true) as E.
    { destruct names as [ns|]; auto. rewrite L3, Nat.eqb_refl. auto. }
    destruct (match names with Some ns => negb (List.length ns =? List.length idx)%nat
                             | None => false end); [discriminate|]. clear E.
    right.
    destruct (match names with Some ns => existsb (fun a => negb (is_string a)) ns
                             | None => false end) eqn:S.
    { left. repeat split; auto. destruct names as [ns|]; [|discriminate].
      apply existsb_exists in S. destruct S as (a & Ha & S). right. left. exists ns, a.
      repeat split; auto. intros ? ->. discriminate. }
    destruct (existsb (fun a => negb (is_number a)) mins) eqn:M1.
    { left. repeat split; auto. apply existsb_exists in M1. destruct M1 as (a & Ha & M1).
      right. right. exists mins, a. repeat split; auto. destruct a; try discriminate. eauto. }
    destruct (existsb (fun a => negb (is_number a)) maxs) eqn:M2.
    { left. repeat split; auto. apply existsb_exists in M2. destruct M2 as (a & Ha & M2).
      right. right. exists maxs, a. repeat split; auto. destruct a; try discriminate. eauto. }
    destruct (existsb (fun a => negb (is_integer a)) idx) eqn:I1.
    { left. repeat split; auto. apply existsb_exists in I1. destruct I1 as (a & Ha & I1).
      left. exists idx, a. repeat split; auto. intros ? ->. discriminate. }
    right.
    assert (T : ~ mistyped (Some idx) (Some mins) (Some maxs) names).
    { intros [(l & a & E & Ha & N)|[(l & a & E & Ha & N)|(l & a & E & Ha & N)]].
      - injection E as <-. rewrite (all_ints _ I1) in Ha. apply in_map_iff in Ha.
        destruct Ha as (z & <- & _). apply (N z); auto.
      - subst names. rewrite (all_strs _ S) in Ha. apply in_map_iff in Ha.
        destruct Ha as (z & <- & _). apply (N z); auto.
      - destruct N as (st & ->). rewrite existsb_false in M1, M2.
        destruct E as [E|E]; injection E as <-; [specialize (M1 _ Ha)|specialize (M2 _ Ha)]; discriminate. }
    destruct (has_dup Z.eqb (map the_int idx)) eqn:D1.
    { left. repeat split; auto. exists idx. split; auto. apply (has_dup_true _ Zeqb_spec) in D1.
      intros N. apply D1. rewrite (all_ints _ I1) in N. apply not_NoDup_map in N; auto.
      intros x y E. injection E; auto. }
    apply (has_dup_spec _ Zeqb_spec) in D1.
    assert (NI : NoDup idx).
    { rewrite (all_ints _ I1). apply not_NoDup_map; auto. intros x y E. injection E; auto. }
    destruct names as [ns|].
    + destruct (has_dup str_eqb (map the_str ns)) eqn:D2.
      { left. repeat split; auto. exists ns. split; auto. apply (has_dup_true _ seqb_spec) in D2.
        intros N. apply D2. rewrite (all_strs _ S) in N. apply not_NoDup_map in N; auto.
        intros x y E. injection E; auto. }
      right. repeat split; auto.
      { intros (l & [E|E] & N); injection E as <-; auto. apply N.
        apply (has_dup_spec _ seqb_spec) in D2. rewrite (all_strs _ S). apply not_NoDup_map; auto.
        intros x y E. injection E; auto. }
      apply (has_dup_spec _ seqb_spec) in D2.
      destruct (zip4_maps (List.length idx) (map the_str ns) (map the_int idx)
                  (map the_num mins) (map the_num maxs)) as (A & B & C & D & _);
        try (rewrite map_length; congruence).
      exists (zip4 (map the_str ns) (map the_int idx) (map the_num mins) (map the_num maxs)).
      constructor.
      * rewrite <- (map_map f_index AInt), B. apply all_ints; auto.
      * rewrite <- (map_map f_name AStr), A. apply all_strs; auto.
      * rewrite C. apply Forall2_the_num; auto.
      * rewrite D. apply Forall2_the_num; auto.
      * split; congruence.
    + pose proof (default_names_distinct _ D1) as D2.
      rewrite (nodup_test str_eqb seqb_spec) by auto.
      right. repeat split; auto.
      { intros (l & [E|E] & N); [injection E as <-|discriminate]; auto. }
      destruct (zip4_maps (List.length idx)
                  (map (fun i => String.append "X_" (show_int i)) (map the_int idx)) (map the_int idx)
                  (map the_num mins) (map the_num maxs)) as (A & B & C & D & _);
        try (rewrite ?map_length; congruence).
      exists (zip4 (map (fun i => String.append "X_" (show_int i)) (map the_int idx))
                (map the_int idx) (map the_num mins) (map the_num maxs)).
      constructor.
      * rewrite <- (map_map f_index AInt), B. apply all_ints; auto.
      * revert B A. generalize (zip4 (map (fun i => String.append "X_" (show_int i)) (map the_int idx))
                (map the_int idx) (map the_num mins) (map the_num maxs)).
        intros fs B A. rewrite <- B in A. rewrite map_map in A.
        intros f Hf. clear -A Hf. induction fs as [|g t IH]; [destruct Hf|].
        cbn [map] in A. injection A as A1 A2. destruct Hf as [ <- |Hf]; auto.
      * rewrite C. apply Forall2_the_num; auto.
      * rewrite D. apply Forall2_the_num; auto.
      * split; congruence.
  - destruct names as [ns|]; [|left; split; auto; right; right; left; auto].
    cbn [rbind]. rewrite !map_length, seq_length.
    destruct (Nat.eqb_spec (List.length maxs) (List.length ns)) as [L1|L1]; cbn [negb].
    2: { left. split; auto. two_lists maxs ns. }
    destruct (Nat.eqb_spec (List.length mins) (List.length ns)) as [L2|L2]; cbn [negb].
    2: { left. split; auto. two_lists mins ns. }
    rewrite Nat.eqb_refl. cbn [negb]. right.
    assert (F : ~ misfit None (Some mins) (Some maxs) (Some ns)).
    { intros [M|[M|[(_ & M)|(a & b & Ha & Hb & L)]]]; try discriminate. apply L.
      assert (G : forall a, In (Some a) [None; Some mins; Some maxs; Some ns] ->
                            List.length a = List.length ns).
      { intros c. cbn [In]. intros [K|[K|[K|[K|[]]]]]; try discriminate; injection K as <-; congruence. }
      rewrite (G a), (G b); auto. }
    destruct (existsb (fun a => negb (is_string a)) ns) eqn:S.
    { left. repeat split; auto.
      apply existsb_exists in S. destruct S as (a & Ha & S). right. left. exists ns, a.
      repeat split; auto. intros ? ->. discriminate. }
    destruct (existsb (fun a => negb (is_number a)) mins) eqn:M1.
    { left. repeat split; auto. apply existsb_exists in M1. destruct M1 as (a & Ha & M1).
      right. right. exists mins, a. repeat split; auto. destruct a; try discriminate. eauto. }
    destruct (existsb (fun a => negb (is_number a)) maxs) eqn:M2.
    { left. repeat split; auto. apply existsb_exists in M2. destruct M2 as (a & Ha & M2).
      right. right. exists maxs, a. repeat split; auto. destruct a; try discriminate. eauto. }
    rewrite ints_ok, the_ints.
    right.
    assert (T : ~ mistyped None (Some mins) (Some maxs) (Some ns)).
    { intros [(l & a & E & Ha & N)|[(l & a & E & Ha & N)|(l & a & E & Ha & N)]].
      - discriminate.
      - injection E as <-. rewrite (all_strs _ S) in Ha. apply in_map_iff in Ha.
        destruct Ha as (z & <- & _). apply (N z); auto.
      - destruct N as (st & ->). rewrite existsb_false in M1, M2.
        destruct E as [E|E]; injection E as <-; [specialize (M1 _ Ha)|specialize (M2 _ Ha)]; discriminate. }
    assert (D1 : NoDup (map Z.of_nat (seq 0 (List.length ns)))).
    { apply not_NoDup_map; [intros; lia|]. apply seq_NoDup. }
    rewrite (nodup_test Z.eqb Zeqb_spec) by auto.
    destruct (has_dup str_eqb (map the_str ns)) eqn:D2.
    { left. repeat split; auto. exists ns. split; auto. apply (has_dup_true _ seqb_spec) in D2.
      intros N. apply D2. rewrite (all_strs _ S) in N. apply not_NoDup_map in N; auto.
      intros x y E. injection E; auto. }
    right. repeat split; auto.
    { intros (l & [E|E] & N); [discriminate|injection E as <-; auto]. apply N.
      apply (has_dup_spec _ seqb_spec) in D2. rewrite (all_strs _ S). apply not_NoDup_map; auto.
      intros x y E. injection E; auto. }
    apply (has_dup_spec _ seqb_spec) in D2.
    destruct (zip4_maps (List.length ns) (map the_str ns) (map Z.of_nat (seq 0 (List.length ns)))
                (map the_num mins) (map the_num maxs)) as (A & B & C & D & E);
      try (rewrite ?map_length, ?seq_length; congruence).
    exists (zip4 (map the_str ns) (map Z.of_nat (seq 0 (List.length ns))) (map the_num mins) (map the_num maxs)).
    constructor.
    + rewrite <- (map_map f_name AStr), A. apply all_strs; auto.
    + rewrite B, E. auto.
    + rewrite C. apply Forall2_the_num; auto.
    + rewrite D. apply Forall2_the_num; auto.
    + split; congruence.
Qed.

Lemma acceptable_fits idx mins maxs names fs :
  acceptable idx mins maxs names fs ->
  ~ misfit idx mins maxs names /\ ~ mistyped idx mins maxs names /\ ~ repeated idx names.
Proof.
  intros A. destruct (build_cases "index"%string idx mins maxs names false)
    as [(_ & E)|[(_ & _ & E)|[(_ & _ & _ & E)|(M & T & R & _)]]]; auto;
    rewrite (build_acceptable _ _ _ _ _ _ false A) in E; discriminate.
Qed.
