(** Setters of conditions, converse of equality, and corner cases. *)
From Coq Require Import List ZArith QArith Bool String Ascii Lia.
From Coq Require Import List.
From Coq Require Import Sorting.Sorted Sorting.Permutation.
From Verif Require Import Base Num CondModel CondSpec CondBase CondProofs CondEval CondAnd CondMore.
Import ListNotations.
Open Scope Z_scope.

(** ** Setters *)

(** The features with new lower bounds (in the same order). *)
Fixpoint with_lows (fs : list feature) (l : list num) : list feature :=
  match fs, l with
  | f :: fs', x :: l' => mkFeat (f_name f) (f_index f) x (f_high f) :: with_lows fs' l'
  | _, _ => []
  end.

Fixpoint with_highs (fs : list feature) (l : list num) : list feature :=
  match fs, l with
  | f :: fs', x :: l' => mkFeat (f_name f) (f_index f) (f_low f) x :: with_highs fs' l'
  | _, _ => []
  end.

Fixpoint with_indexes (fs : list feature) (l : list Z) : list feature :=
  match fs, l with
  | f :: fs', x :: l' => mkFeat (f_name f) x (f_low f) (f_high f) :: with_indexes fs' l'
  | _, _ => []
  end.

Fixpoint with_names (fs : list feature) (l : list string) : list feature :=
  match fs, l with
  | f :: fs', x :: l' => mkFeat x (f_index f) (f_low f) (f_high f) :: with_names fs' l'
  | _, _ => []
  end.

Lemma with_lows_maps fs : forall l, List.length l = List.length fs ->
  map f_name (with_lows fs l) = map f_name fs /\ map f_index (with_lows fs l) = map f_index fs /\
  map f_low (with_lows fs l) = l /\ map f_high (with_lows fs l) = map f_high fs.
Proof.
  induction fs as [|f t IH]; intros [|x l] L; cbn in L; try lia; cbn; auto.
  destruct (IH l) as (A & B & C & D); [lia|]. rewrite A, B, C, D. auto.
Qed.

Lemma with_highs_maps fs : forall l, List.length l = List.length fs ->
  map f_name (with_highs fs l) = map f_name fs /\ map f_index (with_highs fs l) = map f_index fs /\
  map f_low (with_highs fs l) = map f_low fs /\ map f_high (with_highs fs l) = l.
Proof.
  induction fs as [|f t IH]; intros [|x l] L; cbn in L; try lia; cbn; auto.
  destruct (IH l) as (A & B & C & D); [lia|]. rewrite A, B, C, D. auto.
Qed.

Lemma with_indexes_maps fs : forall l, List.length l = List.length fs ->
  map f_name (with_indexes fs l) = map f_name fs /\ map f_index (with_indexes fs l) = l /\
  map f_low (with_indexes fs l) = map f_low fs /\ map f_high (with_indexes fs l) = map f_high fs.
Proof.
  induction fs as [|f t IH]; intros [|x l] L; cbn in L; try lia; cbn; auto.
  destruct (IH l) as (A & B & C & D); [lia|]. rewrite A, B, C, D. auto.
Qed.

Lemma with_names_maps fs : forall l, List.length l = List.length fs ->
  map f_name (with_names fs l) = l /\ map f_index (with_names fs l) = map f_index fs /\
  map f_low (with_names fs l) = map f_low fs /\ map f_high (with_names fs l) = map f_high fs.
Proof.
  induction fs as [|f t IH]; intros [|x l] L; cbn in L; try lia; cbn; auto.
  destruct (IH l) as (A & B & C & D); [lia|]. rewrite A, B, C, D. auto.
Qed.

Lemma crossed_maps fs gs :
  map f_low fs = map f_low gs -> map f_high fs = map f_high gs -> crossed fs <-> crossed gs.
Proof. intros A B. rewrite <- !some_above_spec, A, B. tauto. Qed.

Lemma wrong_length_spec {A} c fs (l : list A) :
  lists c fs -> wrong_length c l = negb (List.length l =? List.length fs)%nat && (0 <? List.length fs)%nat.
Proof.
  intros L. unfold wrong_length. rewrite (clen_lists c fs L). rewrite andb_comm. f_equal.
  rewrite Nat.eqb_sym. auto.
Qed.

Lemma set_bmins_ok c fs l :
  condition c fs -> c_imp c = false -> List.length l = List.length fs ->
  exists d, set_bmins (GList l) c = (Ok tt, d) /\ condition d (with_lows fs l).
Proof.
  intros C Imp L. destruct C as ((A1 & A2 & A3 & A4) & (N1 & N2) & I).
  destruct (with_lows_maps fs l L) as (B1 & B2 & B3 & B4).
  unfold set_bmins. cbn [read_bounds].
  rewrite (wrong_length_spec c fs) by (repeat split; auto). rewrite L, Nat.eqb_refl. cbn [negb andb].
  unfold flag_impossible. cbn [c_min c_max c_idx c_names c_imp]. rewrite A3, Imp.
  eexists. split; [reflexivity|]. split; [|split].
  - unfold lists. cbn. rewrite A1, A4, B1, B2, B3, B4. auto.
  - split; rewrite ?B1, ?B2; auto.
  - cbn [c_imp]. rewrite <- some_above_spec, B3, B4.
    destruct (some_above l (map f_high fs)); split; auto.
Qed.

Lemma set_bmaxs_ok c fs l :
  condition c fs -> c_imp c = false -> List.length l = List.length fs ->
  exists d, set_bmaxs (GList l) c = (Ok tt, d) /\ condition d (with_highs fs l).
Proof.
  intros C Imp L. destruct C as ((A1 & A2 & A3 & A4) & (N1 & N2) & I).
  destruct (with_highs_maps fs l L) as (B1 & B2 & B3 & B4).
  unfold set_bmaxs. cbn [read_bounds].
  rewrite (wrong_length_spec c fs) by (repeat split; auto). rewrite L, Nat.eqb_refl. cbn [negb andb].
  unfold flag_impossible. cbn [c_min c_max c_idx c_names c_imp]. rewrite A2, Imp.
  eexists. split; [reflexivity|]. split; [|split].
  - unfold lists. cbn. rewrite A1, A4, B1, B2, B3, B4. auto.
  - split; rewrite ?B1, ?B2; auto.
  - cbn [c_imp]. rewrite <- some_above_spec, B3, B4.
    destruct (some_above (map f_low fs) l); split; auto.
Qed.

Lemma set_indexes_ok c fs l :
  condition c fs -> List.length l = List.length fs -> NoDup l ->
  exists d, set_features_indexes (GList l) c = (Ok tt, d) /\ condition d (with_indexes fs l).
Proof.
  intros C L N. destruct C as ((A1 & A2 & A3 & A4) & (N1 & N2) & I).
  destruct (with_indexes_maps fs l L) as (B1 & B2 & B3 & B4).
  unfold set_features_indexes. cbn [read_list]. rewrite (nodup_test Z.eqb Zeqb_spec) by auto.
  rewrite (wrong_length_spec c fs) by (repeat split; auto). rewrite L, Nat.eqb_refl. cbn [negb andb].
  eexists. split; [reflexivity|]. split; [|split].
  - unfold lists. cbn. rewrite A2, A3, A4, B1, B2, B3, B4. auto.
  - split; rewrite ?B1, ?B2; auto.
  - cbn [c_imp]. rewrite I. apply crossed_maps; auto.
Qed.

Lemma set_names_ok c fs l :
  condition c fs -> List.length l = List.length fs -> NoDup l ->
  exists d, set_features_names (GList l) c = (Ok tt, d) /\ condition d (with_names fs l).
Proof.
  intros C L N. destruct C as ((A1 & A2 & A3 & A4) & (N1 & N2) & I).
  destruct (with_names_maps fs l L) as (B1 & B2 & B3 & B4).
  unfold set_features_names. cbn [read_list]. rewrite (nodup_test str_eqb seqb_spec) by auto.
  rewrite (wrong_length_spec c fs) by (repeat split; auto). rewrite L, Nat.eqb_refl. cbn [negb andb].
  eexists. split; [reflexivity|]. split; [|split].
  - unfold lists. cbn. rewrite A1, A2, A3, B1, B2, B3, B4. auto.
  - split; rewrite ?B1, ?B2; auto.
  - cbn [c_imp]. rewrite I. apply crossed_maps; auto.
Qed.

(** Rejected assignments leave the condition as it was. *)
Lemma setters_reject c fs :
  condition c fs -> fs <> [] ->
  (forall l, List.length l <> List.length fs ->
     set_bmins (GList l) c = (Err EIndex, c) /\ set_bmaxs (GList l) c = (Err EIndex, c)) /\
  (forall l, ~ NoDup l -> set_features_indexes (GList l) c = (Err EDuplicated, c)) /\
  (forall l, NoDup l -> List.length l <> List.length fs ->
     set_features_indexes (GList l) c = (Err EIndex, c)) /\
  (forall l, ~ NoDup l -> set_features_names (GList l) c = (Err EDuplicated, c)) /\
  (forall l, NoDup l -> List.length l <> List.length fs ->
     set_features_names (GList l) c = (Err EIndex, c)).
Proof.
  intros C NE.
  assert (W : forall A (l : list A), List.length l <> List.length fs -> wrong_length c l = true).
  { intros A l L. rewrite (wrong_length_spec c fs) by apply C.
    destruct (Nat.eqb_spec (List.length l) (List.length fs)); [contradiction|].
    destruct fs; [congruence|]. auto. }
  repeat split.
  - unfold set_bmins. cbn [read_bounds]. rewrite (W num l H). auto.
  - unfold set_bmaxs. cbn [read_bounds]. rewrite (W num l H). auto.
  - intros l N. unfold set_features_indexes. cbn [read_list].
    rewrite (proj2 (has_dup_true _ Zeqb_spec l) N). auto.
  - intros l N L. unfold set_features_indexes. cbn [read_list].
    rewrite (nodup_test Z.eqb Zeqb_spec), (W Z l L) by auto. auto.
  - intros l N. unfold set_features_names. cbn [read_list].
    rewrite (proj2 (has_dup_true _ seqb_spec l) N). auto.
  - intros l N L. unfold set_features_names. cbn [read_list].
    rewrite (nodup_test str_eqb seqb_spec), (W string l L) by auto. auto.
Qed.

(** Once flagged, always flagged. *)
Lemma flag_sticks c v :
  c_imp c = true ->
  c_imp (snd (set_bmins v c)) = true /\ c_imp (snd (set_bmaxs v c)) = true /\
  forall xs, evaluate (snd (set_bmins v c)) xs = Ok (repeat 0 (nrows xs)) /\
             evaluate (snd (set_bmaxs v c)) xs = Ok (repeat 0 (nrows xs)).
Proof.
  intros E.
  assert (F : forall d, c_imp d = true -> c_imp (snd (flag_impossible d)) = true).
  { intros d D. unfold flag_impossible. destruct (c_min d), (c_max d); cbn; auto.
    destruct some_above; auto. }
  assert (A : c_imp (snd (set_bmins v c)) = true).
  { unfold set_bmins. destruct (read_bounds v); auto. destruct (wrong_length c a); auto. }
  assert (B : c_imp (snd (set_bmaxs v c)) = true).
  { unfold set_bmaxs. destruct (read_bounds v); auto. destruct (wrong_length c a); auto. }
  repeat split; auto; apply evaluate_flagged; auto.
Qed.

(** A list of integers given as text is the list. *)
Lemma text_integers l c :
  set_bmins (GText (Ok (map numz l))) c = set_bmins (GList (map numz l)) c /\
  set_bmaxs (GText (Ok (map numz l))) c = set_bmaxs (GList (map numz l)) c.
Proof.
  assert (E : rseq (map to_int (map numz l)) = Ok (map numz l)).
  { induction l as [|z t IH]; cbn [map rseq]; auto.
    assert (to_int (numz z) = Ok (numz z)) as ->.
    { unfold to_int, numz, trunc, inject_Z. cbn [Qnum Qden]. rewrite Z.quot_1_r. auto. }
    cbn [rbind]. rewrite IH. auto. }
  unfold set_bmins, set_bmaxs. cbn [read_bounds rbind]. rewrite E. auto.
Qed.

Lemma normalize_ok c fs :
  condition c fs ->
  exists d, normalize_features_indexes c = Ok d /\
    condition d (with_indexes fs (map Z.of_nat (seq 0 (List.length fs)))).
Proof.
  intros C. destruct C as ((A1 & A2 & A3 & A4) & (N1 & N2) & I).
  set (l := map Z.of_nat (seq 0 (List.length fs))).
  assert (L : List.length l = List.length fs) by (unfold l; rewrite map_length, seq_length; auto).
  destruct (with_indexes_maps fs l L) as (B1 & B2 & B3 & B4).
  unfold normalize_features_indexes. rewrite A1. cbn [need rbind]. rewrite map_length.
  eexists. split; [reflexivity|]. fold l. split; [|split].
  - unfold lists. cbn. rewrite A2, A3, A4, B1, B2, B3, B4. auto.
  - split; rewrite ?B1, ?B2; auto. apply not_NoDup_map; [intros; lia|]. apply seq_NoDup.
  - cbn [c_imp]. rewrite I. apply crossed_maps; auto.
Qed.

Lemma getitem_ok c fs i f :
  condition c fs ->
  (nth_error fs i = Some f ->
   getitem c (Z.of_nat i) = Ok (f_name f, f_index f, f_low f, f_high f) /\
   getitem c (Z.of_nat i - Z.of_nat (List.length fs)) = Ok (f_name f, f_index f, f_low f, f_high f)) /\
  (Z.of_nat (List.length fs) <= Z.of_nat i ->
   getitem c (Z.of_nat i) = Err EIndex /\ getitem c (- Z.of_nat i - 1) = Err EIndex).
Proof.
  intros C. destruct C as ((A1 & A2 & A3 & A4) & _ & _).
  assert (P : forall A (h : feature -> A), nth_error fs i = Some f ->
     py_index (map h fs) (Z.of_nat i) = Ok (h f) /\
     py_index (map h fs) (Z.of_nat i - Z.of_nat (List.length fs)) = Ok (h f)).
  { intros A h H. assert (L : (i < List.length fs)%nat) by (apply nth_error_Some; congruence).
    unfold py_index. rewrite map_length.
    destruct (Z.leb_spec 0 (Z.of_nat i)); [|lia].
    destruct (Z.ltb_spec (Z.of_nat i) (Z.of_nat (List.length fs))); [|lia].
    destruct (Z.leb_spec 0 (Z.of_nat i - Z.of_nat (List.length fs))); [lia|].
    destruct (Z.leb_spec (- Z.of_nat (List.length fs)) (Z.of_nat i - Z.of_nat (List.length fs))); [|lia].
    destruct (Z.ltb_spec (Z.of_nat i - Z.of_nat (List.length fs)) 0); [|lia].
    cbn [andb]. unfold at_pos.
    replace (Z.to_nat (Z.of_nat (List.length fs) + (Z.of_nat i - Z.of_nat (List.length fs)))) with i by lia.
    rewrite Nat2Z.id, (map_nth_error h _ _ H). auto. }
  split.
  - intros H. unfold getitem. rewrite A1, A2, A3, A4. cbn [need rbind].
    split.
    + rewrite (proj1 (P _ f_name H)). cbn [rbind]. rewrite (proj1 (P _ f_index H)). cbn [rbind].
      rewrite (proj1 (P _ f_low H)). cbn [rbind]. rewrite (proj1 (P _ f_high H)). auto.
    + rewrite (proj2 (P _ f_name H)). cbn [rbind]. rewrite (proj2 (P _ f_index H)). cbn [rbind].
      rewrite (proj2 (P _ f_low H)). cbn [rbind]. rewrite (proj2 (P _ f_high H)). auto.
  - intros L. unfold getitem. rewrite A4. cbn [need rbind]. unfold py_index. rewrite map_length.
    split.
    + destruct (Z.ltb_spec (Z.of_nat i) (Z.of_nat (List.length fs))); [lia|]. rewrite andb_false_r.
      destruct (Z.ltb_spec (Z.of_nat i) 0); [lia|]. rewrite andb_false_r. auto.
    + destruct (Z.leb_spec 0 (- Z.of_nat i - 1)); [lia|]. cbn [andb].
      destruct (Z.leb_spec (- Z.of_nat (List.length fs)) (- Z.of_nat i - 1)); [lia|]. auto.
Qed.

(** ** Equality, converse *)

Lemma equal_converse H c d fs gs :
  collision_free H -> condition c fs -> condition d gs -> plain_bounds fs -> plain_bounds gs ->
  ceq H c d = Ok true -> same_content fs gs.
Proof.
  intros (F1 & F2 & F3 & F4) C D B1 B2 E.
  unfold ceq, hash in E. rewrite (to_hash_lists H c fs), (to_hash_lists H d gs) in E by (apply C || apply D).
  cbn [rmap rbind] in E. injection E as E. apply Z.eqb_eq in E. apply F3 in E. apply Permutation_cons_inv in E.
  assert (K : forall f g, In f fs -> In g gs -> hash_feature H f = hash_feature H g ->
     f_name g = f_name f /\ same_num (f_low f) (f_low g) /\ same_num (f_high f) (f_high g)).
  { intros f g Hf Hg Eh. unfold hash_feature in Eh. apply F2 in Eh. injection Eh as E1 E2 E3.
    apply F1 in E1. destruct (B1 f Hf) as (a & b & Ea & Eb & ? & ? & ? & ?).
    destruct (B2 g Hg) as (a' & b' & Ea' & Eb' & ? & ? & ? & ?).
    rewrite Ea, Ea', !hash_plain in E2 by auto. rewrite Eb, Eb', !hash_plain in E3 by auto.
    subst. rewrite Ea, Ea', Eb, Eb'. repeat split; auto using same_num_refl. }
  split.
  - intros f Hf. assert (I : In (hash_feature H f) (map (hash_feature H) gs)).
    { eapply Permutation_in; [exact E|]. apply in_map; auto. }
    apply in_map_iff in I. destruct I as (g & Eh & Hg). exists g. split; auto.
  - intros g Hg. assert (I : In (hash_feature H g) (map (hash_feature H) fs)).
    { eapply Permutation_in; [symmetry; exact E|]. apply in_map; auto. }
    apply in_map_iff in I. destruct I as (f & Eh & Hf). exists f. split; auto.
Qed.

(** Two conditions given by names only, whose first names differ: both use
    index 0. *)
Lemma names_only_clash sett c1 c2 fs1 fs2 m1 x1 n1 m2 x2 n2 :
  known sett ->
  acceptable None (Some m1) (Some x1) (Some n1) fs1 ->
  acceptable None (Some m2) (Some x2) (Some n2) fs2 ->
  (exists a t b t', n1 = a :: t /\ n2 = b :: t' /\ a <> b) ->
  build sett None (Some m1) (Some x1) (Some n1) false true = Ok c1 ->
  build sett None (Some m2) (Some x2) (Some n2) false true = Ok c2 ->
  band sett c1 c2 = Err EIndex.
Proof.
  intros K A1 A2 (a & t & b & t' & En1 & En2 & NE) E1 E2.
  destruct (build_sorted _ _ _ _ _ _ A1 K) as (d1 & F1 & C1). rewrite E1 in F1. injection F1 as <-.
  destruct (build_sorted _ _ _ _ _ _ A2 K) as (d2 & F2 & C2). rewrite E2 in F2. injection F2 as <-.
  destruct (band_cases sett c1 c2 _ _ K (proj1 C1) (proj1 (proj2 C1)) (proj1 C2) (proj1 (proj2 C2)))
    as [(CO & _)|(_ & E)]; auto. exfalso.
  apply (consistent_perm _ fs1) in CO; [|apply arranged_perm].
  apply consistent_sym in CO. apply (consistent_perm _ fs2) in CO; [|apply arranged_perm].
  inversion A1 as [| |? ? ? ? G1 I1]; subst. inversion A2 as [| |? ? ? ? G2 I2]; subst.
  destruct fs1 as [|f fs1]; [discriminate|]. destruct fs2 as [|g fs2]; [discriminate|].
  cbn in G1, G2, I1, I2. injection G1 as -> _. injection G2 as -> _. injection I1 as I1 _. injection I2 as I2 _.
  apply NE. f_equal. symmetry. apply (CO g f); cbn; auto. congruence.
Qed.

(** ** Constructor, all outcomes *)

Lemma construct sett idx mins maxs names :
  (misfit idx mins maxs names ->
     forall s, build sett idx mins maxs names false s = Err EValue) /\
  (~ misfit idx mins maxs names -> mistyped idx mins maxs names ->
     forall s, build sett idx mins maxs names false s = Err EType) /\
  (~ misfit idx mins maxs names -> ~ mistyped idx mins maxs names -> repeated idx names ->
     forall s, build sett idx mins maxs names false s = Err EDuplicated) /\
  (~ misfit idx mins maxs names -> ~ mistyped idx mins maxs names -> ~ repeated idx names ->
     exists fs, acceptable idx mins maxs names fs /\
       (exists c, build sett idx mins maxs names false false = Ok c /\ condition c fs) /\
       (known sett -> exists c gs, build sett idx mins maxs names false true = Ok c /\
          condition c gs /\ in_order sett gs /\ Permutation gs fs) /\
       (~ known sett -> (1 < List.length fs)%nat ->
          build sett idx mins maxs names false true = Err EValue)).
Proof.
  repeat split.
  - intros M s. destruct (build_cases sett idx mins maxs names s) as [A|[A|[A|A]]]; tauto.
  - intros M T s. destruct (build_cases sett idx mins maxs names s) as [A|[A|[A|A]]]; tauto.
  - intros M T R s. destruct (build_cases sett idx mins maxs names s) as [A|[A|[A|A]]]; tauto.
  - intros M T R. destruct (build_cases sett idx mins maxs names true) as [A|[A|[A|A]]]; try tauto.
    destruct A as (_ & _ & _ & fs & A). exists fs. split; auto.
    assert (D : distinct fs) by (inversion A; auto).
    split; [|split].
    + rewrite (build_acceptable sett _ _ _ _ fs false A). eexists. split; [reflexivity|].
      apply raw_cond_ok; auto.
    + intros K. destruct (build_sorted sett _ _ _ _ fs A K) as (c & E & C).
      exists c, (arranged sett fs). repeat split; auto using arranged_perm, arranged_order; apply C.
    + intros K L. rewrite (build_acceptable sett _ _ _ _ fs true A). apply sort_unknown; auto.
      rewrite (clen_lists _ fs); auto. apply (raw_cond_ok fs D).
Qed.

Lemma flag_told sett idx mins maxs names s c fs :
  acceptable idx mins maxs names fs -> build sett idx mins maxs names false s = Ok c ->
  c_imp c = true <-> crossed fs.
Proof.
  intros A E. rewrite (build_acceptable sett _ _ _ _ fs s A) in E.
  assert (D : distinct fs) by (inversion A; auto).
  assert (I : c_imp c = c_imp (raw_cond fs)).
  { destruct s; [|congruence].
    destruct (le_lt_dec (clen (raw_cond fs)) 1) as [L|L].
    - rewrite sort_short in E by auto. congruence.
    - unfold sort in E. destruct (Nat.ltb_spec 1 (clen (raw_cond fs))); [|lia].
      destruct (str_eqb sett "index"); [|destruct (str_eqb sett "name"); [|discriminate]];
        cbn in E; injection E as <-; auto. }
  rewrite I. apply (raw_cond_ok fs D).
Qed.

(** ** Empty conditions *)

(** Whatever the order of the four assignments, the first of the two
    assignments of bounds raises after having taken effect. *)
Lemma fill_empty sett a l h z n :
  build sett a l h z true n = Ok (mkCond None None None None false) /\
  forall ms xs c, c_min c = None -> c_max c = None -> wrong_length c ms = false ->
    List.length ms = List.length xs ->
    exists d e, set_bmins (GList ms) c = (Err EType, d) /\ set_bmaxs (GList xs) d = (Ok tt, e) /\
      e = mkCond (c_idx c) (Some ms) (Some xs) (c_names c)
                 (if some_above ms xs then true else c_imp c).
Proof.
  split; auto. intros ms xs c N1 N2 W L.
  unfold set_bmins. cbn [read_bounds]. rewrite W. unfold flag_impossible at 1. cbn [c_max c_min]. rewrite N2.
  do 2 eexists. split; [reflexivity|]. unfold set_bmaxs. cbn [read_bounds].
  assert (wrong_length (mkCond (c_idx c) (Some ms) None (c_names c) (c_imp c)) xs = false) as ->.
  { revert W. unfold wrong_length, clen. cbn.
    destruct (c_names c); [rewrite L; auto|]. destruct (c_idx c); [rewrite L; auto|].
    rewrite L, Nat.eqb_refl. rewrite andb_false_r. auto. }
  unfold flag_impossible. cbn [c_min c_max c_idx c_names c_imp]. split; auto.
Qed.

(** Bounds given as text are truncated. *)
Lemma trunc_spec q : toward_zero q (trunc q).
Proof.
  destruct q as (n, d). unfold toward_zero, trunc, Qle, Qlt, inject_Z. cbn [Qnum Qden].
  pose proof (Z.quot_rem' n (Zpos d)) as E. split; intros S.
  - pose proof (Z.rem_bound_pos n (Zpos d)). split; lia.
  - pose proof (Z.rem_bound_pos (- n) (Zpos d)). rewrite Z.rem_opp_l' in H. split; lia.
Qed.

Lemma text_truncated l c : exists zs, Forall2 toward_zero l zs /\
  set_bmins (GText (Ok (map Fin l))) c = set_bmins (GList (map numz zs)) c /\
  set_bmaxs (GText (Ok (map Fin l))) c = set_bmaxs (GList (map numz zs)) c.
Proof.
  exists (map trunc l). split.
  - induction l; constructor; auto using trunc_spec.
  - assert (E : rseq (map to_int (map Fin l)) = Ok (map numz (map trunc l))).
    { induction l as [|q t IH]; cbn [map rseq to_int rbind]; auto. rewrite IH. auto. }
    unfold set_bmins, set_bmaxs. cbn [read_bounds rbind]. rewrite E. auto.
Qed.

(** Infinite and missing numbers raise. *)
Lemma text_infinite l c :
  (In NaN l \/ In PInf l \/ In MInf l) ->
  exists e, (e = EValue \/ e = EOverflow) /\
    set_bmins (GText (Ok l)) c = (Err e, c) /\ set_bmaxs (GText (Ok l)) c = (Err e, c).
Proof.
  intros I. assert (E : exists e, (e = EValue \/ e = EOverflow) /\ rseq (map to_int l) = Err e).
  { induction l as [|x t IH]; [cbn in I; tauto|]. cbn [map rseq].
    destruct x as [| |q|]; cbn [to_int rbind]; eauto.
    destruct IH as (e & V & E); [|exists e; rewrite E; auto].
    destruct I as [[K|K]|[[K|K]|[K|K]]]; try discriminate K; auto. }
  destruct E as (e & V & E). exists e. split; auto.
  unfold set_bmins, set_bmaxs. cbn [read_bounds rbind]. rewrite E. auto.
Qed.

Lemma text_lists c :
  (forall l, set_features_indexes (GText (Ok l)) c = set_features_indexes (GList l) c) /\
  (forall l, set_features_names (GText (Ok l)) c = set_features_names (GList l) c) /\
  (forall e, set_features_indexes (GText (Err e)) c = (Err e, c) /\
             set_features_names (GText (Err e)) c = (Err e, c) /\
             set_bmins (GText (Err e)) c = (Err e, c) /\ set_bmaxs (GText (Err e)) c = (Err e, c)).
Proof. repeat split; auto. Qed.
