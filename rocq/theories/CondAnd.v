(** Proofs about the logical and of conditions. *)
From Coq Require Import List ZArith QArith Bool String Ascii Lia.
From Coq Require Import List.
From Coq Require Import Sorting.Sorted Sorting.Permutation.
From Verif Require Import Base Num CondModel CondSpec CondBase CondProofs CondEval.
Import ListNotations.
Open Scope Z_scope.

(** The feature of [gs] with the name of [f]. *)
Definition partner (gs : list feature) (f : feature) : option feature :=
  find (fun g => str_eqb (f_name f) (f_name g)) gs.

Definition meet (gs : list feature) (f : feature) : feature :=
  match partner gs f with
  | Some g => mkFeat (f_name f) (f_index f) (py_max (f_low f) (f_low g))
                     (py_min (f_high f) (f_high g))
  | None => f
  end.

(** Features of [gs] whose name is not in [fs]. *)
Definition beside (fs gs : list feature) : list feature :=
  filter (fun g => negb (mem str_eqb (f_name g) (map f_name fs))) gs.

Lemma partner_some gs f g : partner gs f = Some g -> In g gs /\ f_name g = f_name f.
Proof.
  intros H. apply find_some in H. destruct H as (I & E). apply seqb_spec in E. auto.
Qed.

Lemma partner_none gs f : partner gs f = None <-> ~ In (f_name f) (map f_name gs).
Proof.
  split.
  - intros H I. apply in_map_iff in I. destruct I as (g & E & I).
    assert (F := find_none _ _ H g I). cbn in F. rewrite E in F.
    rewrite (proj2 (seqb_spec _ _) eq_refl) in F. discriminate.
  - intros N. destruct (partner gs f) as [g|] eqn:E; auto. apply partner_some in E.
    exfalso. apply N. destruct E as (I & <-). apply in_map; auto.
Qed.

Lemma partner_in gs f g :
  NoDup (map f_name gs) -> In g gs -> f_name g = f_name f -> partner gs f = Some g.
Proof.
  intros N I E. destruct (partner gs f) as [h|] eqn:P.
  - apply partner_some in P. destruct P as (Ih & Eh). f_equal.
    eapply (NoDup_map_inj f_name); eauto. congruence.
  - apply partner_none in P. exfalso. apply P. rewrite <- E. apply in_map; auto.
Qed.

Lemma partner_mem gs f :
  mem str_eqb (f_name f) (map f_name gs) = match partner gs f with Some _ => true | None => false end.
Proof.
  destruct (partner gs f) as [g|] eqn:P.
  - apply (mem_spec _ seqb_spec). apply partner_some in P. destruct P as (I & <-). apply in_map; auto.
  - apply (mem_false _ seqb_spec). apply partner_none. auto.
Qed.

Lemma meet_name gs f : f_name (meet gs f) = f_name f.
Proof. unfold meet. destruct partner; auto. Qed.
Lemma meet_index gs f : f_index (meet gs f) = f_index f.
Proof. unfold meet. destruct partner; auto. Qed.

(** ** Positions *)

(** Position of a name. *)
Definition place (fs : list feature) (n : string) : nat :=
  match index_of str_eqb n (map f_name fs) with Some i => i | None => O end.

Lemma index_of_nth fs f :
  NoDup (map f_name fs) -> In f fs ->
  exists i, index_of str_eqb (f_name f) (map f_name fs) = Some i /\ nth_error fs i = Some f.
Proof.
  induction fs as [|g t IH]; cbn [map index_of]; intros N I; [destruct I|].
  inversion N; subst. destruct (str_eqb (f_name f) (f_name g)) eqn:E.
  - apply seqb_spec in E. exists O. split; auto. cbn. f_equal.
    destruct I as [|I]; auto. exfalso. apply H1. rewrite <- E. apply in_map; auto.
  - destruct I as [ -> |I].
    + rewrite (proj2 (seqb_spec _ _) eq_refl) in E. discriminate.
    + destruct (IH H2 I) as (i & -> & Hi). exists (S i). auto.
Qed.

Lemma place_nth fs f :
  NoDup (map f_name fs) -> In f fs -> nth_error fs (place fs (f_name f)) = Some f.
Proof. intros N I. destruct (index_of_nth fs f N I) as (i & E & H). unfold place. rewrite E. auto. Qed.

Lemma positions_ok fs ns :
  NoDup (map f_name fs) -> (forall n, In n ns -> In n (map f_name fs)) ->
  positions (map f_name fs) ns = Ok (map (place fs) ns).
Proof.
  intros N H. unfold positions. apply rseq_ok. intros n Hn. specialize (H n Hn).
  apply in_map_iff in H. destruct H as (f & <- & I).
  destruct (index_of_nth fs f N I) as (i & E & _). unfold place. rewrite E. auto.
Qed.

Lemma pick_ok {A} (h : feature -> A) fs ds :
  NoDup (map f_name fs) -> (forall d, In d ds -> In d fs) ->
  pick (map h fs) (map (place fs) (map f_name ds)) = Ok (map h ds).
Proof.
  intros N H. unfold pick. rewrite !map_map. apply rseq_ok. intros d Hd. unfold at_pos.
  rewrite (map_nth_error h (place fs (f_name d)) fs (place_nth fs d N (H d Hd))). auto.
Qed.

Lemma drop_general {A B} (h : A -> B) (keep : nat -> bool) (q : A -> bool) l : forall pre,
  (forall i x, nth_error (pre ++ l) i = Some x -> keep i = q x) ->
  rseq (map (at_pos (map h (pre ++ l))) (filter keep (seq (List.length pre) (List.length l)))) =
  Ok (map h (filter q l)).
Proof.
  induction l as [|x t IH]; intros pre H; cbn [List.length seq filter]; auto.
  assert (E : keep (List.length pre) = q x).
  { apply H. rewrite nth_error_app2, Nat.sub_diag by auto. auto. }
  specialize (IH (pre ++ [x])). rewrite app_length in IH. cbn [List.length] in IH.
  rewrite Nat.add_1_r in IH. rewrite <- app_assoc in IH. cbn [app] in IH.
  rewrite E. destruct (q x).
  - cbn [map rseq]. rewrite map_app. cbn [map]. rewrite at_pos_map. cbn [rbind].
    rewrite map_app in IH. cbn [map] in IH. rewrite IH by auto. auto.
  - apply IH. auto.
Qed.

Lemma drop_ok {A} (h : feature -> A) fs ns :
  NoDup (map f_name fs) -> (forall n, In n ns -> In n (map f_name fs)) ->
  drop_at (map h fs) (map (place fs) ns) =
  Ok (map h (filter (fun g => negb (mem str_eqb (f_name g) ns)) fs)).
Proof.
  intros N H. unfold drop_at. rewrite map_length.
  apply (drop_general h (fun i => negb (mem Nat.eqb i (map (place fs) ns)))
           (fun g => negb (mem str_eqb (f_name g) ns)) fs []).
  cbn [app]. intros i g Hg. f_equal. apply eq_true_iff_eq.
  rewrite (mem_spec _ neqb_nat_spec), (mem_spec _ seqb_spec). split.
  - intros I. apply in_map_iff in I. destruct I as (n & E & I).
    pose proof (H n I) as J. apply in_map_iff in J. destruct J as (f & <- & J).
    pose proof (place_nth fs f N J) as P. rewrite E, Hg in P. congruence.
  - intros I. apply in_map_iff. exists (f_name g). split; auto.
    pose proof (place_nth fs g N (nth_error_In _ _ Hg)) as P.
    apply (proj1 (NoDup_nth_error fs)); [eapply NoDup_map_inv; eauto| |congruence].
    apply nth_error_Some. congruence.
Qed.

Lemma set_nth_map {A B} (h : A -> B) l i v :
  set_nth i v (map h l) =
  map (fun p => if (fst p =? i)%nat then v else h (snd p)) (combine (seq 0 (List.length l)) l).
Proof.
  assert (G : forall k, set_nth i v (map h l) =
    map (fun p => if (fst p =? k + i)%nat then v else h (snd p)) (combine (seq k (List.length l)) l)).
  { revert i. induction l as [|x t IH]; intros i k; destruct i as [|i];
      cbn [map set_nth List.length seq combine]; auto.
    - rewrite Nat.add_0_r. cbn [fst snd]. rewrite Nat.eqb_refl. f_equal.
      clear IH. assert (K : forall m, (k < m)%nat -> map h t =
        map (fun p => if (fst p =? k)%nat then v else h (snd p)) (combine (seq m (List.length t)) t)).
      { induction t as [|y t IH]; intros m Hm; cbn [map List.length seq combine fst snd]; auto.
        destruct (Nat.eqb_spec m k); [lia|]. f_equal. apply IH. lia. }
      apply K. lia.
    - cbn [fst snd]. destruct (Nat.eqb_spec k (k + S i)); [lia|]. f_equal.
      rewrite (IH i (S k)). apply map_ext. intros p. replace (S k + i)%nat with (k + S i)%nat by lia. auto. }
  apply (G O).
Qed.

Lemma combine_seq_nth {A} (l : list A) k i x :
  In (i, x) (combine (seq k (List.length l)) l) -> nth_error l (i - k) = Some x /\ (k <= i)%nat.
Proof.
  revert k. induction l as [|y t IH]; intros k; cbn [List.length seq combine]; intros []; try contradiction.
  - injection H as <- <-. rewrite Nat.sub_diag. auto.
  - apply IH in H. destruct H as (H & G). replace (i - k)%nat with (S (i - S k)) by lia. split; [auto|lia].
Qed.

Lemma map_combine_seq {A B} (l : list A) (u : nat * A -> B) (w : A -> B) k :
  (forall p, In p (combine (seq k (List.length l)) l) -> u p = w (snd p)) ->
  map u (combine (seq k (List.length l)) l) = map w l.
Proof.
  revert k. induction l as [|y t IH]; intros k H; cbn [List.length seq combine map]; auto. f_equal.
  - apply (H (k, y)). cbn; auto.
  - apply IH. intros p Hp. apply H. cbn; auto.
Qed.

Lemma set_place {A} (h : feature -> A) fs d v :
  NoDup (map f_name fs) -> In d fs ->
  set_nth (place fs (f_name d)) v (map h fs) =
  map (fun f => if str_eqb (f_name f) (f_name d) then v else h f) fs.
Proof.
  intros N I. rewrite set_nth_map. apply map_combine_seq. intros (i & f) Hp. cbn [fst snd].
  apply combine_seq_nth in Hp. rewrite Nat.sub_0_r in Hp. destruct Hp as (Hp & _).
  pose proof (place_nth fs d N I) as P.
  destruct (Nat.eqb_spec i (place fs (f_name d))) as [E|E];
    destruct (str_eqb (f_name f) (f_name d)) eqn:S; auto.
  - subst. rewrite P in Hp. injection Hp as <-. rewrite (proj2 (seqb_spec _ _) eq_refl) in S. discriminate.
  - apply seqb_spec in S. exfalso. apply E.
    assert (f = d) as -> by (eapply (NoDup_map_inj f_name); eauto using nth_error_In).
    apply (proj1 (NoDup_nth_error fs)); [eapply NoDup_map_inv; eauto| |congruence].
    apply nth_error_Some. congruence.
Qed.

Lemma assign_ok {A} (val : feature -> A) fs ds : forall h : feature -> A,
  NoDup (map f_name fs) -> (forall d, In d ds -> In d fs) ->
  assign (map (place fs) (map f_name ds)) (map val ds) (map h fs) =
  map (fun f => if mem str_eqb (f_name f) (map f_name ds) then val f else h f) fs.
Proof.
  induction ds as [|d t IH]; intros h N H; cbn [map assign mem existsb]; auto.
  rewrite set_place by auto using in_eq. rewrite IH by (auto using in_cons).
  apply map_ext_in. intros f Hf. unfold mem.
  destruct (str_eqb (f_name f) (f_name d)) eqn:E; cbn [orb]; auto.
  apply seqb_spec in E.
  assert (f = d) as -> by (eapply (NoDup_map_inj f_name); eauto using in_eq).
  destruct existsb; auto.
Qed.

(** ** The intersection *)

Lemma filter_map {A B} (h : A -> B) p l : filter p (map h l) = map h (filter (fun x => p (h x)) l).
Proof. induction l as [|x t IH]; cbn; auto. destruct (p (h x)); cbn; congruence. Qed.

Lemma consistent_dec fs gs :
  consistent fs gs \/
  exists f g, In f fs /\ In g gs /\
    ((f_name f = f_name g /\ f_index f <> f_index g) \/ (f_name f <> f_name g /\ f_index f = f_index g)).
Proof.
  set (bad := fun f g => xorb (str_eqb (f_name f) (f_name g)) (f_index f =? f_index g)).
  destruct (existsb (fun f => existsb (bad f) gs) fs) eqn:E.
  - right. apply existsb_exists in E. destruct E as (f & Hf & E). apply existsb_exists in E.
    destruct E as (g & Hg & E). exists f, g. repeat split; auto. unfold bad in E.
    destruct (str_eqb (f_name f) (f_name g)) eqn:S.
    + apply seqb_spec in S. left. split; auto. destruct (Z.eqb_spec (f_index f) (f_index g)); auto. discriminate.
    + right. destruct (Z.eqb_spec (f_index f) (f_index g)); [|discriminate]. split; auto.
      intros K. apply seqb_spec in K. congruence.
  - left. intros f g Hf Hg. rewrite existsb_false in E. specialize (E f Hf).
    rewrite existsb_false in E. specialize (E g Hg). unfold bad in E.
    destruct (str_eqb (f_name f) (f_name g)) eqn:S.
    + apply seqb_spec in S. destruct (Z.eqb_spec (f_index f) (f_index g)); [tauto|discriminate].
    + destruct (Z.eqb_spec (f_index f) (f_index g)); [discriminate|].
      split; [|congruence]. intros K. apply seqb_spec in K. congruence.
Qed.

Lemma consistent_perm fs fs' gs : Permutation fs fs' -> consistent fs gs -> consistent fs' gs.
Proof.
  intros P C f g Hf Hg. apply C; auto. eapply Permutation_in; [symmetry|]; eauto.
Qed.

Lemma beside_distinct fs gs : distinct gs -> distinct (beside fs gs).
Proof. intros (N1 & N2). split; apply NoDup_map_filter; auto. Qed.

Lemma meet_all_names gs fs : map f_name (map (meet gs) fs) = map f_name fs.
Proof. rewrite map_map. apply map_ext. apply meet_name. Qed.
Lemma meet_all_indexes gs fs : map f_index (map (meet gs) fs) = map f_index fs.
Proof. rewrite map_map. apply map_ext. apply meet_index. Qed.

Lemma beside_in fs gs g : In g (beside fs gs) <-> In g gs /\ ~ In (f_name g) (map f_name fs).
Proof. unfold beside. rewrite filter_In, negb_true_iff, (mem_false _ seqb_spec). tauto. Qed.

Lemma beside_none fs gs :
  (forall g, In g gs -> ~ In (f_name g) (map f_name fs)) -> beside fs gs = gs.
Proof.
  intros H. induction gs as [|g t IH]; auto. unfold beside in *. cbn [filter].
  rewrite (proj2 (mem_false _ seqb_spec (f_name g) (map f_name fs))) by (apply H; left; auto).
  cbn [negb]. rewrite IH; auto. intros x Hx. apply H. right; auto.
Qed.

(** Names shared by nobody: the indexes decide. *)
Lemma union_index_ok fs gs rs :
  distinct fs -> Permutation rs (beside fs gs) -> distinct gs ->
  (forall f g, In f fs -> In g gs -> f_name f = f_name g -> f_index f = f_index g) ->
  (NoDup (map f_index fs ++ map f_index rs) <-> consistent fs gs).
Proof.
  intros (N1 & N2) P (M1 & M2) C.
  assert (B : forall g, In g rs <-> In g gs /\ ~ In (f_name g) (map f_name fs)).
  { intros g. rewrite <- beside_in. split; apply Permutation_in; auto. symmetry; auto. }
  rewrite NoDup_app. split.
  - intros (_ & _ & D) f g Hf Hg. split; auto. intros E.
    destruct (in_dec string_dec (f_name g) (map f_name fs)) as [I|I].
    + apply in_map_iff in I. destruct I as (f' & E' & I).
      assert (f = f') as ->; auto. apply (NoDup_map_inj f_index fs); auto.
      rewrite E. symmetry. apply C; auto.
    + exfalso. apply (D (f_index f)); [apply in_map; auto|]. rewrite E.
      apply in_map. apply B. auto.
  - intros K. split; auto. split.
    + eapply Permutation_NoDup; [apply Permutation_map; symmetry; exact P|].
      apply NoDup_map_filter; auto.
    + intros i Hi Hj. apply in_map_iff in Hi, Hj. destruct Hi as (f & <- & Hf), Hj as (g & E & Hg).
      apply B in Hg. destruct Hg as (Hg & NI). apply NI.
      assert (f_name f = f_name g) as <- by (apply K; auto). apply in_map; auto.
Qed.

Lemma union_names fs gs rs :
  distinct fs -> Permutation rs (beside fs gs) -> distinct gs ->
  NoDup (map f_name fs ++ map f_name rs).
Proof.
  intros (N1 & N2) P (M1 & M2). apply NoDup_app. split; auto. split.
  - eapply Permutation_NoDup; [apply Permutation_map; symmetry; exact P|]. apply NoDup_map_filter; auto.
  - intros n Hn Hm. apply in_map_iff in Hm. destruct Hm as (g & <- & Hg).
    apply (Permutation_in _ P) in Hg. apply beside_in in Hg. tauto.
Qed.

(** The end of [band], once the two parts are known. *)
Lemma finish_ok sett fs gs rs :
  known sett -> distinct fs -> distinct gs -> Permutation rs (beside fs gs) ->
  (forall f g, In f fs -> In g gs -> f_name f = f_name g -> f_index f = f_index g) ->
  let all := map (meet gs) fs ++ rs in
  let r := if has_dup Z.eqb (map f_index fs ++ map f_index rs) then Err EIndex
           else rebuild sett (map f_index fs ++ map f_index rs) (map f_low all) (map f_high all)
                  (map f_name fs ++ map f_name rs) in
  (consistent fs gs /\ exists c, r = Ok c /\ condition c (arranged sett all)) \/
  (~ consistent fs gs /\ r = Err EIndex).
Proof.
  intros K D1 D2 P C all r. subst r.
  pose proof (union_index_ok fs gs rs D1 P D2 C) as U.
  destruct (has_dup Z.eqb (map f_index fs ++ map f_index rs)) eqn:E.
  - right. apply (has_dup_true _ Zeqb_spec) in E. split; [tauto|auto].
  - left. apply (has_dup_spec _ Zeqb_spec) in E. split; [tauto|].
    replace (map f_index fs ++ map f_index rs) with (map f_index all) in *
      by (unfold all; rewrite map_app, meet_all_indexes; auto).
    assert (N : NoDup (map f_name all)).
    { unfold all; rewrite map_app, meet_all_names. eapply union_names; eauto. }
    replace (map f_name fs ++ map f_name rs) with (map f_name all)
      by (unfold all; rewrite map_app, meet_all_names; auto).
    apply rebuild_ok; auto. split; auto.
Qed.

Lemma band_cases sett c1 c2 fs1 fs2 :
  known sett -> lists c1 fs1 -> distinct fs1 -> lists c2 fs2 -> distinct fs2 ->
  (consistent fs1 fs2 /\
   exists c fs, band sett c1 c2 = Ok c /\ condition c fs /\ in_order sett fs /\
     Permutation fs (map (meet fs2) fs1 ++ beside fs1 fs2)) \/
  (~ consistent fs1 fs2 /\ band sett c1 c2 = Err EIndex).
Proof.
  intros K (A1 & A2 & A3 & A4) D1 (B1 & B2 & B3 & B4) D2.
  unfold band. rewrite A1, A2, A3, A4. cbn [option_map]. fold (rebuild sett (map f_index fs1) (map f_low fs1) (map f_high fs1) (map f_name fs1)).
  destruct (rebuild_ok sett fs1 D1 K) as (sc & E & ((S1 & S2 & S3 & S4) & DS & _)).
  rewrite E. cbn [rbind]. rewrite S1, S2, S3, S4. cbn [need rbind]. rewrite B4. cbn [rbind].
  pose proof (arranged_perm sett fs1) as PA.
  set (ss := arranged sett fs1) in *.
  assert (CP : consistent ss fs2 <-> consistent fs1 fs2).
  { split; apply consistent_perm; auto. symmetry; auto. }
  assert (BP : beside ss fs2 = beside fs1 fs2).
  { unfold beside. apply filter_ext. intros g. f_equal. apply eq_true_iff_eq.
    rewrite !(mem_spec _ seqb_spec).
    split; apply Permutation_in; apply Permutation_map; auto. symmetry; auto. }
  assert (MP : Permutation (map (meet fs2) ss) (map (meet fs2) fs1)) by (apply Permutation_map; auto).
  rewrite filter_map.
  set (cs := filter (fun f => mem str_eqb (f_name f) (map f_name fs2)) ss).
  destruct D2 as (M1 & M2). destruct DS as (N1 & N2).
  assert (done : forall rs, Permutation rs (beside ss fs2) ->
     (forall f g, In f ss -> In g fs2 -> f_name f = f_name g -> f_index f = f_index g) ->
     let all := map (meet fs2) ss ++ rs in
     let r := if has_dup Z.eqb (map f_index ss ++ map f_index rs) then Err EIndex
           else rebuild sett (map f_index ss ++ map f_index rs) (map f_low all) (map f_high all)
                  (map f_name ss ++ map f_name rs) in
     (consistent fs1 fs2 /\
       exists c fs, r = Ok c /\ condition c fs /\ in_order sett fs /\
         Permutation fs (map (meet fs2) fs1 ++ beside fs1 fs2)) \/
     (~ consistent fs1 fs2 /\ r = Err EIndex)).
  { intros rs P C all r.
    destruct (finish_ok sett ss fs2 rs K (conj N1 N2) (conj M1 M2) P C) as [(X & c & Y & Z)|(X & Y)].
    - left. split; [tauto|]. exists c, (arranged sett all). split; auto. split; auto. split.
      + apply arranged_order; auto. eapply distinct_perm; [apply arranged_perm|]. apply Z.
      + rewrite arranged_perm. unfold all. rewrite MP, P, BP. auto.
    - right. tauto. }
  destruct (map f_name cs) as [|n0 common] eqn:EC.
  - (* no common feature *)
    cbn [rbind]. rewrite B1, B2, B3, B4. cbn [need rbind].
    assert (NC : forall f, In f ss -> ~ In (f_name f) (map f_name fs2)).
    { intros f Hf I. assert (F : In f cs).
      { unfold cs. apply filter_In. split; auto. apply (mem_spec _ seqb_spec); auto. }
      apply (in_map f_name) in F. rewrite EC in F. destruct F. }
    assert (R : beside ss fs2 = fs2).
    { apply beside_none. intros g Hg I. apply in_map_iff in I. destruct I as (f & En & I).
      apply (NC f I). rewrite En. apply in_map; auto. }
    assert (Q : forall f, In f ss -> meet fs2 f = f).
    { intros f Hf. unfold meet. rewrite (proj2 (partner_none fs2 f)); auto. }
    specialize (done fs2). cbv zeta in done. rewrite !map_app in done.
    replace (map (meet fs2) ss) with ss in done by (symmetry; rewrite (map_ext_in _ (fun x => x)); auto using map_id).
    apply done.
    + rewrite R. auto.
    + intros f g Hf Hg En. exfalso. apply (NC f Hf). rewrite En. apply in_map; auto.
  - (* common features *)
    rewrite <- EC. clear EC n0 common.
    assert (Ics : forall d, In d cs -> In d ss) by (intros d Hd; apply filter_In in Hd; tauto).
    set (mate := fun f => match partner fs2 f with Some g => g | None => f end).
    assert (Im : forall d, In d cs -> In (mate d) fs2 /\ f_name (mate d) = f_name d).
    { intros d Hd. apply filter_In in Hd. destruct Hd as (Hd & I). rewrite partner_mem in I.
      unfold mate. destruct (partner fs2 d) eqn:P; [|discriminate]. apply partner_some; auto. }
    rewrite (positions_ok ss (map f_name cs) N1); [|intros n Hn; apply in_map_iff in Hn; destruct Hn as (d & <- & Hd); apply in_map; auto].
    cbn [rbind].
    assert (EM : map f_name cs = map f_name (map mate cs)).
    { rewrite map_map. apply map_ext_in. intros d Hd. symmetry. apply Im; auto. }
    rewrite (positions_ok fs2 (map f_name cs) M1).
    2: { intros n Hn. rewrite EM in Hn. apply in_map_iff in Hn. destruct Hn as (d & <- & Hd).
         apply in_map. apply in_map_iff in Hd. destruct Hd as (d' & <- & Hd). apply Im; auto. }
    cbn [rbind]. rewrite B1, B2, B3. cbn [need rbind].
    rewrite !(pick_ok _ ss cs) by auto. cbn [rbind].
    assert (Imate : forall d, In d (map mate cs) -> In d fs2).
    { intros d Hd. apply in_map_iff in Hd. destruct Hd as (d' & <- & Hd). apply Im; auto. }
    replace (map (place fs2) (map f_name cs)) with (map (place fs2) (map f_name (map mate cs)))
      by (rewrite <- EM; auto).
    rewrite !(pick_ok _ fs2 (map mate cs)) by auto. cbn [rbind]. rewrite <- EM.
    destruct (list_eqb Z.eqb (map f_index cs) (map f_index (map mate cs))) eqn:L; cbn [negb].
    + apply (list_eqb_spec _ Zeqb_spec) in L.
      assert (C : forall f g, In f ss -> In g fs2 -> f_name f = f_name g -> f_index f = f_index g).
      { intros f g Hf Hg En.
        assert (I : In f cs).
        { apply filter_In. split; auto. apply (mem_spec _ seqb_spec). rewrite En. apply in_map; auto. }
        assert (mate f = g) as <-.
        { unfold mate. rewrite (partner_in fs2 f g); auto. }
        rewrite map_map in L. clear -L I. induction cs as [|x t IH]; [destruct I|].
        cbn [map] in L. injection L as L1 L2. destruct I as [ <- |I]; auto. }
      rewrite !(drop_ok _ fs2 (map f_name cs) M1)
        by (intros n Hn; rewrite EM in Hn; apply in_map_iff in Hn; destruct Hn as (d & <- & Hd); apply in_map; auto).
      cbn [rbind]. rewrite filter_map.
      set (rest := filter (fun g => negb (mem str_eqb (f_name g) (map f_name cs))) fs2).
      assert (ER : rest = beside ss fs2).
      { unfold rest, beside. apply filter_ext_in. intros g Hg. f_equal. apply eq_true_iff_eq.
        rewrite !(mem_spec _ seqb_spec). split.
        - intros I. apply in_map_iff in I. destruct I as (f & <- & I). apply in_map; auto.
        - intros I. apply in_map_iff in I. destruct I as (f & En & I). rewrite <- En. apply in_map.
          apply filter_In. split; auto. apply (mem_spec _ seqb_spec). rewrite En. apply in_map; auto. }
      destruct (rebuild_ok sett rest) as (oc & EO & ((O1 & O2 & O3 & O4) & DO & _)); auto.
      { rewrite ER. apply beside_distinct. split; auto. }
      rewrite EO. cbn [rbind]. rewrite O1, O2, O3, O4. cbn [need rbind].
      specialize (done (arranged sett rest)). cbv zeta in done.
      rewrite !(map_map mate), !combine_map.
      rewrite (map_map (fun x => (f_low x, f_low (mate x)))), (map_map (fun x => (f_high x, f_high (mate x)))).
      cbn [fst snd].
      rewrite (assign_ok (fun f => py_max (f_low f) (f_low (mate f))) ss cs) by auto.
      rewrite (assign_ok (fun f => py_min (f_high f) (f_high (mate f))) ss cs) by auto.
      assert (Mcs : forall f, In f ss ->
        mem str_eqb (f_name f) (map f_name cs) = match partner fs2 f with Some _ => true | None => false end).
      { intros f Hf. rewrite <- partner_mem. apply eq_true_iff_eq. rewrite !(mem_spec _ seqb_spec). split.
        - intros I. apply in_map_iff in I. destruct I as (g & En & I).
          assert (g = f) as -> by (apply (NoDup_map_inj f_name ss); auto).
          apply filter_In in I. apply (mem_spec _ seqb_spec). tauto.
        - intros I. apply in_map. apply filter_In. split; auto. apply (mem_spec _ seqb_spec); auto. }
      assert (ML : map f_low (map (meet fs2) ss) =
        map (fun f => if mem str_eqb (f_name f) (map f_name cs)
                      then py_max (f_low f) (f_low (mate f)) else f_low f) ss).
      { rewrite map_map. apply map_ext_in. intros f Hf. rewrite (Mcs f Hf). unfold meet, mate.
        destruct (partner fs2 f); auto. }
      assert (MH : map f_high (map (meet fs2) ss) =
        map (fun f => if mem str_eqb (f_name f) (map f_name cs)
                      then py_min (f_high f) (f_high (mate f)) else f_high f) ss).
      { rewrite map_map. apply map_ext_in. intros f Hf. rewrite (Mcs f Hf). unfold meet, mate.
        destruct (partner fs2 f); auto. }
      rewrite !map_app, ML, MH in done. apply done; auto.
      rewrite arranged_perm, ER. auto.
    + right. split; auto. intros CO. apply CP in CO.
      assert (map f_index cs = map f_index (map mate cs)) as EQ.
      { rewrite map_map. apply map_ext_in. intros d Hd. apply CO; auto.
        - apply Im; auto.
        - symmetry. apply Im; auto. }
      apply (list_eqb_spec _ Zeqb_spec) in EQ. congruence.
Qed.
