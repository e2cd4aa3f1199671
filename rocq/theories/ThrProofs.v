(** Proofs about thresholds. *)
From Coq Require Import List ZArith QArith Qabs Bool String Lia.
From Coq Require Import List.
From Verif Require Import Base Num Arith CondModel CondSpec CondBase CondSet ThrModel ThrSpec.
Import ListNotations.
Open Scope Z_scope.

(** ** Dictionaries *)

Section dict.
Context {A : Type}.
Implicit Types (d : list (string * A)) (k : string).

Lemma dget_none k d : dget k d = None <-> forall v, ~ In (k, v) d.
Proof.
  induction d as [|(k', v') t IH]; cbn [dget].
  - split; auto.
  - destruct (str_eqb k k') eqn:E.
    + apply seqb_spec in E. subst. split; [discriminate|]. intros H. destruct (H v'). left; auto.
    + split.
      * intros N v [K|K]; [injection K as -> ->; rewrite (proj2 (seqb_spec k k) eq_refl) in E; discriminate|].
        apply (proj1 IH N v K).
      * intros H. apply IH. intros v K. apply (H v). right; auto.
Qed.

Lemma dget_some k d v : dget k d = Some v -> In (k, v) d.
Proof.
  induction d as [|(k', v') t IH]; cbn [dget]; [discriminate|].
  destruct (str_eqb k k') eqn:E.
  - apply seqb_spec in E. subst. intros K. injection K as ->. left; auto.
  - right; auto.
Qed.

Lemma dget_in k d v : NoDup (map fst d) -> In (k, v) d -> dget k d = Some v.
Proof.
  intros N I. destruct (dget k d) as [w|] eqn:E.
  - apply dget_some in E. f_equal.
    assert (X : (k, w) = (k, v)) by (apply (NoDup_map_inj fst d); auto). congruence.
  - rewrite dget_none in E. destruct (E v I).
Qed.

Lemma dset_get k k' v d : dget k' (dset k v d) = if str_eqb k' k then Some v else dget k' d.
Proof.
  induction d as [|(j, w) t IH]; cbn [dset dget]; auto.
  destruct (str_eqb k j) eqn:E; cbn [dget].
  - apply seqb_spec in E. subst j. destruct (str_eqb k' k); auto.
  - rewrite IH. destruct (str_eqb k' j) eqn:F; auto.
    destruct (str_eqb k' k) eqn:G; auto. apply seqb_spec in F, G. subst.
    rewrite (proj2 (seqb_spec _ _) eq_refl) in E. discriminate.
Qed.

Lemma dset_keys k v d w : dget k d = Some w -> map fst (dset k v d) = map fst d.
Proof.
  induction d as [|(j, x) t IH]; cbn [dset dget]; [discriminate|].
  destruct (str_eqb k j) eqn:E.
  - apply seqb_spec in E. subst. auto.
  - intros H. cbn [map fst]. rewrite IH; auto.
Qed.

Lemma dset_new k v d : dget k d = None -> dset k v d = d ++ [(k, v)].
Proof.
  induction d as [|(j, x) t IH]; cbn [dset dget]; auto.
  destruct (str_eqb k j); [discriminate|]. intros H. rewrite IH; auto.
Qed.
End dict.

Lemma str_refl s : str_eqb s s = true.
Proof. apply seqb_spec; auto. Qed.

Lemma set_nth_same {A} p (x d : A) l : (p < List.length l)%nat -> nth p (set_nth p x l) d = x.
Proof. revert p. induction l as [|y t IH]; intros [|p] L; cbn in *; try lia; auto. apply IH. lia. Qed.

Lemma set_nth_other {A} p q (x : A) l : p <> q -> nth_error (set_nth p x l) q = nth_error l q.
Proof.
  revert p q. induction l as [|y t IH]; intros [|p] [|q] N; cbn; auto; try congruence.
Qed.

Lemma set_nth_length {A} p (x : A) l : List.length (set_nth p x l) = List.length l.
Proof. revert p. induction l as [|y t IH]; intros [|p]; cbn; auto. Qed.

(** ** The loop of resolution *)

(** What the dict at [p] becomes, as a function of the rule only. *)
Fixpoint resolved (rule : attributes) (lims : list string) (r : row) : res row :=
  match lims with
  | [] => Ok r
  | lim :: t =>
      if str_eqb lim "arg" then resolved rule t r
      else
        match dget lim r with
        | None => Err EKey
        | Some (XText s) =>
            match rule s with
            | Err e => Err e
            | Ok v => if is_plain v then resolved rule t (dset lim v r) else Err EType
            end
        | Some v => if is_plain v then resolved rule t r else Err EType
        end
  end.

Lemma resolve_eq rule lims p : forall h, (p < List.length h)%nat ->
  exists h', resolve rule lims p h = (rmap (fun _ => tt) (resolved rule lims (row_at h p)), h') /\
    (forall r, resolved rule lims (row_at h p) = Ok r -> row_at h' p = r) /\
    List.length h' = List.length h /\ forall q, q <> p -> nth_error h' q = nth_error h q.
Proof.
  induction lims as [|lim t IH]; intros h L; cbn [resolve resolved].
  - exists h. repeat split; auto. intros r E. congruence.
  - destruct (str_eqb lim "arg"); [apply IH; auto|].
    assert (B : forall e (X : res row), X = Err e -> exists h', (Err e, h) = (rmap (fun _ => tt) X, h') /\
       (forall r, X = Ok r -> row_at h' p = r) /\ List.length h' = List.length h /\
       forall q, q <> p -> nth_error h' q = nth_error h q).
    { intros e X ->. exists h. repeat split; auto. discriminate. }
    destruct (dget lim (row_at h p)) as [v|]; [|apply B; auto].
    destruct v; cbn [is_plain]; try (apply B; auto; fail); try (apply IH; auto; fail).
    destruct (rule s) as [v|e]; [|apply B; auto].
    set (h1 := @set_nth row p (dset lim v (row_at h p)) h).
    assert (L1 : List.length h1 = List.length h) by apply set_nth_length.
    assert (R1 : row_at h1 p = dset lim v (row_at h p)) by (apply set_nth_same; auto).
    assert (O1 : forall q, q <> p -> nth_error h1 q = nth_error h q).
    { intros q N. apply set_nth_other. auto. }
    destruct (is_plain v).
    + destruct (IH h1) as (h' & E & R & L' & O); [lia|]. rewrite R1 in *. exists h'. split; auto.
      split; auto. split; [congruence|]. intros q N. rewrite O, O1; auto.
    + exists h1. repeat split; auto. discriminate.
Qed.

(** The result of a check, as a function of the limits of the attribute. *)
Definition transform (lib : library) (r : row) (value : val) : res val :=
  match dget "arg" r with
  | None => Ok value
  | Some (XText a) => match known_arg lib a with None => Err EValue | Some f => f value end
  | Some XOther => Err EType
  | Some _ => Err EValue
  end.

Definition verdict (lib : library) (o : option row) (tkey : string) (rule : attributes) : res bool :=
  match o with
  | None => Ok true
  | Some r =>
      match rule tkey with
      | Err e => Err e
      | Ok XCall => Ok true
      | Ok XNone => Ok true
      | Ok value =>
          rbind (transform lib r value) (fun value =>
          rbind (resolved rule (map fst r) r) (fun r => decide value r))
      end
  end.

Definition row_of (th : thresholds) (k : string) : option row :=
  match dget k (t_limits th) with Some p => Some (row_at (t_heap th) p) | None => None end.

Lemma row_of_spec th k r : well_formed th -> row_of th k = Some r <-> limits_of th k r.
Proof.
  intros (N & B & _). unfold row_of, limits_of. split.
  - destruct (dget k (t_limits th)) as [p|] eqn:E; [|discriminate]. intros K. injection K as <-.
    apply dget_some in E. exists p. split; auto. apply nth_error_nth'. eauto.
  - intros (p & I & E). rewrite (dget_in k _ p N I). f_equal. apply nth_error_nth. auto.
Qed.

Lemma call_eq lib th k rule :
  (forall k p, In (k, p) (t_limits th) -> (p < List.length (t_heap th))%nat) ->
  fst (call lib th k rule) = verdict lib (row_of th k) k rule /\
  t_limits (snd (call lib th k rule)) = t_limits th /\
  forall q, (q < List.length (t_heap th))%nat ->
    nth_error (t_heap (snd (call lib th k rule))) q = nth_error (t_heap th) q.
Proof.
  intros B. unfold call, verdict, row_of.
  destruct (dget k (t_limits th)) as [p|] eqn:E; [|auto].
  assert (P : (p < List.length (t_heap th))%nat) by (apply (B k), dget_some; auto).
  assert (Main : forall value,
    let c := (let q := List.length (t_heap th) in
          let h := t_heap th ++ [row_at (t_heap th) p] in
          let th' h := mkThr (t_limits th) h in
          match
            match dget "arg" (row_at h q) with
            | None => Ok value
            | Some (XText a) => match known_arg lib a with None => Err EValue | Some f => f value end
            | Some XOther => Err EType
            | Some _ => Err EValue
            end
          with
          | Err e => (Err e, th' h)
          | Ok value =>
              match resolve rule (map fst (row_at h q)) q h with
              | (Err e, h') => (Err e, th' h')
              | (Ok _, h') => (decide value (row_at h' q), th' h')
              end
          end) in
    fst c = rbind (transform lib (row_at (t_heap th) p) value) (fun value =>
            rbind (resolved rule (map fst (row_at (t_heap th) p)) (row_at (t_heap th) p))
              (fun r => decide value r)) /\
    t_limits (snd c) = t_limits th /\
    forall q, (q < List.length (t_heap th))%nat ->
      nth_error (t_heap (snd c)) q = nth_error (t_heap th) q).
  { intros value. cbv zeta.
    set (q := List.length (t_heap th)). set (h := t_heap th ++ [row_at (t_heap th) p]).
    assert (R : row_at h q = row_at (t_heap th) p).
    { unfold row_at at 1, h. rewrite app_nth2 by (unfold q; lia). unfold q. rewrite Nat.sub_diag. auto. }
    assert (HQ : forall i, (i < q)%nat -> nth_error h i = nth_error (t_heap th) i).
    { intros i L. unfold h. apply nth_error_app1. auto. }
    rewrite R. fold (transform lib (row_at (t_heap th) p) value).
    destruct (transform lib (row_at (t_heap th) p) value) as [v|e]; cbn [rbind]; [|cbn; auto].
    destruct (resolve_eq rule (map fst (row_at (t_heap th) p)) q h) as (h' & Er & Rr & L & O).
    { unfold h, q. rewrite app_length. cbn. lia. }
    rewrite Er. rewrite R in *.
    destruct (resolved rule (map fst (row_at (t_heap th) p)) (row_at (t_heap th) p)) as [r|e];
      cbn [rmap rbind fst snd t_limits t_heap].
    - rewrite (Rr r eq_refl). repeat split; auto. intros i Li. rewrite O by lia. apply HQ. auto.
    - repeat split; auto. intros i Li. rewrite O by lia. apply HQ. auto. }
  destruct (rule k) as [v|e]; [|auto].
  destruct v; auto; apply (Main _).
Qed.

(** ** Purity *)

Lemma call_keeps lib th k rule : well_formed th ->
  well_formed (snd (call lib th k rule)) /\
  (forall k' r, limits_of (snd (call lib th k rule)) k' r <-> limits_of th k' r) /\
  forall k', row_of (snd (call lib th k rule)) k' = row_of th k'.
Proof.
  intros W. destruct W as (N & B & D). destruct (call_eq lib th k rule B) as (_ & Lim & H).
  set (th' := snd (call lib th k rule)) in *.
  assert (V : forall k' r, limits_of th' k' r <-> limits_of th k' r).
  { intros k' r. unfold limits_of. rewrite Lim. split; intros (p & I & E); exists p; split; auto.
    - rewrite <- H; eauto.
    - rewrite H; eauto. }
  split; [|split; auto].
  - split; [rewrite Lim; auto|]. split.
    + rewrite Lim. intros j p I. pose proof (B j p I) as L. pose proof (H p L) as Hp.
      apply nth_error_Some. rewrite Hp. apply nth_error_Some. auto.
    + intros j r K. apply (D j). apply V. auto.
  - intros k'. unfold row_of. rewrite Lim. destruct (dget k' (t_limits th)) as [p|] eqn:E; auto.
    f_equal. unfold row_at. apply dget_some in E. pose proof (B k' p E) as L.
    pose proof (H p L) as Hp. rewrite (nth_error_nth' (t_heap th) [] L) in Hp.
    apply (nth_error_nth _ _ [] Hp).
Qed.

Lemma checks_keep lib l : forall th, well_formed th ->
  well_formed (checks lib th l) /\
  (forall k r, limits_of (checks lib th l) k r <-> limits_of th k r) /\
  forall k rule, fst (call lib (checks lib th l) k rule) = fst (call lib th k rule).
Proof.
  induction l as [|(j, ru) t IH]; intros th W; cbn [checks].
  - repeat split; auto; apply W || tauto.
  - destruct (call_keeps lib th j ru W) as (W' & V & R). destruct (IH _ W') as (W2 & V2 & C2).
    split; auto. split.
    + intros k r. rewrite V2. apply V.
    + intros k rule. rewrite C2.
      rewrite (proj1 (call_eq lib _ k rule (proj1 (proj2 W')))), (proj1 (call_eq lib _ k rule (proj1 (proj2 W)))).
      rewrite R. auto.
Qed.

(** ** Loading *)

Lemma place_rows_in rows : forall p k q, In (k, q) (place_rows rows p) <->
  exists i r, nth_error rows i = Some (k, r) /\ q = (p + i)%nat.
Proof.
  induction rows as [|(j, r) t IH]; intros p k q; cbn [place_rows].
  - split; [intros []|]. intros (i & r & E & _). destruct i; discriminate.
  - split.
    + intros [K|K].
      * injection K as -> ->. exists O, r. split; auto.
      * apply IH in K. destruct K as (i & r' & E & ->). exists (S i), r'. split; auto; lia.
    + intros ([|i] & r' & E & ->).
      * cbn in E. injection E as -> ->. left. f_equal. lia.
      * right. apply IH. exists i, r'. split; auto; lia.
Qed.

Lemma place_rows_keys rows : forall p, map fst (place_rows rows p) = map fst rows.
Proof. induction rows as [|(j, r) t IH]; intros p; cbn; f_equal; auto. Qed.

Lemma limits_placed rows k r :
  limits_of (mkThr (place_rows rows 0) (map snd rows)) k r <-> In (k, r) rows.
Proof.
  unfold limits_of. cbn [t_limits t_heap]. split.
  - intros (p & I & E). apply place_rows_in in I. destruct I as (i & r' & F & ->).
    rewrite ?Nat.add_0_l in E. rewrite (map_nth_error snd _ _ F) in E. cbn in E. injection E as <-.
    eapply nth_error_In; eauto.
  - intros I. apply In_nth_error in I. destruct I as (i & F). exists i. split.
    + apply place_rows_in. exists i, r. auto.
    + apply (map_nth_error snd _ _ F).
Qed.

Lemma load_missing k r : ~ limits_of (load None) k r.
Proof. intros (p & [] & _). Qed.

Lemma load_file rows :
  NoDup (map fst rows) -> (forall k r, In (k, r) rows -> NoDup (map fst r)) ->
  well_formed (load (Some rows)) /\
  (forall k r, k <> "coverage"%string -> limits_of (load (Some rows)) k r <-> In (k, r) rows) /\
  (forall r, limits_of (load (Some rows)) "coverage" r <-> coverage_row rows r).
Proof.
  intros N D.
  assert (NP : NoDup (map fst (place_rows rows 0))) by (rewrite place_rows_keys; auto).
  assert (BP : forall k p, In (k, p) (place_rows rows 0) -> (p < List.length (map snd rows))%nat).
  { intros k p I. apply place_rows_in in I. destruct I as (i & r & E & ->). rewrite map_length.
    rewrite Nat.add_0_l.
    apply nth_error_Some. intros K. assert (X := eq_trans (eq_sym E) K). discriminate. }
  assert (U : forall k r r', In (k, r) rows -> In (k, r') rows -> r = r').
  { intros k r r' I I'. assert (X : (k, r) = (k, r')) by (apply (NoDup_map_inj fst rows); auto). congruence. }
  unfold load. destruct (dget "coverage" (place_rows rows 0)) as [p|] eqn:E.
  - apply dget_some in E. pose proof (BP _ _ E) as Lp. apply place_rows_in in E.
    destruct E as (i & r0 & E & ->). rewrite ?Nat.add_0_l in *.
    assert (R0 : row_at (map snd rows) i = r0).
    { unfold row_at. apply nth_error_nth. apply (map_nth_error snd _ _ E). }
    assert (I0 : In ("coverage"%string, r0) rows) by (eapply nth_error_In; eauto).
    rewrite R0. clear R0. destruct (dget "min" r0) as [l|] eqn:M.
    + apply dget_some in M.
      assert (V := limits_placed rows).
      repeat split; auto.
      * intros k r K. apply V in K. eauto.
      * apply V.
      * apply V.
      * intros K. apply V in K. rewrite (U _ _ _ K I0). eapply cov_given; eauto.
      * intros K. apply V. inversion K as [r' l' I' M'|r' I' M'|M']; subst; auto.
        -- rewrite (U _ _ _ I' I0) in M'. destruct (M' l M).
        -- destruct (M' r0 I0).
    + rewrite (dset_new _ _ _ M). pose proof (proj1 (dget_none _ _) M) as M0.
      set (r1 := r0 ++ [("min"%string, XNum (Fin (1 # 20)))]).
      set (h := set_nth i r1 (map snd rows)).
      assert (Same : nth_error h i = Some r1).
      { rewrite <- (set_nth_same i r1 [] (map snd rows) Lp). apply nth_error_nth'.
        unfold h. rewrite set_nth_length. auto. }
      assert (V : forall k r, limits_of (mkThr (place_rows rows 0) h) k r <->
                (k <> "coverage"%string /\ In (k, r) rows) \/ (k = "coverage"%string /\ r = r1)).
      { intros k r. unfold limits_of. cbn [t_limits t_heap]. split.
        - intros (q & I & F). pose proof I as I'. apply place_rows_in in I. destruct I as (j & rj & G & ->). rewrite ?Nat.add_0_l in *.
          destruct (Nat.eq_dec i j) as [<-|NE].
          + right. rewrite E in G. injection G as <- <-. split; auto. rewrite Same in F. congruence.
          + left. unfold h in F. rewrite set_nth_other in F by auto.
            rewrite (map_nth_error snd _ _ G) in F. cbn in F. injection F as <-. split.
            * intros ->. apply NE. pose proof (NoDup_nth_error (map fst rows)) as X.
              apply (proj1 X N).
              -- apply nth_error_Some. rewrite (map_nth_error fst _ _ E). discriminate.
              -- rewrite (map_nth_error fst _ _ E), (map_nth_error fst _ _ G). auto.
            * eapply nth_error_In; eauto.
        - intros [(NE & I)|(-> & ->)].
          + apply In_nth_error in I. destruct I as (j & G). exists j. split.
            * apply place_rows_in. exists j, r. auto.
            * unfold h. rewrite set_nth_other; [apply (map_nth_error snd _ _ G)|]. intros <-. congruence.
          + exists i. split; auto. apply place_rows_in. exists i, r0. auto. }
      repeat split; auto.
      * cbn [t_limits t_heap]. intros k p I. unfold h. rewrite set_nth_length. eauto.
      * intros k r K. apply V in K. destruct K as [(_ & K)|(_ & ->)]; eauto.
        unfold r1. rewrite map_app. apply NoDup_app. split; [eauto|]. split; [repeat constructor; auto|].
        intros x Hx [<-|[]]. apply in_map_iff in Hx. destruct Hx as ((x & l) & Ex & Hx). cbn in Ex. subst x.
        apply (M0 l Hx).
      * intros K. apply V in K. destruct K as [(_ & K)|(K & _)]; auto. contradiction.
      * intros K. apply V. auto.
      * intros K. apply V in K. destruct K as [(K & _)|(_ & ->)]; [contradiction|]. apply cov_no_min; auto.
      * intros K. apply V. right. split; auto. inversion K as [r' l' I' M'|r' I' M'|M']; subst.
        -- rewrite (U _ _ _ I' I0) in M'. destruct (M0 _ M').
        -- rewrite (U _ _ _ I' I0). auto.
        -- destruct (M' r0 I0).
  - rewrite (dset_new _ _ _ E). rewrite dget_none in E.
    assert (M0 : forall r, ~ In ("coverage"%string, r) rows).
    { intros r I. apply In_nth_error in I. destruct I as (j & G). apply (E j).
      apply place_rows_in. exists j, r. auto. }
    set (r1 := [("min"%string, XNum (Fin (1 # 20)))]).
    assert (V : forall k r, limits_of (mkThr (place_rows rows 0 ++ [("coverage"%string, List.length (map snd rows))])
                  (map snd rows ++ [r1])) k r <->
                (In (k, r) rows) \/ (k = "coverage"%string /\ r = r1)).
    { intros k r. rewrite <- (limits_placed rows k r). unfold limits_of. cbn [t_limits t_heap]. split.
      - intros (p & I & F). apply in_app_or in I. destruct I as [I|[I|[]]].
        + left. exists p. split; auto. rewrite nth_error_app1 in F; eauto.
        + right. injection I as <- <-. split; auto. rewrite nth_error_app2, Nat.sub_diag in F by lia.
          cbn in F. congruence.
      - intros [(p & I & F)|(-> & ->)].
        + exists p. split; [apply in_or_app; auto|]. rewrite nth_error_app1; eauto.
        + exists (List.length (map snd rows)). split; [apply in_or_app; right; left; auto|].
          rewrite nth_error_app2, Nat.sub_diag by lia. auto. }
    repeat split.
    + cbn [t_limits]. rewrite map_app. apply NoDup_app. split; auto. split; [repeat constructor; auto|].
      intros x Hx [<-|[]]. rewrite place_rows_keys in Hx. apply in_map_iff in Hx. destruct Hx as ((x & r) & Ex & Hx).
      cbn in Ex. subst x. apply (M0 r Hx).
    + cbn [t_limits t_heap]. intros k p I. rewrite app_length. cbn [List.length].
      apply in_app_or in I. destruct I as [I|[I|[]]].
      * pose proof (BP _ _ I). lia.
      * injection I as <- <-. lia.
    + intros k r K. apply V in K. destruct K as [K|(_ & ->)]; eauto. repeat constructor; auto.
    + intros K. apply V in K. destruct K as [K|(K & _)]; auto. contradiction.
    + intros K. apply V. auto.
    + intros K. apply V in K. destruct K as [K|(_ & ->)]; [destruct (M0 r K)|]. apply cov_none. auto.
    + intros K. apply V. right. split; auto. inversion K as [r' l' I' M'|r' I' M'|M']; subst; auto.
      * destruct (M0 _ I').
      * destruct (M0 _ I').
Qed.

(** ** Decision *)

(** Resolution gives the number of each limit. *)
Lemma resolved_ok rule : forall lims r0 r,
  NoDup (map fst r0) -> NoDup lims -> map fst r = map fst r0 ->
  (forall k, In k lims -> In k (map fst r0)) ->
  (forall k, In k lims -> dget k r = dget k r0) ->
  (forall k, In k lims -> k <> "arg"%string -> exists x, limit rule r0 k x) ->
  exists r', resolved rule lims r = Ok r' /\
    (forall k, ~ In k lims -> dget k r' = dget k r) /\
    (forall k, In k lims -> k <> "arg"%string -> exists x, dget k r' = Some (XNum x) /\ limit rule r0 k x).
Proof.
  induction lims as [|k t IH]; intros r0 r N0 NL KE IN G A.
  - exists r. cbn. split; auto. split; auto. intros k [].
  - inversion NL as [|? ? NI NT]; subst. cbn [resolved].
    destruct (str_eqb k "arg") eqn:EA.
    + apply seqb_spec in EA. destruct (IH r0 r) as (r' & E & O & L); auto.
      * intros j Hj. apply IN. right; auto.
      * intros j Hj. apply G. right; auto.
      * intros j Hj. apply A. right; auto.
      * exists r'. split; auto. split.
        -- intros j Hj. apply O. intros K. apply Hj. right; auto.
        -- intros j [<-|Hj] NA; [contradiction|]. apply L; auto.
    + assert (NA : k <> "arg"%string) by (intros ->; rewrite str_refl in EA; discriminate).
      destruct (A k (or_introl eq_refl) NA) as (x & [I|(s & I & Er)]).
      * rewrite (G k (or_introl eq_refl)), (dget_in k r0 _ N0 I). cbn [is_plain].
        destruct (IH r0 r) as (r' & E & O & L); auto.
        -- intros j Hj. apply IN. right; auto.
        -- intros j Hj. apply G. right; auto.
        -- intros j Hj. apply A. right; auto.
        -- exists r'. split; auto. split.
           ++ intros j Hj. apply O. intros K. apply Hj. right; auto.
           ++ intros j [<-|Hj] NJ; [|apply L; auto]. exists x. split.
              ** rewrite O by auto. rewrite (G k (or_introl eq_refl)). apply dget_in; auto.
              ** left; auto.
      * rewrite (G k (or_introl eq_refl)), (dget_in k r0 _ N0 I), Er. cbn [is_plain].
        assert (GK : dget k r = Some (XText s)) by (rewrite (G k (or_introl eq_refl)); apply dget_in; auto).
        destruct (IH r0 (dset k (XNum x) r)) as (r' & E & O & L); auto.
        -- rewrite (dset_keys _ _ _ _ GK). auto.
        -- intros j Hj. apply IN. right; auto.
        -- intros j Hj. rewrite dset_get. destruct (str_eqb j k) eqn:EJ.
           ++ apply seqb_spec in EJ. subst. contradiction.
           ++ apply G. right; auto.
        -- intros j Hj. apply A. right; auto.
        -- exists r'. split; auto. split.
           ++ intros j Hj. rewrite O by (intros K; apply Hj; right; auto). rewrite dset_get.
              destruct (str_eqb j k) eqn:EJ; auto. apply seqb_spec in EJ. subst. destruct Hj. left; auto.
           ++ intros j [<-|Hj] NJ; [|apply L; auto]. exists x. split.
              ** rewrite O by auto. rewrite dset_get, str_refl. auto.
              ** right. exists s. auto.
Qed.

Lemma limit_unique rule r k x y : NoDup (map fst r) -> limit rule r k x -> limit rule r k y -> x = y.
Proof.
  intros N.
  assert (U : forall a b, In (k, a) r -> In (k, b) r -> a = b).
  { intros a b Ia Ib. assert (X : (k, a) = (k, b)) by (apply (NoDup_map_inj fst r); auto). congruence. }
  intros [I|(s & I & E)] [J|(s' & J & E')]; pose proof (U _ _ I J) as X; try congruence.
Qed.

Lemma limit_named rule r k x : limit rule r k x -> exists l, In (k, l) r.
Proof. intros [I|(s & I & _)]; eauto. Qed.

(** The resolved dict. *)
Lemma resolved_all rule r : NoDup (map fst r) -> all_numbers rule r ->
  exists r', resolved rule (map fst r) r = Ok r' /\
    forall k, k <> "arg"%string ->
      (dget k r' = None /\ (forall l, ~ In (k, l) r)) \/
      (exists x, dget k r' = Some (XNum x) /\ limit rule r k x).
Proof.
  intros N A. destruct (resolved_ok rule (map fst r) r r) as (r' & E & O & L); auto.
  - intros k Hk NA. apply in_map_iff in Hk. destruct Hk as ((k', l) & <- & Hk). eapply A; eauto.
  - exists r'. split; auto. intros k NA.
    destruct (dget k r) as [l|] eqn:D.
    + right. apply L; auto. apply dget_some in D. apply in_map_iff. exists (k, l). auto.
    + left. pose proof (proj1 (dget_none _ _) D) as D'. split; auto. rewrite O; auto.
      intros K. apply in_map_iff in K. destruct K as ((k', l) & <- & K). apply (D' l K).
Qed.

Lemma neqb_spec x y : neqb x y = true <-> equal_numbers x y.
Proof.
  unfold equal_numbers. destruct x, y; cbn;
    first [rewrite Qeq_bool_iff; split; [intros K; split; [auto|discriminate]|tauto]
          |split; [discriminate|]; intros (K1 & K2); contradiction || congruence
          |split; auto; intros _; split; [auto|discriminate]].
Qed.

Lemma compare_means op v x l : means v x -> compare op v (XNum l) = Ok (op x l).
Proof. intros [->|(z & -> & ->)]; auto. Qed.

Lemma equals_means v x l : means v x -> equals v (XNum l) = neqb x l.
Proof. intros [->|(z & -> & ->)]; auto. Qed.

Lemma decide_ok rule r r' v x :
  NoDup (map fst r) ->
  (forall k, k <> "arg"%string ->
      (dget k r' = None /\ (forall l, ~ In (k, l) r)) \/
      (exists l, dget k r' = Some (XNum l) /\ limit rule r k l)) ->
  means v x ->
  exists b, decide v r' = Ok b /\ (b = true <-> meets rule r x).
Proof.
  intros N L M.
  (* the four tests *)
  assert (T : forall k (test : num -> bool) (P : num -> Prop),
    k <> "arg"%string -> (forall l, test l = true <-> ~ P l) -> (forall l, P l \/ ~ P l) ->
    exists b, (b = true <-> forall l, limit rule r k l -> P l) /\
      match dget k r' with Some (XNum l) => negb (test l) = b | Some _ => False | None => b = true end).
  { intros k test P NA TP DP. destruct (L k NA) as [(E & NI)|(l & E & Li)]; rewrite E.
    - exists true. split; auto. split; auto. intros _ l Li. destruct (limit_named _ _ _ _ Li) as (l' & I).
      destruct (NI l' I).
    - exists (negb (test l)). split; auto. rewrite negb_true_iff. split.
      + intros F l' Li'. rewrite <- (limit_unique _ _ _ _ _ N Li Li'). destruct (DP l) as [H|H]; auto.
        apply TP in H. congruence.
      + intros H. destruct (test l) eqn:F; auto. apply TP in F. destruct F. auto. }
  assert (DL : forall a b, nlt a b \/ ~ nlt a b).
  { intros a b. destruct (nltb a b) eqn:E; [left|right]; rewrite <- nltb_spec; congruence. }
  assert (DE : forall a b, equal_numbers a b \/ ~ equal_numbers a b).
  { intros a b. destruct (neqb a b) eqn:E; [left|right]; rewrite <- neqb_spec; congruence. }
  destruct (T "min"%string (fun l => nltb x l) (fun l => ~ nlt x l)) as (b1 & B1 & E1).
  { discriminate. }
  { intros l. rewrite nltb_spec. destruct (DL x l); tauto. }
  { intros l. destruct (DL x l); tauto. }
  destruct (T "max"%string (fun l => ngtb x l) (fun l => ~ nlt l x)) as (b2 & B2 & E2).
  { discriminate. }
  { intros l. unfold ngtb. rewrite nltb_spec. destruct (DL l x); tauto. }
  { intros l. destruct (DL l x); tauto. }
  destruct (T "equal"%string (fun l => negb (neqb x l)) (fun l => equal_numbers x l)) as (b3 & B3 & E3).
  { discriminate. }
  { intros l. rewrite negb_true_iff, <- neqb_spec. destruct (neqb x l); intuition congruence. }
  { intros l. destruct (DE x l); tauto. }
  destruct (T "different"%string (fun l => neqb x l) (fun l => ~ equal_numbers x l)) as (b4 & B4 & E4).
  { discriminate. }
  { intros l. rewrite <- neqb_spec. destruct (neqb x l); intuition congruence. }
  { intros l. destruct (DE x l); tauto. }
  exists (b1 && b2 && b3 && b4). split.
  - unfold decide.
    destruct (dget "min" r') as [[| |l1| | |]|]; try contradiction; try rewrite (compare_means _ _ _ _ M);
      subst b1; cbn [rbind].
    all: try (destruct (nltb x l1); cbn [negb andb]; auto).
    all: destruct (dget "max" r') as [[| |l2| | |]|]; try contradiction; try rewrite (compare_means _ _ _ _ M);
      subst b2; cbn [rbind].
    all: try (destruct (ngtb x l2); cbn [negb andb]; auto).
    all: destruct (dget "equal" r') as [[| |l3| | |]|]; try contradiction; try rewrite (equals_means _ _ _ M);
      subst b3; cbn [andb].
    all: try (destruct (neqb x l3); cbn [negb andb]; auto).
    all: destruct (dget "different" r') as [[| |l4| | |]|]; try contradiction; try rewrite (equals_means _ _ _ M);
      subst b4; cbn [andb].
    all: try (destruct (neqb x l4); cbn [negb andb]; auto).
    all: auto.
  - unfold meets. rewrite <- B1, <- B2, <- B3, <- B4, !andb_true_iff. tauto.
Qed.

Lemma toward_zero_trunc q z : toward_zero q z -> z = trunc q.
Proof.
  intros (A & B). destruct (trunc_spec q) as (A' & B'). set (t := trunc q) in *.
  destruct (Qlt_le_dec q 0) as [L|L].
  - assert (L' : (q <= 0)%Q) by (apply Qlt_le_weak; auto). destruct (B L') as (b1 & b2). destruct (B' L') as (c1 & c2).
    assert (X : (inject_Z (z - 1) < inject_Z t)%Q) by (eapply Qlt_le_trans; eauto).
    assert (Y : (inject_Z (t - 1) < inject_Z z)%Q) by (eapply Qlt_le_trans; eauto).
    rewrite <- Zlt_Qlt in X, Y. lia.
  - destruct (A L) as (b1 & b2). destruct (A' L) as (c1 & c2).
    assert (X : (inject_Z z < inject_Z (t + 1))%Q) by (eapply Qle_lt_trans; eauto).
    assert (Y : (inject_Z t < inject_Z (z + 1))%Q) by (eapply Qle_lt_trans; eauto).
    rewrite <- Zlt_Qlt in X, Y. lia.
Qed.

Lemma transform_measured lib r v x : NoDup (map fst r) -> measured lib r v x ->
  exists v', transform lib r v = Ok v' /\ means v' x.
Proof.
  intros N M. unfold transform.
  destruct M as [x A M|q I M|x I M S|I M|y x I M E|y x I M E|y x I M E|q z I M T|s z I M E];
    try (rewrite (dget_in "arg" r _ N I); unfold known_arg;
         repeat (change (str_eqb ?a ?b) with (str_eqb a b)); cbn [str_eqb String.eqb Ascii.eqb Bool.eqb]).
  - rewrite (proj2 (dget_none "arg" r) A). eauto.
  - destruct M as [->|(z & -> & E)]; cbn.
    + eexists. split; [reflexivity|]. left; auto.
    + eexists. split; [reflexivity|]. right. exists (Z.abs z). split; auto. injection E as ->. auto.
  - destruct M as [->|(z & -> & E)]; cbn.
    + destruct S as [-> | -> ]; eexists; (split; [reflexivity|left; auto]).
    + subst. destruct S; discriminate.
  - destruct M as [->|(z & -> & E)]; cbn; [|discriminate]. eexists. split; [reflexivity|left; auto].
  - destruct M as [->|(z & -> & ->)]; cbn; unfold real, numz; rewrite E; eexists; (split; [reflexivity|left; auto]).
  - destruct M as [->|(z & -> & ->)]; cbn; unfold real, numz; rewrite E; eexists; (split; [reflexivity|left; auto]).
  - destruct M as [->|(z & -> & ->)]; cbn; unfold real, numz; rewrite E; eexists; (split; [reflexivity|left; auto]).
  - apply toward_zero_trunc in T. destruct M as [->|(z' & -> & E)]; cbn.
    + subst z. eexists. split; [reflexivity|left; auto].
    + injection E as ->. subst z. unfold trunc, inject_Z. cbn [Qnum Qden]. rewrite Z.quot_1_r.
      eexists. split; [reflexivity|left; auto].
  - subst v. cbn. rewrite E. eexists. split; [reflexivity|left; auto].
Qed.

Lemma verdict_present lib r k rule v : rule k = Ok v -> present v ->
  verdict lib (Some r) k rule =
  rbind (transform lib r v) (fun v => rbind (resolved rule (map fst r) r) (fun r => decide v r)).
Proof. intros E (P1 & P2). cbn [verdict]. rewrite E. destruct v; auto; congruence. Qed.

Lemma check_number lib th k rule r v x :
  well_formed th -> limits_of th k r -> rule k = Ok v -> present v ->
  measured lib r v x -> all_numbers rule r ->
  exists b, fst (call lib th k rule) = Ok b /\ (b = true <-> meets rule r x).
Proof.
  intros W L E P M A. rewrite (proj1 (call_eq lib th k rule (proj1 (proj2 W)))).
  assert (N : NoDup (map fst r)) by (apply W in L; auto).
  rewrite (proj2 (row_of_spec th k r W) L), (verdict_present _ _ _ _ v E P).
  destruct (transform_measured lib r v x N M) as (v' & -> & M'). cbn [rbind].
  destruct (resolved_all rule r N A) as (r' & -> & R). cbn [rbind].
  apply (decide_ok rule r r' v' x); auto.
Qed.

Lemma check_unlimited lib th k rule :
  well_formed th ->
  ((forall r, ~ limits_of th k r) -> fst (call lib th k rule) = Ok true) /\
  (rule k = Ok XNone \/ rule k = Ok XCall -> fst (call lib th k rule) = Ok true) /\
  (forall r e, limits_of th k r -> rule k = Err e -> fst (call lib th k rule) = Err e).
Proof.
  intros W. rewrite (proj1 (call_eq lib th k rule (proj1 (proj2 W)))). repeat split.
  - intros H. destruct (row_of th k) as [r|] eqn:E; auto. apply row_of_spec in E; auto. destruct (H r E).
  - intros H. destruct (row_of th k) as [r|]; auto. cbn. destruct H as [-> | -> ]; auto.
  - intros r e L H. rewrite (proj2 (row_of_spec th k r W) L). cbn. rewrite H. auto.
Qed.

Lemma check_unknown_arg lib th k rule r v a :
  well_formed th -> limits_of th k r -> rule k = Ok v -> present v ->
  In ("arg"%string, XText a) r -> ~ In a six ->
  fst (call lib th k rule) = Err EValue.
Proof.
  intros W L E P I NI. rewrite (proj1 (call_eq lib th k rule (proj1 (proj2 W)))).
  assert (N : NoDup (map fst r)) by (apply W in L; auto).
  rewrite (proj2 (row_of_spec th k r W) L), (verdict_present _ _ _ _ v E P).
  unfold transform. rewrite (dget_in _ r _ N I). unfold known_arg.
  assert (F : forall b, In b six -> str_eqb a b = false).
  { intros b Hb. destruct (str_eqb a b) eqn:X; auto. apply seqb_spec in X. subst. contradiction. }
  rewrite !F by (cbn; auto 8). auto.
Qed.

(** A limit that is not a number. *)
Lemma check_bad_limit lib th k rule r v :
  well_formed th -> limits_of th k r -> rule k = Ok v -> present v ->
  (exists x, measured lib r v x) \/ worded lib r v ->
  (forall j s, In (j, XText s) r -> j <> "arg"%string -> exists u, rule s = Ok u) ->
  (exists j l, In (j, l) r /\ j <> "arg"%string /\ forall x, ~ limit rule r j x) ->
  fst (call lib th k rule) = Err EType.
Proof.
  intros W L E P M T (j & l & Ij & NA & B). rewrite (proj1 (call_eq lib th k rule (proj1 (proj2 W)))).
  assert (N : NoDup (map fst r)) by (apply W in L; auto).
  rewrite (proj2 (row_of_spec th k r W) L), (verdict_present _ _ _ _ v E P).
  assert (X : exists v', transform lib r v = Ok v').
  { destruct M as [(x & M)|M].
    - destruct (transform_measured lib r v x N M) as (v' & F & _). eauto.
    - unfold transform. destruct M as [A _|I].
      + rewrite (proj2 (dget_none "arg" r) A). eauto.
      + rewrite (dget_in "arg" r _ N I). cbn. eauto. }
  destruct X as (v' & ->). cbn [rbind].
  assert (Y : resolved rule (map fst r) r = Err EType); [|rewrite Y; auto].
  (* the texts under "arg" do not matter *)
  assert (G : forall lims r1, NoDup lims -> (forall i, In i lims -> dget i r1 = dget i r) ->
    (forall i, In i lims -> In i (map fst r)) ->
    (exists i, In i lims /\ i <> "arg"%string /\ forall x, ~ limit rule r i x) ->
    resolved rule lims r1 = Err EType).
  { induction lims as [|i t IH]; intros r1 NL G IN (j' & Hj & NA' & B'); [destruct Hj|].
    inversion NL as [|? ? NI NT]; subst. cbn [resolved].
    destruct (str_eqb i "arg") eqn:EA.
    - apply seqb_spec in EA. apply IH; auto.
      + intros a Ha. apply G. right; auto.
      + intros a Ha. apply IN. right; auto.
      + exists j'. destruct Hj as [->|Hj]; [contradiction|]. auto.
    - assert (NAi : i <> "arg"%string) by (intros ->; rewrite str_refl in EA; discriminate).
      rewrite (G i (or_introl eq_refl)).
      assert (IK := IN i (or_introl eq_refl)). apply in_map_iff in IK. destruct IK as ((i' & l') & EK & IK).
      cbn in EK. subst i'. rewrite (dget_in i r l' N IK).
      assert (Go : forall r2, (forall a, In a t -> dget a r2 = dget a r1) -> (i = j' -> False) ->
              resolved rule t r2 = Err EType).
      { intros r2 H2 NE. apply IH; auto.
        - intros a Ha. rewrite H2 by auto. apply G. right; auto.
        - intros a Ha. apply IN. right; auto.
        - exists j'. destruct Hj as [->|Hj]; [destruct NE; auto|]. auto. }
      destruct l'; cbn [is_plain]; auto.
      + apply Go; auto. intros <-. apply (B' x). left; auto.
      + destruct (T i s IK NAi) as (u & Eu). rewrite Eu. destruct u; cbn [is_plain]; auto.
        apply Go.
        * intros a Ha. rewrite dset_get. destruct (str_eqb a i) eqn:EI; auto.
          apply seqb_spec in EI. subst. contradiction.
        * intros <-. apply (B' x). right. exists s. auto. }
  apply G; auto. exists j. split; auto. apply in_map_iff. exists (j, l). auto.
Qed.

(** Texts. *)
Lemma check_text lib th k rule r v :
  well_formed th -> limits_of th k r -> rule k = Ok v -> present v -> worded lib r v -> all_numbers rule r ->
  ((exists l, In ("min"%string, l) r \/ In ("max"%string, l) r) -> fst (call lib th k rule) = Err EType) /\
  ((forall l, ~ In ("min"%string, l) r /\ ~ In ("max"%string, l) r) ->
   exists b, fst (call lib th k rule) = Ok b /\ (b = true <-> forall l, ~ In ("equal"%string, l) r)).
Proof.
  intros W L E P M A. rewrite (proj1 (call_eq lib th k rule (proj1 (proj2 W)))).
  assert (N : NoDup (map fst r)) by (apply W in L; auto).
  rewrite (proj2 (row_of_spec th k r W) L), (verdict_present _ _ _ _ v E P).
  assert (X : exists v', transform lib r v = Ok v' /\ forall op x, compare op v' (XNum x) = Err EType /\
             equals v' (XNum x) = false).
  { unfold transform. destruct M as [NA [(s & ->)| -> ]|I].
    - rewrite (proj2 (dget_none "arg" r) NA). eauto.
    - rewrite (proj2 (dget_none "arg" r) NA). eauto.
    - rewrite (dget_in "arg" r _ N I). cbn. eexists. split; [reflexivity|]. auto. }
  destruct X as (v' & -> & C). cbn [rbind].
  destruct (resolved_all rule r N A) as (r' & -> & R). cbn [rbind].
  assert (RI : forall j l, j <> "arg"%string -> In (j, l) r -> exists x, dget j r' = Some (XNum x)).
  { intros j l NA I. destruct (R j NA) as [(_ & K)|(x & K & _)]; eauto. destruct (K l I). }
  assert (RN : forall j, j <> "arg"%string -> (forall l, ~ In (j, l) r) -> dget j r' = None).
  { intros j NA I. destruct (R j NA) as [(K & _)|(x & _ & K)]; auto.
    destruct (limit_named _ _ _ _ K) as (l & K'). destruct (I l K'). }
  split.
  - intros (l & I). unfold decide.
    destruct (R "min"%string) as [(K & KN)|(x & K & _)]; [discriminate| |].
    + rewrite K. cbn [rbind]. destruct I as [I|I]; [destruct (KN l I)|].
      destruct (RI "max"%string l) as (x & F); auto; [discriminate|]. rewrite F, (proj1 (C _ _)). auto.
    + rewrite K, (proj1 (C _ _)). auto.
  - intros I. unfold decide. rewrite (RN "min"%string), (RN "max"%string); try discriminate; try (intros l; apply I).
    cbn [rbind].
    destruct (R "equal"%string) as [(K & KN)|(x & K & Li)]; [discriminate| |].
    + rewrite K. exists true. split; [|split; auto].
      destruct (R "different"%string) as [(K' & _)|(x & K' & _)]; [discriminate| |]; rewrite K'; auto.
      rewrite (proj2 (C nltb x)). auto.
    + rewrite K, (proj2 (C nltb x)). exists false. split; auto. split; [discriminate|].
      intros H. destruct (limit_named _ _ _ _ Li) as (l & I'). destruct (H l I').
Qed.
