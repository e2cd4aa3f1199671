(** What the extracted rules say about points. *)
From Coq Require Import List ZArith QArith Bool String Lia.
From Coq Require Import List.
From Verif Require Import Base Num CondModel CondSpec CondBase CondProofs CondAnd CondEval CondMore.
From Verif Require Import MetModel RuleModel RuleProofs PredModel SetModel SetSpec SetBase TreeModel TreeSpec TreeProofs TreeVisit.
Import ListNotations.
Open Scope string_scope.
Open Scope list_scope.
Open Scope Z_scope.

Lemma in_snoc {A} (l : list A) x y : In y (l ++ [x]) <-> In y l \/ y = x.
Proof. rewrite in_app_iff. cbn. intuition. Qed.

Lemma box_bounds q x p d : in_box q x p -> In d p ->
  within (x (on d)) (low_of q (on d)) (high_of q (on d)).
Proof. intros B I. destruct (B d I) as (lo & hi & L & H & W). rewrite (nth_low _ _ _ L), (nth_high _ _ _ H). auto. Qed.

Lemma box_prefix q x p p' : in_box q x (p ++ p') -> in_box q x p.
Proof. intros B d I. apply B. apply in_app_iff. auto. Qed.
Lemma follows_prefix x p p' : follows x (p ++ p') -> follows x p.
Proof. intros B d I. apply B. apply in_app_iff. auto. Qed.

Lemma takes_nan x d : takes x d -> bound d <> NaN.
Proof. unfold takes. destruct (goes d); [intros H; apply nle_nan in H|intros H; apply nlt_nan in H]; tauto. Qed.

Lemma effective_snoc p e d :
  effective (p ++ [e]) d <-> d = e \/ (effective p d /\ (goes d = Below -> on e = on d -> goes e = Below)).
Proof.
  split.
  - intros (pre & post & E & H). destruct post as [|z post] using rev_ind.
    + apply app_inj_tail in E. left. symmetry. apply E.
    + clear IHpost. rewrite app_comm_cons, app_assoc in E. apply app_inj_tail in E. destruct E as (E & ->). right. split.
      * exists pre, post. split; auto. intros G x I. apply H; auto. apply in_app_iff. auto.
      * intros G O. apply H; auto. apply in_app_iff. right. left. auto.
  - intros [->|((pre & post & -> & H) & G)].
    + exists p, []. split; auto. intros _ x [].
    + exists pre, (post ++ [e]). split; [rewrite <- app_assoc; auto|]. intros B x I. apply in_snoc in I. destruct I as [I| ->]; auto.
Qed.

Lemma effective_in p d : effective p d -> In d p.
Proof. intros (pre & post & -> & _). apply in_app_iff. right. left. auto. Qed.

Lemma effective_above p d : In d p -> goes d = Above -> effective p d.
Proof. intros I G. apply in_split in I. destruct I as (pre & post & ->). exists pre, post. split; auto. congruence. Qed.

(** The bounds, seen from a point of the box *)
Lemma bounds_seen q x p f lo hi : in_box q x p -> (forall d, In d p -> bound d <> NaN) ->
  along q p f = Some (lo, hi) ->
  lo <> NaN /\ hi <> NaN /\ (exists a, x f = Fin a) /\
  (nle lo (x f) <-> forall d, In d p -> on d = f -> goes d = Above -> nle (bound d) (x f)) /\
  (nle (x f) hi <-> forall d, effective p d -> on d = f -> goes d = Below -> nle (x f) (bound d)).
Proof.
  revert lo hi. induction p as [|e p IH] using rev_ind; intros lo hi B NN A; [discriminate|].
  rewrite along_snoc in A. unfold update in A.
  assert (Be : on e = f -> within (x f) (low_of q f) (high_of q f)).
  { intros <-. apply (box_bounds q x (p ++ [e])); auto. apply in_snoc. auto. }
  assert (Ne : bound e <> NaN) by (apply NN; apply in_snoc; auto).
  apply box_prefix in B. specialize (fun l h => IH l h B (fun d I => NN d (proj2 (in_snoc _ _ _) (or_introl I)))).
  destruct (Z.eqb_spec f (on e)) as [Ef|Ef].
  - specialize (Be (eq_sym Ef)). destruct Be as (Fx & Bl & Bh).
    pose proof (nle_nan _ _ Bl) as (Nl & _). pose proof (nle_nan _ _ Bh) as (_ & Nh).
    destruct (along q p f) as [[l h]|] eqn:AP.
    + destruct (IH l h eq_refl) as (L0 & H0 & _ & IL & IH2). destruct (goes e) eqn:Ge; injection A as <- <-.
      * destruct (py_min_spec (bound e) h Ne H0) as (S1 & S2 & S3).
        split; auto. split; [apply py_min_nan; auto|]. split; auto. split.
        { rewrite IL. split; intros H d I; [apply in_snoc in I; destruct I as [I| ->]; [auto|congruence]|].
          apply H. apply in_snoc; auto. }
        split.
        { intros H d I O G. apply effective_snoc in I. destruct I as [->|(I & _)]; [eapply nle_trans; eauto|].
          assert (X : nle (x f) h) by (eapply nle_trans; eauto). exact (proj1 IH2 X d I O G). }
        { intros H. destruct S1 as [-> | ->]; [apply H; auto; apply effective_snoc; auto|]. apply IH2. intros d I O G. apply H; auto.
          apply effective_snoc. right. auto. }
      * destruct (py_max_spec (bound e) l Ne L0) as (S1 & S2 & S3).
        destruct (py_max_spec (high_of q f) h Nh H0) as (T1 & T2 & T3).
        split; [apply py_max_nan; auto|]. split; [apply py_max_nan; auto|]. split; auto. split; [split|split].
        { intros H d I O G. apply in_snoc in I. destruct I as [I| ->]; [|eapply nle_trans; eauto].
          assert (X : nle l (x f)) by (eapply nle_trans; eauto). exact (proj1 IL X d I O G). }
        { intros H. destruct S1 as [-> | ->]; [apply H; auto; apply in_snoc; auto|]. apply IL. intros d I O G. apply H; auto. apply in_snoc; auto. }
        { intros _ d I O G. apply effective_snoc in I. destruct I as [->|(I & C)]; [congruence|]. rewrite (C G) in Ge; congruence. }
        { intros _. eapply nle_trans; eauto. }
    + pose proof (proj1 (along_none q p f) AP) as No.
      destruct (goes e) eqn:Ge; injection A as <- <-; (split; [auto|]); (split; [auto|]); (split; [auto|]); split; split; intros H.
      * intros d I O G. apply in_snoc in I. destruct I as [I| ->]; [destruct (No d I O)|congruence].
      * auto.
      * intros d I O G. apply effective_in in I. apply in_snoc in I. destruct I as [I| ->]; [destruct (No d I O)|auto].
      * apply H; auto. apply effective_snoc; auto.
      * intros d I O G. apply in_snoc in I. destruct I as [I| ->]; [destruct (No d I O)|auto].
      * apply H; auto. apply in_snoc. auto.
      * intros d I O G. apply effective_in in I. apply in_snoc in I. destruct I as [I| ->]; [destruct (No d I O)|congruence].
      * auto.
  - destruct (IH lo hi A) as (L0 & H0 & Fx & IL & IH2). split; auto. split; auto. split; auto. rewrite IL, IH2.
    split; split; intros H d I O G.
    + apply in_snoc in I. destruct I as [I| ->]; [auto|congruence].
    + apply H; auto. apply in_snoc; auto.
    + apply effective_snoc in I. destruct I as [->|(I & _)]; [congruence|auto].
    + apply H; auto. apply effective_snoc. right. split; auto. congruence.
Qed.

Lemma follows_within q x p f lo hi : in_box q x p -> follows x p -> along q p f = Some (lo, hi) -> within (x f) lo hi.
Proof.
  intros B F A. destruct (bounds_seen q x p f lo hi B (fun d I => takes_nan x d (F d I)) A) as (_ & _ & X & L & H).
  split; auto. split.
  - apply L. intros d I <- G. specialize (F d I). unfold takes in F. rewrite G in F. apply nlt_nle. auto.
  - apply H. intros d I <- G. apply effective_in in I. specialize (F d I). unfold takes in F. rewrite G in F. auto.
Qed.

Lemma unflagged sett q p c : describes sett q p c -> reachable q p -> c_imp c = false.
Proof.
  intros (fs & _ & _ & _ & _ & _ & I) (y & B & F). destruct (c_imp c); auto. destruct (I eq_refl) as (p1 & p2 & f & lo & hi & -> & A & C).
  destruct (follows_within q y p1 f lo hi) as (_ & L & H); eauto using box_prefix, follows_prefix.
  exfalso. apply (nlt_not_nle _ _ C). eapply nle_trans; eauto.
Qed.

(** ** Tables *)

Lemma value_present xs i f x : well_shaped xs -> 0 <= f_index f -> value xs i f x ->
  has_feature xs f /\ (i < nrows xs)%nat.
Proof.
  destruct xs as [d rows|n columns]; cbn.
  - intros W P (row & R & [(_ & E)|(Q & _)]); [|lia]. split; [|apply nth_error_Some; congruence].
    apply nth_error_In in R. specialize (W row R). assert (Z.to_nat (f_index f) < List.length row)%nat by (apply nth_error_Some; congruence). lia.
  - intros (_ & W) _ (col & I & E). split; [apply in_map_iff; exists (f_name f, col); auto|].
    rewrite <- (W _ I). apply nth_error_Some. cbn. congruence.
Qed.

Definition positive (p : list step) : Prop := forall d, In d p -> 0 <= on d.

Lemma row_evaluates E q p values r xs i x : made E q p values r -> positive p -> reachable q p ->
  well_shaped xs -> row_is q xs i x p ->
  (holds r xs i <-> forall f lo hi, along q p f = Some (lo, hi) -> within (x f) lo hi) /\ (holds r xs i \/ fails r xs i).
Proof.
  intros (Ne & c & Rc & D & _) P R W Row. pose proof (unflagged _ _ _ _ D R) as U.
  destruct D as (fs & L & Dis & _ & B & A & _).
  assert (V : forall g, In g fs -> exists d, In d p /\ on d = f_index g /\ value xs i g (x (f_index g))).
  { intros g I. destruct (B g I) as (N & Ag). destruct (in_dec Z.eq_dec (f_index g) (map on p)) as [J|J].
    - apply in_map_iff in J. destruct J as (d & O & J). exists d. split; auto. split; auto. rewrite <- O in *.
      specialize (Row d J _ N). revert Row. apply value_same; auto.
    - exfalso. rewrite (proj2 (along_none q p (f_index g))) in Ag; [discriminate|]. intros e Ie Ee. apply J. rewrite <- Ee. apply in_map; auto. }
  assert (Acc : forall g, In g fs -> has_feature xs g /\ (i < nrows xs)%nat).
  { intros g I. destruct (V g I) as (d & J & O & Vg). apply (value_present xs i g (x (f_index g)) W); [rewrite <- O; apply P; auto|exact Vg]. }
  assert (Nf : fs <> []).
  { intros ->. destruct p as [|d p]; [congruence|]. apply (A (on d)). intros Z. apply (proj1 (along_none _ _ _) Z d); auto. left; auto. }
  destruct (evaluate_unflagged c fs xs L U W) as (v & Ev & Len & M).
  { split; [intros g I; apply Acc; auto|]. destruct xs; auto. }
  assert (Ri : (i < nrows xs)%nat) by (destruct fs as [|g t]; [congruence|]; apply (Acc g); left; auto).
  assert (Sat : satisfied xs i fs <-> forall f lo hi, along q p f = Some (lo, hi) -> within (x f) lo hi).
  { split.
    - intros S f lo hi Af. assert (J : In f (map f_index fs)) by (apply A; congruence).
      apply in_map_iff in J. destruct J as (g & <- & I). destruct (S g I) as (z & Vz & Wz). destruct (V g I) as (d & _ & _ & Vg).
      rewrite (value_fun xs i g _ _ W Vg Vz). destruct (B g I) as (_ & Ag). rewrite Af in Ag. injection Ag as -> ->. auto.
    - intros H g I. destruct (V g I) as (d & _ & _ & Vg). exists (x (f_index g)). split; auto. apply H. apply B; auto. }
  rewrite <- Sat.
  assert (N : nth_error v i = Some (nth i v 0)) by (apply nth_error_nth'; lia).
  destruct (M i Ri) as [(M1 & M2)|(M1 & M2)]; rewrite M1 in N.
  - assert (H : holds r xs i) by (exists c, v; auto). split; [split; auto|auto].
  - split; [|right; exists c, v; auto]. split; [|intros S; contradiction].
    intros (c' & v' & Rc' & Ev' & N'). rewrite Rc in Rc'. injection Rc' as <-. rewrite Ev in Ev'. injection Ev' as <-. congruence.
Qed.

Lemma row_covered E q p values r xs i x : made E q p values r -> positive p ->
  well_shaped xs -> row_is q xs i x p -> in_box q x p -> follows x p -> holds r xs i.
Proof.
  intros M P W Row B F. apply (row_evaluates E q p values r xs i x); auto; [exists x; auto|].
  intros f lo hi A. eapply follows_within; eauto.
Qed.

Lemma row_exact E q p values r xs i x : made E q p values r -> positive p -> reachable q p ->
  well_shaped xs -> row_is q xs i x p -> in_box q x p ->
  (holds r xs i <-> forall d, effective p d -> beside_threshold x d) /\ (holds r xs i \/ fails r xs i).
Proof.
  intros M P R W Row B. destruct (row_evaluates E q p values r xs i x M P R W Row) as (H & T). split; auto. rewrite H. clear H T.
  destruct R as (y & By & Fy). assert (NN : forall d, In d p -> bound d <> NaN) by (intros d I; apply (takes_nan y); auto).
  split.
  - intros H d I. destruct (along q p (on d)) as [[lo hi]|] eqn:A.
    + destruct (bounds_seen q x p _ lo hi B NN A) as (_ & _ & _ & L & U). destruct (H _ _ _ A) as (_ & W1 & W2).
      unfold beside_threshold. destruct (goes d) eqn:G.
      * apply (proj1 U W2); auto.
      * apply (proj1 L W1); auto. apply effective_in; auto.
    + exfalso. apply (proj1 (along_none _ _ _) A d); auto. apply effective_in; auto.
  - intros H f lo hi A. destruct (bounds_seen q x p _ lo hi B NN A) as (_ & _ & X & L & U). split; auto. split.
    + apply L. intros d I <- G. specialize (H d (effective_above _ _ I G)). unfold beside_threshold in H. rewrite G in H. auto.
    + apply U. intros d I <- G. specialize (H d I). unfold beside_threshold in H. rewrite G in H. auto.
Qed.

Lemma off_side x d : (exists a, x (on d) = Fin a) -> bound d <> NaN -> ~ same_num (x (on d)) (bound d) ->
  beside_threshold x d -> takes x d.
Proof.
  intros (a & E) N O H. unfold beside_threshold, takes in *. destruct (goes d); auto. rewrite E in *.
  destruct (bound d) as [| |b|]; cbn in *; auto. apply Qle_lteq in H. destruct H as [H|H]; auto. exfalso. apply O. rewrite H. reflexivity.
Qed.

(** ** Paths of a tree *)

Lemma asked_paths leaf t b : In b (asked leaf t) ->
  forall d, In d (fst b) -> exists f th v l r, within_tree (Node f th v l r) t /\ on d = f /\ bound d = th.
Proof.
  revert b. induction t as [v|f th v l IHl r IHr]; intros b I d Id.
  - destruct leaf; cbn in I; [|contradiction]. destruct I as [ <- |[]]. destruct Id.
  - assert (X : forall e (t' : tree), e = mkStep f th Below \/ e = mkStep f th Above -> (t' = l \/ t' = r) ->
      (forall b, In b (asked leaf t') -> forall d, In d (fst b) ->
         exists f th v l r, within_tree (Node f th v l r) t' /\ on d = f /\ bound d = th) ->
      In b ((if leaf then [] else [([e], v)]) ++ map (fun b => (e :: fst b, snd b)) (asked leaf t')) ->
      exists f0 th0 v0 l0 r0, within_tree (Node f0 th0 v0 l0 r0) (Node f th v l r) /\ on d = f0 /\ bound d = th0).
    { intros e t' E T IH J.
      assert (S : d = e \/ exists b', In b' (asked leaf t') /\ In d (fst b')).
      { apply in_app_iff in J. destruct J as [J|J].
        - destruct leaf; [destruct J|]. destruct J as [ <- |[]]. destruct Id as [ <- |[]]. auto.
        - apply in_map_iff in J. destruct J as (b' & <- & J). destruct Id as [ <- |Id]; eauto. }
      destruct S as [->|(b' & J' & Id')].
      - exists f, th, v, l, r. split; [constructor|]. destruct E as [-> | ->]; auto.
      - destruct (IH b' J' d Id') as (f0 & th0 & v0 & l0 & r0 & Wt & O). exists f0, th0, v0, l0, r0. split; auto.
        destruct T as [-> | ->]; [apply within_left|apply within_right]; auto. }
    rewrite asked_node in I. rewrite app_assoc in I. apply in_app_iff in I. destruct I as [I|I].
    + apply (X (mkStep f th Below) l); auto.
    + apply (X (mkStep f th Above) r); auto.
Qed.

Lemma represents_positive T n t : represents T n t -> forall f th v l r, within_tree (Node f th v l r) t -> 0 <= f.
Proof.
  induction 1 as [n v Hf Hv|n f th v a b l r Hf Pf Ht Hv Hl Rl IHl Hr Rr IHr]; intros f0 th0 v0 l0 r0 W; inversion W; subst; eauto.
Qed.

Lemma asked_positive T n t leaf b : represents T n t -> In b (asked leaf t) -> positive (fst b).
Proof.
  intros R I d Id. destruct (asked_paths _ _ _ I d Id) as (f & th & v & l & r & W & -> & _). eapply represents_positive; eauto.
Qed.

Lemma forall2_with {A B} (P : A -> B -> Prop) (Q : A -> B -> Prop) l m :
  (forall a b, In a l -> P a b -> Q a b) -> Forall2 P l m -> Forall2 Q l m.
Proof. intros H F. induction F; constructor; [apply H; auto; left; auto|]. apply IHF. intros a b I. apply H. right. auto. Qed.

Lemma extracted_covers limit G T q t s : known (e_sort (g_env G)) -> represents T O t ->
  extract_rules_from_tree limit G T q = Ok s ->
  Forall2 (fun b r => forall xs i x, well_shaped xs -> row_is q xs i x (fst b) -> in_box q x (fst b) -> follows x (fst b) ->
                      holds r xs i) (asked (q_leaf q) t) (s_rules s).
Proof.
  intros K R X. pose proof (extracted _ _ _ _ _ _ K R X) as F. revert F. apply forall2_with. intros b r I M xs i x W Row B Fo.
  apply (row_covered _ _ _ _ _ _ _ x M); auto. eapply asked_positive; eauto.
Qed.

Lemma extracted_exact limit G T q t s : known (e_sort (g_env G)) -> represents T O t ->
  extract_rules_from_tree limit G T q = Ok s ->
  Forall2 (fun b r => reachable q (fst b) -> forall xs i x, well_shaped xs -> row_is q xs i x (fst b) -> in_box q x (fst b) ->
             (holds r xs i <-> forall d, effective (fst b) d -> beside_threshold x d) /\ (holds r xs i \/ fails r xs i))
          (asked (q_leaf q) t) (s_rules s).
Proof.
  intros K R X. pose proof (extracted _ _ _ _ _ _ K R X) as F. revert F. apply forall2_with. intros b r I M Re xs i x W Row B.
  apply (row_exact _ _ _ _ _ _ _ x M); auto. eapply asked_positive; eauto.
Qed.

Lemma extracted_only limit G T q t s : known (e_sort (g_env G)) -> represents T O t ->
  extract_rules_from_tree limit G T q = Ok s ->
  Forall2 (fun b r => reachable q (fst b) -> never_back (fst b) ->
             forall xs i x, well_shaped xs -> row_is q xs i x (fst b) -> in_box q x (fst b) -> off_thresholds x (fst b) ->
             (holds r xs i <-> follows x (fst b))) (asked (q_leaf q) t) (s_rules s).
Proof.
  intros K R X. pose proof (extracted_exact _ _ _ _ _ _ K R X) as F. revert F. apply forall2_with. intros b r I E Re NB xs i x W Row B Off.
  destruct (E Re xs i x W Row B) as (H & _). rewrite H. destruct Re as (y & _ & Fy). split.
  - intros A d Id. apply off_side; [destruct (B d Id) as (lo & hi & _ & _ & Fx & _); auto|apply (takes_nan y); auto|auto|].
    apply A. apply NB. auto.
  - intros Fo d Id. apply effective_in in Id. specialize (Fo d Id). unfold takes, beside_threshold in *. destruct (goes d); auto.
    apply nlt_nle. auto.
Qed.

(** ** The tree sends a point to one leaf. *)

Lemma follows_cons x d p : follows x (d :: p) <-> takes x d /\ follows x p.
Proof.
  unfold follows. split.
  - intros H. split; [apply H; left; auto|]. intros e I. apply H. right. auto.
  - intros (A & B) e [ <- |I]; auto.
Qed.

Lemma one_leaf x t : (forall f th v l r, within_tree (Node f th v l r) t -> th <> NaN /\ exists a, x f = Fin a) ->
  exists b, sends_to x t b.
Proof.
  induction t as [v|f th v l IHl r IHr]; intros H.
  - exists ([], v), [], []. split; auto. split; [intros d []|intros b []].
  - destruct (H f th v l r (within_self _)) as (N & a & E).
    destruct IHl as (bl & pl & ql & El & Fl & Ol); [intros; eapply H; apply within_left; eauto|].
    destruct IHr as (br & pr & qr & Er & Fr & Or); [intros; eapply H; apply within_right; eauto|].
    set (gl := fun b : list step * list num => (mkStep f th Below :: fst b, snd b)).
    set (gr := fun b : list step * list num => (mkStep f th Above :: fst b, snd b)).
    assert (Eq : branches (Node f th v l r) = map gl (branches l) ++ map gr (branches r)) by auto.
    destruct (nle_or (x f) th) as [L|L]; auto; [congruence| |].
    + exists (gl bl), (map gl pl), (map gl ql ++ map gr (branches r)). rewrite Eq, El, map_app, <- app_assoc. split; auto. split.
      * cbn [gl fst]. apply follows_cons. auto.
      * intros b' I F. rewrite app_assoc, <- map_app in I. apply in_app_iff in I. destruct I as [I|I].
        { apply in_map_iff in I. destruct I as (b0 & <- & I). cbn in F. apply follows_cons in F. apply (Ol b0); tauto. }
        { apply in_map_iff in I. destruct I as (b0 & <- & I). cbn in F. apply follows_cons in F. destruct F as (F & _).
          unfold takes in F. cbn in F. eapply nlt_not_nle; eauto. }
    + exists (gr br), (map gl (branches l) ++ map gr pr), (map gr qr). rewrite Eq, Er, map_app, <- app_assoc. split; auto. split.
      * cbn [gr fst]. apply follows_cons. auto.
      * intros b' I F. rewrite <- app_assoc, <- map_app in I. apply in_app_iff in I. destruct I as [I|I].
        { apply in_map_iff in I. destruct I as (b0 & <- & I). cbn in F. apply follows_cons in F. destruct F as (F & _).
          unfold takes in F. cbn in F. eapply nlt_not_nle; eauto. }
        { apply in_map_iff in I. destruct I as (b0 & <- & I). cbn in F. apply follows_cons in F. apply (Or b0); tauto. }
Qed.
