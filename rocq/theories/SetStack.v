(** The stacked activations of a ruleset are those of its rules. *)
From Coq Require Import List ZArith QArith Bool String Ascii Permutation Lia.
From Coq Require Import List.
From Verif Require Import Base Num CondModel CondSpec CondBase ThrModel ThrProofs MetModel MetSpec RuleModel RuleSpec RuleProofs RuleValues.
From Verif Require Import PredModel PredSpec PredReg PredStack SetModel SetSpec SetBase SetSort SetAct.
Import ListNotations.
Open Scope string_scope.
Open Scope list_scope.
Open Scope Z_scope.

(** ** DataFrames from rules *)

Lemma dset_in {A} k (v : A) d n x : In (n, x) (dset k v d) -> (n = k /\ x = v) \/ In (n, x) d.
Proof.
  induction d as [|[j w] d IH]; cbn [dset]; [intros [H|[]]; injection H; auto|].
  destruct (str_eqb k j) eqn:X; cbn [In]; (intros [H|H]; [injection H as <- <-|]); auto. destruct (IH H); auto.
Qed.

Lemma dset_key {A} k (v : A) d n : In n (map fst d) \/ n = k -> In n (map fst (dset k v d)).
Proof.
  induction d as [|[j w] d IH]; cbn [dset map fst In]; [intros [[]| -> ]; auto|].
  destruct (str_eqb k j) eqn:X; cbn [map fst In].
  - apply String.eqb_eq in X. subst. intros [[H|H]|H]; auto.
  - intros [[H|H]|H]; auto.
Qed.

Lemma fold_dset_in {A} (l : list (string * A)) : forall d,
  (forall n x, In (n, x) (fold_left (fun d p => dset (fst p) (snd p) d) l d) -> In (n, x) l \/ In (n, x) d) /\
  (forall n, In n (map fst l) \/ In n (map fst d) -> In n (map fst (fold_left (fun d p => dset (fst p) (snd p) d) l d))).
Proof.
  induction l as [|[k v] l IH]; intros d; cbn [fold_left fst snd].
  - split; auto. intros n [[]|H]; auto.
  - destruct (IH (dset k v d)) as (IH1 & IH2). split.
    + intros n x H. destruct (IH1 n x H) as [K|K]; [left; right; auto|]. apply dset_in in K as [(-> & ->)|K]; auto. left. left. auto.
    + intros n H. apply IH2. cbn [map fst In] in H. destruct H as [[H|H]|H]; auto; right; apply dset_key; auto.
Qed.

Lemma by_name_any {A} E (f : rule -> res A) rules l : by_name E f rules = Ok l ->
  (forall n x, In (n, x) l -> exists r, In r rules /\ rule_name E r = Ok n /\ f r = Ok x) /\
  (forall r, In r rules -> exists n, rule_name E r = Ok n /\ In n (map fst l)).
Proof.
  unfold by_name. destruct (rseq _) as [m|] eqn:R; [|discriminate]. cbn [rmap]. intros H.
  assert (L : fold_left (fun d p => dset (fst p) (snd p) d) m [] = l) by congruence. clear H.
  apply rseq_map_ok in R.
  assert (F : Forall2 (fun r p => rule_name E r = Ok (fst p) /\ f r = Ok (snd p)) rules m).
  { clear - R. induction R as [|r p rules m H F IH]; constructor; auto. destruct (rule_name E r); [|discriminate].
    cbn [rbind] in H. destruct (f r); [|discriminate]. injection H as <-. auto. }
  clear R. destruct (forall2_in _ _ _ F) as (F1 & F2). destruct (fold_dset_in m []) as (D1 & D2). rewrite L in D1, D2. split.
  - intros n x H. destruct (D1 n x H) as [K|[]]. destruct (F2 _ K) as (r & R & E1 & E2). eauto.
  - intros r R. destruct (F1 r R) as ((n, x) & K & E1 & _). exists n. split; auto. apply D2. left.
    apply (in_map fst) in K. auto.
Qed.

(** ** The invariant *)

Definition named (E : env) (r : rule) : Prop := present r /\ exists n, rule_name E r = Ok n.

Record lined (E : env) (rules : list rule) (f : frame Z) : Prop := mkLined {
  li_rows : (0 < f_rows f)%nat;
  li_columns : f_columns f <> [];
  li_from : forall n v, In (n, v) (f_columns f) ->
    List.length v = f_rows f /\ exists r, In r rules /\ rule_name E r = Ok n /\ working r None v;
  li_all : forall r, In r rules -> exists n, rule_name E r = Ok n /\ In n (map fst (f_columns f)) }.

Definition aligned (E : env) (rules : list rule) (o : option (frame Z)) : Prop :=
  (forall r, In r rules -> named E r) ->
  match rules with
  | [] => o = None \/ o = Some (mkFrame 0 [])
  | _ => exists f, o = Some f /\ lined E rules f
  end.

Lemma vector_working r v : activation_vector r = Ok (Some v) -> working r None v /\ v <> [].
Proof.
  unfold activation_vector. destruct (r_act r) as [a|] eqn:A; [|discriminate]. destruct (alen a =? 0) eqn:Z; [discriminate|].
  destruct (raw a) as [w|] eqn:W; [|discriminate]. cbn. intros H. injection H as ->. split; [exists a; auto|].
  apply raw_inv in W as (_ & <-). apply alen_pos. auto.
Qed.

Lemma evaluate_stacked_aligned G s o : evaluate_stacked_activations G None s = Ok o -> aligned (g_env G) (s_rules s) o.
Proof.
  unfold evaluate_stacked_activations. intros H P. destruct (s_rules s) as [|r t] eqn:R; [injection H as <-; auto|].
  unfold stack in H. replace (forallb activation_available (r :: t)) with true in H.
  2: { symmetry. apply forallb_forall. intros x X. apply present_available. apply P. auto. }
  destruct (by_name _ _ _) as [l|] eqn:B; [|discriminate]. cbn [rbind] in H.
  destruct (forallb _ l) eqn:F; [|discriminate]. injection H as <-. eexists. split; [reflexivity|].
  apply by_name_any in B as (B1 & B2). rewrite forallb_forall in F.
  assert (Lv : forall n v, In (n, v) l -> exists r0, In r0 (r :: t) /\ rule_name (g_env G) r0 = Ok n /\ working r0 None v /\ v <> []).
  { intros n v I. destruct (B1 n v I) as (q & Q & N & V). exists q. split; auto. split; auto.
    destruct (activation_vector q) as [[w|]|] eqn:W; try discriminate. cbn in V. injection V as ->. apply vector_working. auto. }
  destruct l as [|(n0, v0) l].
  { destruct (B2 r (or_introl eq_refl)) as (n & _ & []). }
  constructor; cbn [f_rows f_columns].
  - destruct (Lv n0 v0 (or_introl eq_refl)) as (_ & _ & _ & _ & N). destruct v0; [congruence|cbn; lia].
  - discriminate.
  - intros n v I. split; [apply Nat.eqb_eq; apply (F (n, v)); auto|]. destruct (Lv n v I) as (q & Q & N & W & _). eauto.
  - exact B2.
Qed.

Lemma rule_name_reindexed E r r' : reindexed r r' -> rule_name E r' = rule_name E r.
Proof.
  intros [_ _ _ _ (c & c' & l & C & C' & Mi & Ma & N & _)]. unfold rule_name. rewrite C, C'. unfold cond_str. rewrite N, Mi, Ma.
  destruct (c_names c) as [n|] eqn:E1; auto. unfold clen. rewrite N, E1. auto.
Qed.

Lemma working_reindexed r r' v : reindexed r r' -> working r None v <-> working r' None v.
Proof. intros R. unfold working. rewrite (re_act _ _ R). reflexivity. Qed.

Lemma aligned_reindexed E l m o : Forall2 reindexed l m -> aligned E l o -> aligned E m o.
Proof.
  intros F A P. destruct (forall2_in _ _ _ F) as (F1 & F2).
  assert (PL : forall r, In r l -> named E r).
  { intros r R. destruct (F1 r R) as (r' & R' & X). destruct (P r' R') as ((v & W & K) & n & N). split.
    - exists v. split; auto. apply (working_reindexed _ _ _ X). auto.
    - exists n. rewrite <- (rule_name_reindexed E _ _ X). auto. }
  specialize (A PL). destruct F as [|r r' l m X F]; auto. destruct A as (f & -> & [L1 L2 L3 L4]). exists f. split; auto.
  constructor; auto.
  - intros n v I. destruct (L3 n v I) as (L & q & Q & N & W). split; auto. destruct (F1 q Q) as (q' & Q' & Y). exists q'. split; auto.
    split; [rewrite (rule_name_reindexed E _ _ Y); auto|]. apply (working_reindexed _ _ _ Y). auto.
  - intros q Q. destruct (F2 q Q) as (q' & Q' & Y). destruct (L4 q' Q') as (n & N & I). exists n. split; auto.
    rewrite (rule_name_reindexed E _ _ Y). auto.
Qed.

(** ** Additions *)

Lemma aligned_nonempty E rules o : rules <> [] -> aligned E rules o -> (forall r, In r rules -> named E r) ->
  exists f, o = Some f /\ lined E rules f.
Proof. intros N A P. specialize (A P). destruct rules; [congruence|auto]. Qed.

Lemma aligned_empty E o : aligned E [] o -> o = None \/ o = Some (mkFrame 0 []).
Proof. intros A. apply A. intros r []. Qed.

Lemma lined_single E r n v : rule_name E r = Ok n -> working r None v -> v <> [] -> lined E [r] (mkFrame (List.length v) [(n, v)]).
Proof.
  intros N W V. constructor; cbn.
  - destruct v; [congruence|cbn; lia].
  - discriminate.
  - intros m w [H|[]]. injection H as <- <-. split; auto. exists r. auto.
  - intros q [<-|[]]. exists n. auto.
Qed.

Lemma add_rule_aligned G r s s' : aligned (g_env G) (s_rules s) (s_stacked s) -> s_stack s = true ->
  add_rule G r s = (Ok tt, s') -> aligned (g_env G) (s_rules s') (s_stacked s').
Proof.
  intros A K H. pose proof (add_rule_ok _ _ _ _ H) as AD. intros P. rewrite (ad_rules _ _ _ _ AD) in *.
  assert (PR : forall q, In q (s_rules s) -> named (g_env G) q) by (intros; apply P; apply in_or_app; auto).
  assert (Pr : named (g_env G) r) by (apply P; apply in_or_app; right; left; auto).
  assert (X : exists s3, s_stacked s3 = s_stacked s /\ update_stacked_rule G r s3 = (Ok tt, s')).
  { clear - H K. apply chain_ok in H as (s1 & H1 & H). apply chain_ok in H as (s2 & H2 & H). apply chain_ok in H as (s3 & H3 & H4).
    assert (E1 : s_stacked s1 = s_stacked s /\ s_stack s1 = s_stack s).
    { destruct (s_type s); [destruct (isinstance _ _); [|discriminate]|]; injection H1 as <-; auto. }
    apply add_features_ok in H2 as (i & n & _ & _ & ->). cbn in H3.
    assert (E3 : s_stacked s3 = s_stacked s /\ s_stack s3 = s_stack s).
    { destruct (s_compute s1); [apply update_activation_ok in H3 as (o & _ & ->)|injection H3 as <-]; auto. }
    destruct E3 as (E3 & E4). rewrite E4, K in H4. exists s3. auto. }
  destruct X as (s3 & E3 & X). unfold update_stacked_rule in X. destruct Pr as (Pr & n & N).
  rewrite (present_available r Pr) in X. apply use_ok in X as (f & X & E). injection E as <-. cbn [s_stacked with_stacked].
  rewrite N, E3 in X. cbn [rbind] in X. destruct (activation_vector r) as [[v|]|] eqn:V; try discriminate. cbn [rbind] in X.
  apply vector_working in V as (W & NV).
  assert (G1 : exists f0, Some f = Some f0 /\ lined (g_env G) (s_rules s ++ [r]) f0).
  { exists f. split; auto. destruct (s_rules s) as [|q t] eqn:R.
    - cbn [app]. destruct (aligned_empty _ _ A) as [E|E]; rewrite E in X.
      + injection X as <-. apply lined_single; auto.
      + cbn in X. injection X as <-. apply lined_single; auto.
    - destruct (aligned_nonempty (g_env G) (q :: t) (s_stacked s) ltac:(discriminate) A PR) as (g & E & [L1 L2 L3 L4]). rewrite E in X.
      unfold set_column in X. destruct (f_columns g) as [|c0 cs] eqn:Cs; [congruence|]. rewrite <- Cs in *.
      destruct (f_rows g =? 0)%nat eqn:Z; [apply Nat.eqb_eq in Z; lia|].
      destruct (List.length v =? f_rows g)%nat eqn:LV; [|discriminate]. cbn [negb] in X. apply Nat.eqb_eq in LV. injection X as <-.
      destruct (mem str_eqb n (map fst (f_columns g))) eqn:M.
      + apply (mem_spec _ str_eqb_iff) in M. constructor; cbn [f_rows f_columns]; auto.
        * rewrite Cs. discriminate.
        * intros m w I. apply in_map_iff in I as ((m0, w0) & I & J). cbn [fst] in I. destruct (str_eqb n m0) eqn:Q.
          -- apply String.eqb_eq in Q. subst m0. injection I as <- <-. split; auto. exists r. split; [apply in_or_app; right; left; auto|auto].
          -- injection I as <- <-. destruct (L3 _ _ J) as (J1 & x & J2 & J3). split; auto. exists x. split; [apply in_or_app; auto|auto].
        * assert (MK : map fst (map (fun c => if str_eqb n (fst c) then (fst c, v) else c) (f_columns g)) = map fst (f_columns g)).
          { rewrite map_map. apply map_ext. intros (a, b). cbn [fst]. destruct (str_eqb n a); auto. }
          rewrite MK. intros x I. apply in_app_or in I as [I|[<-|[]]]; [apply L4; auto|exists n; auto].
      + constructor; cbn [f_rows f_columns]; auto.
        * destruct (f_columns g); discriminate.
        * intros m w I. apply in_app_or in I as [I|[I|[]]].
          -- destruct (L3 _ _ I) as (J1 & x & J2 & J3). split; auto. exists x. split; [apply in_or_app; auto|auto].
          -- injection I as <- <-. split; auto. exists r. split; [apply in_or_app; right; left; auto|auto].
        * intros x I. rewrite map_app. apply in_app_or in I as [I|[<-|[]]].
          -- destruct (L4 x I) as (m & J1 & J2). exists m. split; auto. apply in_or_app; auto.
          -- exists n. split; auto. apply in_or_app. right. left. auto. }
  destruct (s_rules s ++ [r]) eqn:Z; [destruct (s_rules s); discriminate|auto].
Qed.

Lemma lined_append E l m f g : lined E l f -> lined E m g -> f_rows f = f_rows g ->
  lined E (l ++ m) (mkFrame (f_rows f) (f_columns f ++ f_columns g)).
Proof.
  intros [A1 A2 A3 A4] [B1 B2 B3 B4] R. constructor; cbn [f_rows f_columns]; auto.
  - destruct (f_columns f); [congruence|discriminate].
  - intros n v I. apply in_app_or in I as [I|I].
    + destruct (A3 _ _ I) as (L & r & Q & K). split; auto. exists r. split; [apply in_or_app; auto|auto].
    + destruct (B3 _ _ I) as (L & r & Q & K). split; [congruence|]. exists r. split; [apply in_or_app; auto|auto].
  - intros r I. rewrite map_app. apply in_app_or in I as [I|I]; [destruct (A4 r I) as (n & N & K)|destruct (B4 r I) as (n & N & K)];
      exists n; (split; [auto|apply in_or_app; auto]).
Qed.

Lemma add_set_aligned G t s s' : aligned (g_env G) (s_rules s) (s_stacked s) -> s_stack s = true ->
  aligned (g_env G) (s_rules t) (s_stacked t) -> united (s_rules t) (s_act t) ->
  add_set t s = (Ok tt, s') -> aligned (g_env G) (s_rules s') (s_stacked s').
Proof.
  intros A K B U H. pose proof (add_set_ok _ _ _ H) as JO. rewrite (jo_rules _ _ _ JO).
  assert (X : exists s3, s_stacked s3 = s_stacked s /\ update_stacked_set t s3 = (Ok tt, s')).
  { clear - H K. apply chain_ok in H as (s1 & H1 & H). apply chain_ok in H as (s2 & H2 & H). apply chain_ok in H as (s3 & H3 & H4).
    assert (E1 : s_stacked s1 = s_stacked s /\ s_stack s1 = s_stack s).
    { destruct (s_type s), (s_type t); try (injection H1 as <-; auto). destruct (kind_eqb _ _); [|discriminate]. injection H1 as <-. auto. }
    apply add_features_ok in H2 as (i & n & _ & _ & ->). cbn in H3.
    assert (E3 : s_stacked s3 = s_stacked s /\ s_stack s3 = s_stack s).
    { destruct (s_compute s1); [apply update_activation_ok in H3 as (o & _ & ->)|injection H3 as <-]; auto. }
    destruct E3 as (E3 & E4). rewrite E4, K in H4. exists s3. auto. }
  destruct X as (s3 & E3 & X). unfold update_stacked_set in X. intros P.
  assert (PR : forall q, In q (s_rules s) -> named (g_env G) q) by (intros; apply P; apply in_or_app; auto).
  assert (PT : forall q, In q (s_rules t) -> named (g_env G) q) by (intros; apply P; apply in_or_app; auto).
  assert (NT : s_rules t = [] \/ s_rules t <> []) by (destruct (s_rules t); [auto|right; discriminate]).
  destruct NT as [NT|NT].
  - rewrite NT, app_nil_r in *. assert (V : set_available t = false).
    { unfold set_available. destruct (united_empty _ U) as [E|(a & E & F)]; rewrite E; auto. unfold alen. rewrite F. auto. }
    rewrite V in X. injection X as <-. rewrite E3. apply A. auto.
  - destruct (aligned_nonempty _ _ _ NT B PT) as (g & EG & LG).
    destruct (united_nonempty _ _ NT U) as (a & EA & HA & _ & NA & _). { intros r R. apply PT. auto. }
    destruct (set_available_vector t a EA HA NA) as (V & _). rewrite V, E3, EG in X.
    assert (G1 : exists f0, s_stacked s' = Some f0 /\ lined (g_env G) (s_rules s ++ s_rules t) f0).
    { assert (NS : s_rules s = [] \/ s_rules s <> []) by (destruct (s_rules s); [auto|right; discriminate]).
      destruct NS as [NS|NS].
      - rewrite NS in *. cbn [app]. exists g. split; auto. destruct (aligned_empty _ _ A) as [E|E]; rewrite E in X; cbn in X; injection X as <-; auto.
      - destruct (aligned_nonempty _ _ _ NS A PR) as (f & EF & LF). rewrite EF in X.
        apply use_ok in X as (h & X & E). injection E as <-. cbn [s_stacked with_stacked]. exists h. split; auto.
        unfold concat_columns in X.
        assert (Z : forall E rules f, lined E rules f -> is_empty f = false).
        { clear. intros E rules f [L1 L2 _ _]. unfold is_empty. destruct (f_columns f); [congruence|]. apply Nat.eqb_neq. lia. }
        rewrite (Z _ _ _ LF), (Z _ _ _ LG) in X. destruct (f_rows f =? f_rows g)%nat eqn:Q; [|discriminate]. injection X as <-.
        apply lined_append; auto. apply Nat.eqb_eq. auto. }
    destruct (s_rules s ++ s_rules t) eqn:Z; [|auto]. apply app_eq_nil in Z as (_ & Z). congruence.
Qed.

(** ** Sort *)

Lemma set_sort_done G c b s s' : set_sort G c b s = (Ok tt, s') ->
  s' = s \/ exists l, Permutation (s_rules s) l /\ l <> [] /\ reorder G (with_rules l s) = (Ok tt, s').
Proof.
  unfold set_sort. destruct (s_rules s) as [|r t] eqn:R; [intros H; injection H as <-; auto|].
  assert (X : forall v, (forall l, v = Ok l -> Permutation (s_rules s) l) ->
    chain (use v (fun l s => done (with_rules l s)) s) (reorder G) = (Ok tt, s') ->
    exists l, Permutation (r :: t) l /\ l <> [] /\ reorder G (with_rules l s) = (Ok tt, s')).
  { intros v P H. apply chain_ok in H as (s1 & H1 & H2). apply use_ok in H1 as (l & -> & E). injection E as <-. exists l.
    rewrite <- R. split; auto. split; auto. intros ->. specialize (P [] eq_refl). apply Permutation_sym, Permutation_nil in P. congruence. }
  destruct (match c with None => "" | Some c => c end) as [|ch name] eqn:C.
  - destruct (has_condition r).
    + intros H. right. eapply X; [|exact H]. intros l. apply sort_by_features_perm.
    + intros H. injection H as <-. auto.
  - destruct (hasattr r (String ch name)) as [[]|]; try discriminate. rewrite <- R. intros H. right. rewrite R. eapply X; [|exact H].
    intros l. apply sort_by_attribute_perm.
Qed.

Lemma select_any names f g : select_columns names f = Ok g -> f_rows g = f_rows f /\
  (forall c, In c (f_columns g) -> In c (f_columns f)) /\ (forall n, In n names -> In n (map fst (f_columns g))).
Proof.
  unfold select_columns. destruct (rseq _) as [l|] eqn:R; [|discriminate]. cbn [rmap]. intros H. injection H as <-. cbn [f_rows f_columns].
  apply rseq_map_ok in R. destruct (forall2_in _ _ _ R) as (R1 & R2). split; auto. split.
  - intros c I. apply in_concat in I as (cs & I & J). destruct (R2 cs I) as (n & N & E).
    destruct (filter _ _) eqn:F in E; [discriminate|]. injection E as <-. rewrite <- F in J. apply filter_In in J. tauto.
  - intros n N. destruct (R1 n N) as (cs & I & E). destruct (filter _ _) as [|c t] eqn:F in E; [discriminate|]. injection E as <-.
    assert (K : In c (filter (fun c => str_eqb n (fst c)) (f_columns f))) by (rewrite F; left; auto).
    apply filter_In in K as (_ & K). apply String.eqb_eq in K. subst n. apply in_map. apply in_concat. exists (c :: t). split; [auto|left; auto].
Qed.

Lemma sort_aligned G c b s s' : aligned (g_env G) (s_rules s) (s_stacked s) -> s_stack s = true ->
  set_sort G c b s = (Ok tt, s') -> aligned (g_env G) (s_rules s') (s_stacked s').
Proof.
  intros A K H. apply set_sort_done in H as [->|(l & P & N & H)]; auto. unfold reorder in H. cbn [s_stack with_rules] in H. rewrite K in H.
  apply use_ok in H as (g & H & E). injection E as <-. cbn [s_stacked with_rules s_rules with_stacked] in *.
  destruct (s_stacked s) as [f|] eqn:F; [|discriminate]. destruct (rseq _) as [names|] eqn:R in H; [|discriminate]. cbn [rbind] in H.
  apply rseq_map_ok in R. apply select_any in H as (H1 & H2 & H3). destruct (forall2_in _ _ _ R) as (R1 & R2).
  intros Q. assert (NS : s_rules s <> []) by (intros Z; rewrite Z in P; apply Permutation_nil in P; congruence).
  destruct (aligned_nonempty _ _ _ NS A) as (f' & E & [L1 L2 L3 L4]). { intros r I. apply Q. apply (Permutation_in r P I). }
  injection E as <-.
  assert (G1 : lined (g_env G) l g).
  { constructor; [lia| | |].
    - destruct l as [|r l]; [congruence|]. destruct (R1 r (or_introl eq_refl)) as (n & I & _). specialize (H3 n I). intros Z. rewrite Z in H3. destruct H3.
    - intros n v I. destruct (L3 n v (H2 _ I)) as (J1 & r & J2 & J3). split; [congruence|]. exists r. split; auto. apply (Permutation_in r P J2).
    - intros r I. destruct (R1 r I) as (n & J1 & J2). exists n. auto. }
  destruct l; [congruence|eauto].
Qed.

(** ** Histories *)

Lemma new_set_aligned G rules compute s : new_set G rules compute true = Ok s -> aligned (g_env G) (s_rules s) (s_stacked s).
Proof.
  destruct rules as [l|].
  - intros H. apply new_set_ok in H as (B & _).
    eapply aligned_reindexed; [apply (bu_rules _ _ _ _ _ B)|]. apply (evaluate_stacked_aligned G (with_rules (the_rules l) s)). apply (bu_stacked _ _ _ _ _ B).
  - unfold new_set. cbn. intros H. destruct (g_check G); cbn in H; injection H as <-; intros _; left; auto.
Qed.

Lemma new_set_stack G rules compute stacking s : new_set G rules compute stacking = Ok s -> s_stack s = stacking.
Proof.
  destruct rules as [l|].
  - intros H. apply new_set_ok in H as (B & _). apply (bu_rest _ _ _ _ _ B).
  - unfold new_set. cbn. intros H. destruct (g_check G); cbn in H; injection H as <-; auto.
Qed.

Lemma set_calc_aligned G xs s s' : aligned (g_env G) (s_rules s) (s_stacked s) -> s_stack s = true ->
  set_calc_activation G xs s = (Ok tt, s') -> aligned (g_env G) (s_rules s') (s_stacked s').
Proof.
  unfold set_calc_activation. intros U C H. destruct (s_rules s) as [|r t] eqn:R; [discriminate|].
  destruct (nrows xs =? 0)%nat; [injection H as <-; rewrite R; auto|]. clear U.
  apply chain_ok in H as (s1 & H1 & H). apply chain_ok in H as (s2 & H2 & H3).
  unfold for_each in H1. destruct (each _ _) as ([[]|] & rules); [|discriminate]. injection H1 as <-.
  apply use_ok in H2 as (o & H2 & E). injection E as <-. cbn [s_stack with_activation with_rules] in H3. rewrite C in H3.
  apply use_ok in H3 as (f & H3 & E). injection E as <-. apply evaluate_stacked_aligned in H3. auto.
Qed.

Lemma calc_stack G xs s s' : set_calc_activation G xs s = (Ok tt, s') -> s_stack s' = s_stack s.
Proof.
  unfold set_calc_activation. intros H. destruct (s_rules s) as [|r t] eqn:R; [discriminate|].
  destruct (nrows xs =? 0)%nat; [injection H as <-; auto|].
  apply chain_ok in H as (s1 & H1 & H). apply chain_ok in H as (s2 & H2 & H3).
  unfold for_each in H1. destruct (each _ _) as ([[]|] & rules); [|discriminate]. injection H1 as <-.
  apply use_ok in H2 as (o & H2 & E). injection E as <-. cbn [s_stack with_activation with_rules] in H3. destruct (s_stack s) eqn:K.
  - apply use_ok in H3 as (f & H3 & E). injection E as <-. auto.
  - injection H3 as <-. auto.
Qed.

Lemma made_aligned G s : made G false s -> s_stack s = true -> aligned (g_env G) (s_rules s) (s_stacked s).
Proof.
  remember false as mixed. intros M. revert Heqmixed.
  induction M as [l stack s H|s r s' M IH H|s r s' M IH H|s t s' M IH M' IH' X H|s r s' M IH H|s t s' M IH M' IH' H|s a b c s' M IH H
                 |s l s' M IH H|s xs s' M IH H|s c b s' M IH H]; intros Q K.
  - rewrite (new_set_stack _ _ _ _ _ H) in K. subst. eapply new_set_aligned; eauto.
  - apply append_true in H as (s1 & H & ->). cbn in K |- *. apply (add_rule_aligned G r s s1); auto.
  - assert (KS : s_stack s = true) by (pose proof (ad_rest _ _ _ _ (add_rule_ok _ _ _ _ H)) as (_ & _ & _ & _ & E & _); congruence).
    apply (add_rule_aligned G r s s'); auto.
  - assert (KS : s_stack s = true) by (pose proof (jo_rest _ _ _ (add_set_ok _ _ _ H)) as (_ & _ & _ & _ & E & _); congruence).
    assert (KT : s_stack t = true) by (destruct X as [X|[X|X]]; congruence).
    apply (add_set_aligned G t s s'); auto. apply (made_united _ _ _ M').
  - unfold plus_rule in H. rewrite (new_set_stack _ _ _ _ _ H) in K. rewrite K in H. eapply new_set_aligned; eauto.
  - unfold plus_set in H. destruct (rule_set _ _) as [l|]; [|discriminate]. cbn [rbind] in H.
    rewrite (new_set_stack _ _ _ _ _ H) in K. rewrite K in H. eapply new_set_aligned; eauto.
  - unfold getitem_slice in H. destruct (slice_range _ _ _ _); [|discriminate]. cbn [rbind] in H. destruct (rseq _) in H; [|discriminate].
    cbn [rbind] in H. rewrite (new_set_stack _ _ _ _ _ H) in K. discriminate.
  - apply use_ok in H as (t & H & E). injection E as <-. cbn in K |- *. rewrite K in H. eapply new_set_aligned; eauto.
  - pose proof (calc_stack _ _ _ _ H) as E. apply (set_calc_aligned G xs s s'); auto; [apply IH; auto|]; congruence.
  - pose proof (set_sort_any G c b s) as (l & f & P & E & _). rewrite H in E. cbn in E. subst s'. cbn in K.
    apply (sort_aligned G c b s); auto.
Qed.

Lemma stacked_ok G s : made G false s -> s_stack s = true -> s_rules s <> [] ->
  (forall r, In r (s_rules s) -> present r /\ exists n, called (g_env G) r n) ->
  exists f, s_stacked s = Some f /\ columns_of (g_env G) (s_rules s) f.
Proof.
  intros M K N P. apply made_aligned in M; auto.
  destruct (aligned_nonempty _ _ _ N M) as (f & E & [L1 L2 L3 L4]).
  { intros r R. destruct (P r R) as (P1 & n & P2). split; auto. exists n. apply called_name. auto. }
  exists f. split; auto.
  assert (C : forall r n, In r (s_rules s) -> rule_name (g_env G) r = Ok n -> called (g_env G) r n).
  { intros r n R H. destruct (P r R) as (_ & m & Q). pose proof (called_name _ _ _ Q). congruence. }
  split.
  - intros n v I. destruct (L3 n v I) as (_ & r & R & Na & W). eauto.
  - intros r R. destruct (L4 r R) as (n & Na & I). apply in_map_iff in I as ((n', v) & E2 & I). cbn in E2. subst n'.
    exists n, v. split; auto. split; auto. apply (L3 _ _ I).
Qed.
