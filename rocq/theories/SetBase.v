(** Basic facts about the steps of rulesets. *)
From Coq Require Import List ZArith QArith Bool String Ascii Permutation Lia.
From Coq Require Import List.
From Verif Require Import Base Num CondModel CondSpec CondBase ThrModel ThrProofs MetModel MetSpec RuleModel RuleSpec RuleProofs.
From Verif Require Import PredModel PredSpec SetModel SetSpec.
Import ListNotations.
Open Scope string_scope.
Open Scope list_scope.
Open Scope Z_scope.

Lemma chain_ok {A} m (f : ruleset -> res A * ruleset) x s' :
  chain m f = (Ok x, s') -> exists s, m = (Ok tt, s) /\ f s = (Ok x, s').
Proof. destruct m as [[[]|e] s]; cbn; intros H; [eauto|discriminate]. Qed.

Lemma use_ok {A B} (v : res A) (f : A -> ruleset -> res B * ruleset) s x s' :
  use v f s = (Ok x, s') -> exists a, v = Ok a /\ f a s = (Ok x, s').
Proof. destruct v; cbn; intros H; [eauto|discriminate]. Qed.

Ltac inv H := inversion H; subst; clear H.

(** ** Steps of an addition *)

Lemma add_features_ok ind nam s s' : add_features ind nam s = (Ok tt, s') ->
  exists i n, ind = Ok (Some i) /\ nam = Ok (Some n) /\
    s' = with_names (set_of str_eqb (s_names s ++ n)) (with_idx (set_of Z.eqb (s_idx s ++ i)) s).
Proof.
  intros H. apply chain_ok in H as (s1 & H1 & H2). apply use_ok in H1 as (l & H1 & H3). inv H3.
  apply use_ok in H2 as (m & H2 & H4). inv H4.
  destruct ind as [[i|]|]; try discriminate. destruct nam as [[n|]|]; try discriminate.
  cbn in H1, H2. inv H1. inv H2. exists i, n. auto.
Qed.

(** How the activation of a ruleset changes *)
Inductive updated (av : bool) (vec : res (option (list Z))) (act : option activation) (old : option activation)
    : option activation -> Prop :=
| up_same : av = false -> updated av vec act old old
| up_first v : av = true -> (old = None \/ exists a, old = Some a /\ v_bits a = []) -> vec = Ok (Some v) ->
    updated av vec act old (Some (new_activation v))
| up_or a b c : av = true -> old = Some a -> v_bits a <> [] -> act = Some b -> act_or a b = Ok c ->
    updated av vec act old (Some c).

Lemma alen_zero a : (alen a =? 0) = true -> v_bits a = [].
Proof. unfold alen. intros H. apply Z.eqb_eq in H. destruct (v_bits a); auto. cbn [List.length] in H. lia. Qed.

Lemma alen_pos a : (alen a =? 0) = false -> v_bits a <> [].
Proof. unfold alen. intros H. apply Z.eqb_neq in H. intros E. rewrite E in H. cbn in H. lia. Qed.

Lemma alen_nonempty a : v_bits a <> [] -> (alen a =? 0) = false.
Proof. intros H. unfold alen. apply Z.eqb_neq. destruct (v_bits a); [congruence|]. cbn [List.length]. lia. Qed.

Lemma update_activation_ok av vec act s s' : update_activation av vec act s = (Ok tt, s') ->
  exists o, updated av vec act (s_act s) o /\ s' = with_activation o s.
Proof.
  unfold update_activation. destruct av.
  - intros H. apply use_ok in H as (a & H & E). inv E. exists (Some a). split; auto.
    assert (F : rbind vec (fun o => match o with Some v => Ok (new_activation v) | None => Err EType end) = Ok a ->
                (s_act s = None \/ exists a, s_act s = Some a /\ v_bits a = []) -> updated true vec act (s_act s) (Some a)).
    { intros K L. destruct vec as [[v|]|]; try discriminate. inv K. eapply up_first; eauto. }
    destruct (s_act s) as [b|] eqn:E; [|auto].
    destruct (alen b =? 0) eqn:Z; [apply F; eauto using alen_zero|].
    destruct act as [c|]; [|discriminate]. eapply up_or; eauto using alen_pos.
  - intros H. inv H. exists (s_act s'). split; [constructor; auto|destruct s'; auto].
Qed.

Lemma update_stacked_rule_ok G r s s' : update_stacked_rule G r s = (Ok tt, s') -> exists o, s' = with_stacked o s.
Proof.
  unfold update_stacked_rule. destruct (activation_available r).
  - intros H. apply use_ok in H as (f & H & E). inv E. eauto.
  - intros H. inv H. exists (s_stacked s'). destruct s'; auto.
Qed.

Lemma update_stacked_set_ok t s s' : update_stacked_set t s = (Ok tt, s') -> exists o, s' = with_stacked o s.
Proof.
  unfold update_stacked_set. destruct (set_available t).
  - destruct (s_stacked s) as [f|] eqn:F.
    + destruct (s_stacked t) as [g|].
      * intros H. apply use_ok in H as (h & H & E). inv E. eauto.
      * intros H. inv H. exists (s_stacked s'). destruct s'; auto.
    + intros H. inv H. eauto.
  - intros H. inv H. exists (s_stacked s'). destruct s'; auto.
Qed.

(** ** Additions *)

Lemma isinstance_spec r t : isinstance (r_kind r) t = true <-> instance r t.
Proof.
  unfold instance. destruct t, (r_kind r); cbn; split; intros; auto; try discriminate;
    destruct H; try discriminate; auto.
Qed.

Lemma kind_eqb_spec k t : kind_eqb k t = true <-> k = t.
Proof. destruct k, t; cbn; split; intros; auto; discriminate. Qed.

Definition type_after (s : ruleset) (k : kind) : kind := match s_type s with Some t => t | None => k end.

Record added (G : setup) (r : rule) (s s' : ruleset) : Prop := mkAdded {
  ad_rules : s_rules s' = s_rules s ++ [r];
  ad_type : s_type s' = Some (type_after s (r_kind r));
  ad_inst : instance r (type_after s (r_kind r));
  ad_feat : exists c i n, r_cond r = Some c /\ c_idx c = Some i /\ c_names c = Some n /\
            s_idx s' = set_of Z.eqb (s_idx s ++ i) /\ s_names s' = set_of str_eqb (s_names s ++ n);
  ad_act : if s_compute s then updated (activation_available r) (activation_vector r) (r_act r) (s_act s) (s_act s')
           else s_act s' = s_act s;
  ad_stacked : s_stack s = false -> s_stacked s' = s_stacked s;
  ad_rest : s_coverage s' = s_coverage s /\ s_criterion s' = s_criterion s /\ s_train s' = s_train s /\
            s_test s' = s_test s /\ s_stack s' = s_stack s /\ s_compute s' = s_compute s }.

Lemma add_rule_ok G r s s' : add_rule G r s = (Ok tt, s') -> added G r s s'.
Proof.
  intros H. apply chain_ok in H as (s1 & H1 & H). apply chain_ok in H as (s2 & H2 & H). apply chain_ok in H as (s3 & H3 & H4).
  assert (T : s1 = with_type (Some (type_after s (r_kind r))) s /\ instance r (type_after s (r_kind r))).
  { unfold type_after. destruct (s_type s) as [t|] eqn:T.
    - destruct (isinstance (r_kind r) t) eqn:I; inv H1. apply isinstance_spec in I. split; auto.
      destruct s1; cbn in *; subst; auto.
    - inv H1. split; auto. right; auto. }
  destruct T as (-> & I). apply add_features_ok in H2 as (i & n & Hi & Hn & ->).
  unfold rule_indexes in Hi. unfold rule_names in Hn. destruct (r_cond r) as [c|] eqn:C; [|discriminate].
  injection Hi as Hi. injection Hn as Hn. cbn in H3.
  assert (A : exists o, s3 = with_activation o (with_names (set_of str_eqb (s_names s ++ n)) (with_idx (set_of Z.eqb (s_idx s ++ i))
              (with_rules (s_rules s ++ [r]) (with_type (Some (type_after s (r_kind r))) s)))) /\
              if s_compute s then updated (activation_available r) (activation_vector r) (r_act r) (s_act s) o else o = s_act s).
  { destruct (s_compute s).
    - apply update_activation_ok in H3 as (o & U & ->). exists o. split; auto.
    - inv H3. exists (s_act s). auto. }
  destruct A as (o & -> & U).
  assert (S4 : (s_stack s = false -> s_stacked s' = s_stacked s) /\ exists f,
    s' = with_stacked f (with_activation o (with_names (set_of str_eqb (s_names s ++ n)) (with_idx (set_of Z.eqb (s_idx s ++ i))
              (with_rules (s_rules s ++ [r]) (with_type (Some (type_after s (r_kind r))) s)))))).
  { cbn in H4. destruct (s_stack s).
    - split; [discriminate|]. apply update_stacked_rule_ok in H4 as (f & ->). eauto.
    - inv H4. split; auto. exists (s_stacked s). auto. }
  destruct S4 as (S4 & f & ->). constructor; cbn; auto.
  - exists c, i, n. repeat (split; auto).
  - repeat (split; auto).
Qed.

Record joined (t s s' : ruleset) : Prop := mkJoined {
  jo_rules : s_rules s' = s_rules s ++ s_rules t;
  jo_type : s_type s' = match s_type s with Some k => Some k | None => s_type t end;
  jo_same : forall k k', s_type s = Some k -> s_type t = Some k' -> k = k';
  jo_idx : s_idx s' = set_of Z.eqb (s_idx s ++ s_idx t);
  jo_names : s_names s' = set_of str_eqb (s_names s ++ s_names t);
  jo_act : if s_compute s then updated (set_available t) (set_vector t) (s_act t) (s_act s) (s_act s')
           else s_act s' = s_act s;
  jo_stacked : s_stack s = false -> s_stacked s' = s_stacked s;
  jo_rest : s_coverage s' = s_coverage s /\ s_criterion s' = s_criterion s /\ s_train s' = s_train s /\
            s_test s' = s_test s /\ s_stack s' = s_stack s /\ s_compute s' = s_compute s }.

Lemma add_set_ok t s s' : add_set t s = (Ok tt, s') -> joined t s s'.
Proof.
  intros H. apply chain_ok in H as (s1 & H1 & H). apply chain_ok in H as (s2 & H2 & H). apply chain_ok in H as (s3 & H3 & H4).
  set (ty := match s_type s with Some k => Some k | None => s_type t end).
  assert (T : s1 = with_type ty s /\ forall k k', s_type s = Some k -> s_type t = Some k' -> k = k').
  { unfold ty. destruct (s_type s) as [k|] eqn:T, (s_type t) as [k'|] eqn:T'.
    - destruct (kind_eqb k k') eqn:I; inv H1. apply kind_eqb_spec in I. subst. split; [destruct s1; cbn in *; subst; auto|congruence].
    - inv H1. split; [destruct s1; cbn in *; subst; auto|discriminate].
    - inv H1. split; [auto|discriminate].
    - inv H1. split; [destruct s1; cbn in *; subst; auto|discriminate]. }
  destruct T as (-> & I). apply add_features_ok in H2 as (i & n & Hi & Hn & ->). injection Hi as <-. injection Hn as <-. cbn in H3.
  assert (A : exists o, s3 = with_activation o (with_names (set_of str_eqb (s_names s ++ s_names t)) (with_idx (set_of Z.eqb (s_idx s ++ s_idx t))
              (with_rules (s_rules s ++ s_rules t) (with_type ty s)))) /\
              if s_compute s then updated (set_available t) (set_vector t) (s_act t) (s_act s) o else o = s_act s).
  { destruct (s_compute s).
    - apply update_activation_ok in H3 as (o & U & ->). exists o. split; auto.
    - inv H3. exists (s_act s). auto. }
  destruct A as (o & -> & U).
  assert (S4 : (s_stack s = false -> s_stacked s' = s_stacked s) /\ exists f,
    s' = with_stacked f (with_activation o (with_names (set_of str_eqb (s_names s ++ s_names t)) (with_idx (set_of Z.eqb (s_idx s ++ s_idx t))
              (with_rules (s_rules s ++ s_rules t) (with_type ty s)))))).
  { cbn in H4. destruct (s_stack s).
    - split; [discriminate|]. apply update_stacked_set_ok in H4 as (f & ->). eauto.
    - inv H4. split; auto. exists (s_stacked s). auto. }
  destruct S4 as (S4 & f & ->). constructor; cbn; auto.
  - repeat (split; auto).
Qed.

(** append *)
Lemma append_true G r s s' : append G (ERule r) true s = (Ok tt, s') ->
  exists s1, add_rule G r s = (Ok tt, s1) /\ s' = with_stack (s_stack s) (with_compute true s1).
Proof. intros H. apply chain_ok in H as (s1 & H1 & H2). inv H2. eauto. Qed.

Lemma append_false G r s s' : append G (ERule r) false s = (Ok tt, s') ->
  exists s1, add_rule G r (with_stack false (with_compute false s)) = (Ok tt, s1) /\ s' = with_stack (s_stack s) (with_compute true s1).
Proof. intros H. apply chain_ok in H as (s1 & H1 & H2). inv H2. eauto. Qed.

(** ** Construction *)

Definition the_rules (l : list element) : list rule :=
  flat_map (fun e => match e with ERule r => [r] | _ => [] end) l.

Lemma the_rules_map l : the_rules (map ERule l) = l.
Proof. induction l; cbn; [auto|f_equal; auto]. Qed.

(** What a series of appends without update does *)
Record extended (l : list rule) (s s' : ruleset) : Prop := mkExtended {
  ex_rules : s_rules s' = s_rules s ++ l;
  ex_type : match l with [] => s_type s' = s_type s
            | r :: _ => s_type s' = Some (type_after s (r_kind r)) /\
                        forall r', In r' l -> instance r' (type_after s (r_kind r)) end;
  ex_cond : forall r, In r l -> exists c i n, r_cond r = Some c /\ c_idx c = Some i /\ c_names c = Some n;
  ex_idx : forall x, In x (s_idx s') <-> In x (s_idx s) \/ feature_index l x;
  ex_nodup : NoDup (s_idx s) -> NoDup (s_idx s');
  ex_act : s_act s' = s_act s;
  ex_stacked : s_stacked s' = s_stacked s;
  ex_rest : s_coverage s' = s_coverage s /\ s_criterion s' = s_criterion s /\ s_train s' = s_train s /\
            s_test s' = s_test s /\ s_stack s' = s_stack s /\ (s_compute s = true -> s_compute s' = true) }.

Lemma z_eqb_spec (x y : Z) : (x =? y) = true <-> x = y.
Proof. apply Z.eqb_eq. Qed.

Lemma str_eqb_iff (x y : string) : str_eqb x y = true <-> x = y.
Proof. apply String.eqb_eq. Qed.

Lemma set_of_NoDup {A} (eqb : A -> A -> bool) (E : forall x y, eqb x y = true <-> x = y) l : NoDup (set_of eqb l).
Proof.
  induction l as [|x l IH]; cbn; [constructor|]. destruct (mem eqb x (set_of eqb l)) eqn:M; auto.
  constructor; auto. intros K. apply (mem_spec _ E) in K. congruence.
Qed.

Lemma append_extends G r s s' : append G (ERule r) false s = (Ok tt, s') -> extended [r] s s'.
Proof.
  intros H. apply append_false in H as (s1 & H & ->). apply add_rule_ok in H.
  destruct H as [R T I (c & i & n & C & Ci & Cn & Ei & En) A St (B1 & B2 & B3 & B4 & B5 & B6)]. cbn in *.
  constructor; cbn; auto.
  - split; [exact T|]. intros r' [->|[]]; auto.
  - intros r' [<-|[]]. eauto 6.
  - intros x. rewrite Ei. rewrite (set_of_In _ z_eqb_spec). rewrite in_app_iff. split; (intros [K|K]; [auto|right]).
    + exists r, c, i. cbn; auto.
    + destruct K as (r' & c' & i' & [<-|[]] & K1 & K2 & K3). congruence.
  - intros _. rewrite Ei. apply (set_of_NoDup _ z_eqb_spec).
  - repeat (split; auto).
Qed.

Lemma append_all_extends G l s s' : append_all G l s = (Ok tt, s') -> extended (the_rules l) s s' /\ ~ In EOther l.
Proof.
  revert s. induction l as [|e l IH]; intros s H; cbn [append_all] in H.
  - inv H. split; [|intros []]. constructor; cbn; try rewrite app_nil_r; auto.
    + intros r [].
    + intros x. split; auto. intros [K|(r & _ & _ & [] & _)]; auto.
    + repeat (split; auto).
  - destruct e as [r| |].
    + apply chain_ok in H as (s1 & H1 & H2). apply append_extends in H1. apply IH in H2 as (H2 & N).
      split; [|intros [K|K]; [discriminate|auto]].
      destruct H1 as [R1 T1 C1 X1 D1 A1 S1 (B1 & B2 & B3 & B4 & B5 & B6)], H2 as [R2 T2 C2 X2 D2 A2 S2 (E1 & E2 & E3 & E4 & E5 & E6)].
      destruct T1 as (T1 & I1). cbn [the_rules flat_map app]. fold (the_rules l). constructor; cbn; try congruence.
      * rewrite R2, R1, <- app_assoc. auto.
      * split.
        { destruct (the_rules l) as [|r2 t]; [congruence|]. destruct T2 as (T2 & _). rewrite T2. f_equal. unfold type_after at 1. rewrite T1. auto. }
        intros r' [<-|K]; [apply I1; left; auto|]. destruct (the_rules l) as [|r2 t]; [destruct K|].
        destruct T2 as (_ & T2). specialize (T2 r' K). unfold type_after at 1 in T2. rewrite T1 in T2. auto.
      * intros r' [<-|K]; [apply C1; left; auto|apply C2; auto].
      * intros x. rewrite X2, X1. split.
        { intros [[K|(r' & c & i & [<-|[]] & K)]|(r' & c & i & L & K)]; auto; right; [exists r, c, i|exists r', c, i]; cbn; tauto. }
        { intros [K|(r' & c & i & [<-|L] & K)]; auto; [left; right; exists r, c, i|right; exists r', c, i]; cbn; tauto. }
      * auto.
      * repeat (split; try congruence). auto.
    + apply IH in H as (H & N). split; [exact H|]. intros [K|K]; [discriminate|auto].
    + discriminate.
Qed.

(** The same rule, up to the indexes of its features *)
Record reindexed (r r' : rule) : Prop := mkReindexed {
  re_kind : r_kind r' = r_kind r;
  re_act : r_act r' = r_act r;
  re_dict : r_dict r' = r_dict r;
  re_flags : r_fitted r' = r_fitted r /\ r_evaluated r' = r_evaluated r /\ r_thr r' = r_thr r /\
             r_good r' = r_good r /\ r_bad r' = r_bad r;
  re_cond : exists c c' l, r_cond r = Some c /\ r_cond r' = Some c' /\ c_min c' = c_min c /\ c_max c' = c_max c /\
            c_names c' = c_names c /\ c_imp c' = c_imp c /\ c_idx c' = Some l }.

Record built (G : setup) (l : list rule) (compute stacking : bool) (s : ruleset) : Prop := mkBuilt {
  bu_rules : Forall2 reindexed l (s_rules s);
  bu_same : g_indexes G = [] -> s_rules s = l;
  bu_type : match l with [] => s_type s = None
            | r :: _ => s_type s = Some (r_kind r) /\ forall r', In r' l -> instance r' (r_kind r) end;
  bu_names : forall f, In f (s_names s) <-> feature_name (s_rules s) f;
  bu_nodup : NoDup (s_names s);
  bu_idx : forall i, In i (s_idx s) <-> feature_index (s_rules s) i;
  bu_act : if compute then evaluate_self_activation None (with_rules l s) = Ok (s_act s) else s_act s = None;
  bu_stacked : if stacking then evaluate_stacked_activations G None (with_rules l s) = Ok (s_stacked s) else s_stacked s = None;
  bu_cond : forall r, In r l -> exists c i n, r_cond r = Some c /\ c_idx c = Some i /\ c_names c = Some n;
  bu_rest : s_coverage s = none /\ s_criterion s = none /\ s_train s = none /\ s_test s = none /\
            s_stack s = stacking /\ s_compute s = true }.

Lemma rseq_map_ok {A B} (f : A -> res B) l m : rseq (map f l) = Ok m -> Forall2 (fun a b => f a = Ok b) l m.
Proof.
  revert m. induction l as [|a l IH]; cbn; intros m H; [inv H; constructor|].
  destruct (f a) as [b|] eqn:E; [|discriminate]. destruct (rseq (map f l)) as [t|]; [|discriminate].
  inv H. constructor; auto.
Qed.

Lemma forall2_in {A B} (P : A -> B -> Prop) l m : Forall2 P l m ->
  (forall a, In a l -> exists b, In b m /\ P a b) /\ (forall b, In b m -> exists a, In a l /\ P a b).
Proof.
  induction 1 as [|a b l m H F (IH1 & IH2)]; [split; intros ? []|]. split.
  - intros x [<-|K]; [exists b; cbn; auto|]. destruct (IH1 x K) as (y & K1 & K2). exists y; cbn; auto.
  - intros x [<-|K]; [exists a; cbn; auto|]. destruct (IH2 x K) as (y & K1 & K2). exists y; cbn; auto.
Qed.

Lemma reindexed_refl r c i : r_cond r = Some c -> c_idx c = Some i -> reindexed r r.
Proof. intros H K. constructor; auto. exists c, c, i. repeat (split; auto). Qed.

Lemma forall2_diag {A} (P : A -> A -> Prop) l : (forall a, In a l -> P a a) -> Forall2 P l l.
Proof. induction l; intros H; constructor; [apply H; left; auto|apply IHl; intros; apply H; right; auto]. Qed.

Lemma names_reindexed l m f : Forall2 reindexed l m -> feature_name l f <-> feature_name m f.
Proof.
  intros F. destruct (forall2_in _ _ _ F) as (F1 & F2). split.
  - intros (r & c & n & R & C & N & I). destruct (F1 _ R) as (r' & R' & [_ _ _ _ (c1 & c2 & i & C1 & C2 & _ & _ & E & _)]).
    exists r', c2, n. assert (c1 = c) as -> by congruence. repeat (split; auto). congruence.
  - intros (r & c & n & R & C & N & I). destruct (F2 _ R) as (r' & R' & [_ _ _ _ (c1 & c2 & i & C1 & C2 & _ & _ & E & _)]).
    exists r', c1, n. assert (c2 = c) as -> by congruence. repeat (split; auto). congruence.
Qed.

Lemma renumber_ok G r r' : renumber G r = Ok r' -> reindexed r r' /\
  exists c n, r_cond r = Some c /\ c_names c = Some n /\
  r' = mkRule (r_kind r) (Some (mkCond (Some (map (fun f => match dget f (g_indexes G) with Some i => i | None => 0 end) n))
               (c_min c) (c_max c) (c_names c) (c_imp c))) (r_act r) (r_thr r)
               (r_good r) (r_bad r) (r_fitted r) (r_evaluated r) (r_dict r) /\
  forall f, In f n -> dget f (g_indexes G) <> None.
Proof.
  unfold renumber. destruct (r_cond r) as [c|] eqn:C; [|discriminate]. destruct (c_names c) as [n|] eqn:N; [|discriminate].
  cbn [need rbind]. intros H. destruct (rseq _) as [l|] eqn:L in H; [|discriminate]. cbn in H. injection H as <-.
  apply rseq_map_ok in L.
  assert (E : l = map (fun f => match dget f (g_indexes G) with Some i => i | None => 0 end) n /\
              forall f, In f n -> dget f (g_indexes G) <> None).
  { clear - L. induction L as [|f i n l H F (IH & IH')]; [split; [auto|intros f []]|].
    cbn. destruct (dget f (g_indexes G)) eqn:D; inv H. split; [auto|]. intros g [<-|K]; [congruence|auto]. }
  destruct E as (-> & E). split.
  - constructor; cbn; auto. exists c. eexists. eexists. cbn. repeat (split; auto).
  - exists c, n. repeat (split; auto). rewrite N. auto.
Qed.

Lemma init_ok G s s' : (forall f, In f (s_names s) <-> feature_name (s_rules s) f) ->
  (forall i, In i (s_idx s) <-> feature_index (s_rules s) i) ->
  (forall r, In r (s_rules s) -> exists c i n, r_cond r = Some c /\ c_idx c = Some i /\ c_names c = Some n) ->
  init_features_indexes G s = (Ok tt, s') ->
  Forall2 reindexed (s_rules s) (s_rules s') /\ (g_indexes G = [] -> s_rules s' = s_rules s) /\
  (forall i, In i (s_idx s') <-> feature_index (s_rules s') i) /\
  exists l m, s' = with_rules l (with_idx m s).
Proof.
  intros HN HI HC H. unfold init_features_indexes in H. destruct (g_indexes G) as [|p t] eqn:E.
  - injection H as <-. split; [apply forall2_diag; intros r K; destruct (HC r K) as (c & i & n & C & I & _); eapply reindexed_refl; eauto|].
    split; auto. split; auto. exists (s_rules s), (s_idx s). destruct s; auto.
  - rewrite <- E in H. apply use_ok in H as (m & H1 & H). apply use_ok in H as (l & H2 & H). injection H as <-. cbn [with_idx s_rules] in H2.
    apply rseq_map_ok in H1, H2.
    assert (F : Forall2 reindexed (s_rules s) l).
    { clear - H2. induction H2; constructor; auto. eapply renumber_ok; eauto. }
    split; [exact F|]. split; [congruence|]. split; [|eauto].
    cbn. intros i. destruct (forall2_in _ _ _ H1) as (D1 & D2). destruct (forall2_in _ _ _ H2) as (R1 & R2). split.
    + intros K. destruct (D2 _ K) as (f & K1 & K2). apply HN in K1 as (r & c & n & R & C & N & I).
      destruct (R1 _ R) as (r' & R' & Q). apply renumber_ok in Q as (_ & c' & n' & C' & N' & -> & _).
      eexists _, _, _. split; [exact R'|]. cbn. split; [reflexivity|]. split; [reflexivity|].
      assert (c' = c) as -> by congruence. assert (n' = n) as -> by congruence. apply in_map_iff. exists f. split; auto.
      destruct (dget f (g_indexes G)); congruence.
    + intros (r' & c' & n' & R' & C' & N' & I). destruct (R2 _ R') as (r & R & Q).
      apply renumber_ok in Q as (_ & c & n & C & N & -> & _). cbn in C'. injection C' as <-. cbn in N'. injection N' as <-.
      apply in_map_iff in I as (f & I & K). assert (K' : In f (s_names s)) by (apply HN; exists r, c, n; auto).
      destruct (D1 _ K') as (j & J1 & J2). destruct (dget f (g_indexes G)); [|discriminate]. congruence.
Qed.

Lemma new_set_ok G rules compute stacking s : new_set G (Some rules) compute stacking = Ok s ->
  built G (the_rules rules) compute stacking s /\ ~ In EOther rules /\
  (g_check G = true -> check_duplicated_rules G (s_rules s) (uses_names s) = Ok tt).
Proof.
  unfold new_set. intros H.
  match type of H with (let (o, s) := ?m in _) = _ => destruct m as [[[]|] s0] eqn:M end; [|discriminate].
  cbn [rbind] in H.
  assert (s0 = s /\ (g_check G = true -> check_duplicated_rules G (s_rules s) (uses_names s) = Ok tt)) as (-> & K).
  { destruct (g_check G); [|split; [congruence|discriminate]].
    destruct (check_duplicated_rules G (s_rules s0) (uses_names s0)) as [[]|] eqn:D; [|discriminate].
    injection H as ->. auto. }
  clear H. apply chain_ok in M as (s1 & M1 & M). apply chain_ok in M as (s2 & M2 & M).
  apply chain_ok in M as (s3 & M3 & M). apply chain_ok in M as (s4 & M4 & M).
  apply append_all_extends in M1 as (X & N). split; [|auto].
  destruct X as [R T C Xi D A St (B1 & B2 & B3 & B4 & B5 & B6)]. cbn in R, T, Xi, A, St, B1, B2, B3, B4, B5, B6.
  set (l := the_rules rules) in *.
  assert (P2 : exists o, s2 = with_activation o s1 /\ if compute then evaluate_self_activation None (with_rules l s) = Ok o else o = None).
  { destruct compute.
    - apply use_ok in M2 as (o & M2 & E). injection E as <-. exists o. split; auto. rewrite <- M2.
      unfold evaluate_self_activation. cbn. rewrite R. auto.
    - injection M2 as <-. exists None. split; auto. destruct s1; cbn in *; subst; auto. }
  destruct P2 as (o & -> & P2).
  assert (P3 : exists f, s3 = with_stacked f (with_activation o s1) /\
               if stacking then evaluate_stacked_activations G None (with_rules l s) = Ok f else f = None).
  { destruct stacking.
    - apply use_ok in M3 as (f & M3 & E). injection E as <-. exists f. split; auto. rewrite <- M3.
      unfold evaluate_stacked_activations. cbn. rewrite R. auto.
    - injection M3 as <-. exists None. split; auto. destruct s1; cbn in *; subst; auto. }
  destruct P3 as (f & -> & P3).
  apply use_ok in M4 as (nn & M4 & E). injection E as <-. cbn [s_rules with_stacked with_activation] in M4.
  rewrite R in M4. apply rseq_map_ok in M4.
  assert (F : forall x, In x (set_of str_eqb (concat nn)) <-> feature_name (s_rules s1) x).
  { intros x. rewrite R, (set_of_In _ str_eqb_iff), in_concat. destruct (forall2_in _ _ _ M4) as (F1 & F2). split.
    - intros (n & K1 & K2). destruct (F2 _ K1) as (r & K3 & K4). unfold rule_names in K4.
      destruct (r_cond r) as [c|] eqn:E; [|discriminate]. cbn in K4. destruct (c_names c) eqn:E2; [|discriminate].
      injection K4 as ->. exists r, c, n. auto.
    - intros (r & c & n & K1 & K2 & K3 & K4). destruct (F1 _ K1) as (b & K5 & K6). exists b. split; auto.
      unfold rule_names in K6. rewrite K2 in K6. cbn in K6. rewrite K3 in K6. injection K6 as <-. auto. }
  apply init_ok in M; cbn.
  - destruct M as (M1 & M5 & M6 & lr & li & ->). cbn in *. rewrite R in M1, M5. constructor; cbn; auto.
    + intros x. rewrite F, R. apply names_reindexed. auto.
    + apply (set_of_NoDup _ str_eqb_iff).
    + repeat (split; auto).
  - exact F.
  - intros i. rewrite Xi, R. split; [intros [[]|L]|]; auto.
  - rewrite R. auto.
Qed.
