(** Proofs about the lists of conditions as objects: logical and. *)
From Coq Require Import List ZArith QArith Bool String Lia.
From Coq Require Import List.
From Verif Require Import Base Num CondModel TreeModel RefModel RefSpec RefProofs.
Import ListNotations.
Open Scope string_scope.
Open Scope list_scope.
Open Scope Z_scope.

(** ** Construction from new lists *)

Lemma r_rebuild_spec sett i m M n H o H' : r_rebuild sett i m M n H = (o, H') ->
  keeps H H' /\ rmap (view H') o = rebuild sett i m M n /\
  forall c, o = Ok c -> brand_new H H' c /\
    exists ri rm rM rn b, h_conds H' c = mkRobj (Some ri) (Some rm) (Some rM) (Some rn) b.
Proof.
  unfold r_rebuild. intros R.
  apply bindp_inv in R as (x & H1 & E1 & R). injection E1 as <- E1.
  assert (K1 : keeps H H1) by (rewrite <- E1; exact (new_ints_keeps i H)).
  assert (A1 : h_ints H1 (h_next H) = i /\ h_next H1 = S (h_next H)) by (rewrite <- E1; cbn; rewrite update_eq; auto). clear E1.
  apply bindp_inv in R as (x & H2 & E1 & R). injection E1 as <- E1.
  assert (K2 : keeps H1 H2) by (rewrite <- E1; exact (new_nums_keeps m H1)).
  assert (A2 : h_nums H2 (h_next H1) = m /\ h_next H2 = S (h_next H1)) by (rewrite <- E1; cbn; rewrite update_eq; auto). clear E1.
  apply bindp_inv in R as (x & H3 & E1 & R). injection E1 as <- E1.
  assert (K3 : keeps H2 H3) by (rewrite <- E1; exact (new_nums_keeps M H2)).
  assert (A3 : h_nums H3 (h_next H2) = M /\ h_next H3 = S (h_next H2)) by (rewrite <- E1; cbn; rewrite update_eq; auto). clear E1.
  apply bindp_inv in R as (x & H4 & E1 & R). injection E1 as <- E1.
  assert (K4 : keeps H3 H4) by (rewrite <- E1; exact (new_texts_keeps n H3)).
  assert (A4 : h_texts H4 (h_next H3) = n /\ h_next H4 = S (h_next H3)) by (rewrite <- E1; cbn; rewrite update_eq; auto). clear E1.
  destruct A1 as (A1 & N1), A2 as (A2 & N2), A3 as (A3 & N3), A4 as (A4 & N4).
  assert (B1 : h_ints H4 (h_next H) = i).
  { destruct (keeps_trans _ _ _ K2 (keeps_trans _ _ _ K3 K4)) as (_ & K). destruct (K (h_next H)) as (-> & _); [lia|auto]. }
  assert (B2 : h_nums H4 (h_next H1) = m).
  { destruct (keeps_trans _ _ _ K3 K4) as (_ & K). destruct (K (h_next H1)) as (_ & -> & _); [lia|auto]. }
  assert (B3 : h_nums H4 (h_next H2) = M).
  { destruct K4 as (_ & K). destruct (K (h_next H2)) as (_ & -> & _); [lia|auto]. }
  assert (K04 : keeps H H4) by exact (keeps_trans _ _ _ K1 (keeps_trans _ _ _ K2 (keeps_trans _ _ _ K3 K4))).
  apply r_build_spec in R; try (intros a A; injection A as <-; lia).
  destruct R as (K5 & V & C). split; [exact (keeps_trans _ _ _ K04 K5)|]. split.
  { rewrite V. unfold rebuild, ints_given, nums_given, texts_given. cbn [option_map]. rewrite B1, B2, B3, A4. reflexivity. }
  intros c ->. specialize (C c eq_refl). destruct C as (X & L & _ & W). specialize (W eq_refl).
  assert (P : brand_new H H' c).
  { match type of W with (if ?b then _ else _) => destruct b end.
    - apply (brand_new_from H H4); [lia|exact W].
    - destruct W as (W1 & W2 & W3 & W4). split; [exact X|]. split; [lia|].
      destruct W1 as [W1|(W1 & _)]; [|discriminate W1]. destruct W4 as [W4|(W4 & _)]; [|discriminate W4].
      destruct (h_conds H' c) as [ri rm rM rn b]. cbn in W1, W2, W3, W4. subst ri rm rM rn. split.
      + intros a A. apply holds_mk in A. destruct A as [A|[A|[A|A]]]; injection A as <-; lia.
      + cbn. intros a A B. injection A as <-. injection B as B. lia. }
  split; [exact P|].
  assert (Q : exists i m M n b, view H' c = mkCond (Some i) (Some m) (Some M) (Some n) b).
  { clear -V. cbn [rmap rbind] in V. unfold build, ints_given, nums_given, texts_given in V. cbn [option_map rbind] in V.
    repeat match type of V with context [if ?b then Err _ else _] => destruct b; [discriminate V|] end.
    match type of V with context [sort sett ?x] => destruct (sort sett x) as [v|e] eqn:S; [|discriminate V]; injection V as -> end.
    destruct (1 <? clen v)%nat eqn:L.
    - match type of S with sort sett ?x = _ => destruct (1 <? clen x)%nat eqn:L2 end.
      + destruct (sort_some _ _ _ S L2) as (? & ? & ? & ? & ->). repeat eexists.
      + rewrite (sort_short _ _ L2) in S. injection S as <-. repeat eexists.
    - match type of S with sort sett ?x = _ => destruct (1 <? clen x)%nat eqn:L2 end.
      + destruct (sort_some _ _ _ S L2) as (? & ? & ? & ? & ->). repeat eexists.
      + rewrite (sort_short _ _ L2) in S. injection S as <-. repeat eexists. }
  destruct Q as (? & ? & ? & ? & ? & Q). unfold view in Q. destruct (h_conds H' c) as [[ri|] [rm|] [rM|] [rn|] b]; try discriminate Q. repeat eexists.
Qed.

(** ** The loop *)

Lemma set_item_ok a i x H : (i < List.length (h_nums H a))%nat -> set_item a i x H = (Ok tt, put_nums a (set_nth i x (h_nums H a)) H).
Proof. intros L. unfold set_item. apply Nat.ltb_lt in L. rewrite L. auto. Qed.

Lemma set_nth_length A i (x : A) l : List.length (set_nth i x l) = List.length l.
Proof. revert i. induction l; intros [|i]; cbn; auto. Qed.

Lemma set_bounds_ok mins maxs : mins <> maxs -> forall ps lows highs H,
  Forall (fun p => p < List.length (h_nums H mins) /\ p < List.length (h_nums H maxs))%nat ps ->
  List.length lows = List.length ps -> List.length highs = List.length ps ->
  exists H', set_bounds mins maxs ps lows highs H = (Ok tt, H') /\ h_next H' = h_next H /\
    h_ints H' = h_ints H /\ h_texts H' = h_texts H /\ h_conds H' = h_conds H /\
    h_nums H' mins = assign ps lows (h_nums H mins) /\ h_nums H' maxs = assign ps highs (h_nums H maxs) /\
    forall a, a <> mins -> a <> maxs -> h_nums H' a = h_nums H a.
Proof.
  intros D. induction ps as [|p ps IH]; intros [|lo lows] [|hi highs] H F L1 L2; try discriminate.
  - exists H. cbn. auto 10.
  - inversion F as [|? ? (P1 & P2) F']; subst. cbn [set_bounds]. unfold bindp at 1. rewrite set_item_ok by auto.
    unfold bindp at 1. rewrite set_item_ok by (cbn; rewrite update_ne by auto; auto).
    destruct (IH lows highs (put_nums maxs (set_nth p hi (h_nums (put_nums mins (set_nth p lo (h_nums H mins)) H) maxs)) (put_nums mins (set_nth p lo (h_nums H mins)) H)))
      as (H' & E & N & I & T & C & A & B & O).
    + cbn. rewrite update_eq, (update_ne _ _ mins), update_eq, (update_ne _ _ maxs) by auto. rewrite !set_nth_length. exact F'.
    + injection L1 as L1. exact L1.
    + injection L2 as L2. exact L2.
    + exists H'. split; [exact E|]. split; [exact N|]. split; [exact I|]. split; [exact T|]. split; [exact C|].
      split; [rewrite A; cbn; rewrite (update_ne _ _ mins), update_eq by auto; reflexivity|].
      split; [rewrite B; cbn; rewrite update_eq, (update_ne _ _ maxs) by auto; reflexivity|].
      intros a A1 A2. rewrite O by auto. cbn. rewrite !update_ne by auto. reflexivity.
Qed.

(** ** Copies *)

Lemma copy_ints_spec o H r H' : there H o -> copy_ints o H = (r, H') ->
  keeps H H' /\ exists o', r = Ok o' /\ option_map (h_ints H') o' = option_map (h_ints H) o /\ there H' o' /\
    forall a, o' = Some a -> (h_next H <= a)%nat.
Proof.
  intros T R. destruct o as [a|]; cbn in R; injection R as <- <-.
  - split; [exact (new_ints_keeps _ _)|]. eexists. split; [reflexivity|]. cbn. rewrite update_eq. split; [auto|].
    split; intros b B; injection B as <-; cbn; lia.
  - split; [apply keeps_refl|]. exists None. split; [auto|]. split; [auto|]. split; intros b B; discriminate B.
Qed.

Lemma copy_nums_spec o H r H' : there H o -> copy_nums o H = (r, H') ->
  keeps H H' /\ exists o', r = Ok o' /\ option_map (h_nums H') o' = option_map (h_nums H) o /\ there H' o' /\
    forall a, o' = Some a -> (h_next H <= a)%nat.
Proof.
  intros T R. destruct o as [a|]; cbn in R; injection R as <- <-.
  - split; [exact (new_nums_keeps _ _)|]. eexists. split; [reflexivity|]. cbn. rewrite update_eq. split; [auto|].
    split; intros b B; injection B as <-; cbn; lia.
  - split; [apply keeps_refl|]. exists None. split; [auto|]. split; [auto|]. split; intros b B; discriminate B.
Qed.

Lemma copy_texts_spec o H r H' : there H o -> copy_texts o H = (r, H') ->
  keeps H H' /\ exists o', r = Ok o' /\ option_map (h_texts H') o' = option_map (h_texts H) o /\ there H' o' /\
    forall a, o' = Some a -> (h_next H <= a)%nat.
Proof.
  intros T R. destruct o as [a|]; cbn in R; injection R as <- <-.
  - split; [exact (new_texts_keeps _ _)|]. eexists. split; [reflexivity|]. cbn. rewrite update_eq. split; [auto|].
    split; intros b B; injection B as <-; cbn; lia.
  - split; [apply keeps_refl|]. exists None. split; [auto|]. split; [auto|]. split; intros b B; discriminate B.
Qed.

Lemma there_kept H H' o : keeps H H' -> there H o -> there H' o.
Proof. intros (L & _) T a A. specialize (T a A). lia. Qed.

Lemma ints_kept H H' o : keeps H H' -> there H o -> option_map (h_ints H') o = option_map (h_ints H) o.
Proof. intros (_ & K) T. destruct o as [a|]; cbn; auto. destruct (K a (T a eq_refl)) as (-> & _). auto. Qed.
Lemma nums_kept H H' o : keeps H H' -> there H o -> option_map (h_nums H') o = option_map (h_nums H) o.
Proof. intros (_ & K) T. destruct o as [a|]; cbn; auto. destruct (K a (T a eq_refl)) as (_ & -> & _). auto. Qed.
Lemma texts_kept H H' o : keeps H H' -> there H o -> option_map (h_texts H') o = option_map (h_texts H) o.
Proof. intros (_ & K) T. destruct o as [a|]; cbn; auto. destruct (K a (T a eq_refl)) as (_ & _ & -> & _). auto. Qed.

Lemma lists_there H c : exists_in H c -> there H (o_idx (h_conds H c)) /\ there H (o_min (h_conds H c)) /\
  there H (o_max (h_conds H c)) /\ there H (o_names (h_conds H c)).
Proof.
  intros (_ & V). split; [|split; [|split]]; intros a A; apply V.
  - left. constructor; auto.
  - right; left. constructor; auto.
  - right; left. constructor 2; auto.
  - right; right. constructor; auto.
Qed.

(** ** Logical and *)

Lemma build_complete sett i m M n s v : build sett i m M n false s = Ok v ->
  exists i m M n b, v = mkCond (Some i) (Some m) (Some M) (Some n) b.
Proof.
  unfold build. destruct m as [m|]; [|discriminate]. destruct M as [M|]; [|discriminate]. intros V.
  match type of V with rbind ?x _ = _ => destruct x as [j|e]; [|discriminate V] end. cbn [rbind] in V. cbv zeta in V.
  repeat match type of V with context [if ?b then Err _ else _] => destruct b; [discriminate V|] end.
  destruct s; [|injection V as <-; repeat eexists].
  match type of V with sort sett ?x = _ => destruct (1 <? clen x)%nat eqn:L2 end.
  - destruct (sort_some _ _ _ V L2) as (? & ? & ? & ? & ->). repeat eexists.
  - rewrite (sort_short _ _ L2) in V. injection V as <-. repeat eexists.
Qed.

Lemma rseq_facts A B (f : A -> res B) l m : rseq (map f l) = Ok m -> List.length m = List.length l /\ Forall (fun a => exists b, f a = Ok b) l.
Proof.
  revert m. induction l as [|a l IH]; cbn; intros m E; [injection E as <-; auto|].
  destruct (f a) as [b|] eqn:F; [|discriminate E]. cbn in E. destruct (rseq (map f l)) as [t|]; [|discriminate E]. cbn in E.
  injection E as <-. destruct (IH t eq_refl) as (L & P). cbn. split; [auto|]. constructor; eauto.
Qed.

Lemma pick_facts A (l : list A) ps xs : pick l ps = Ok xs -> List.length xs = List.length ps /\ Forall (fun p => p < List.length l)%nat ps.
Proof.
  intros E. apply rseq_facts in E as (L & F). split; [exact L|]. revert F. apply Forall_impl. intros p (b & E). unfold at_pos in E.
  destruct (nth_error l p) eqn:N; [|discriminate E]. apply nth_error_Some. congruence.
Qed.

Lemma intersect_facts snam onam common sidx smin smax oidx omin omax spos lows highs rest :
  intersect snam onam common sidx smin smax oidx omin omax = Ok (spos, lows, highs, rest) ->
  Forall (fun p => p < List.length smin /\ p < List.length smax)%nat spos /\
  List.length lows = List.length spos /\ List.length highs = List.length spos.
Proof.
  unfold intersect. intros E.
  destruct (positions snam common) as [sp|] eqn:E1; [|discriminate E]. cbn [rbind] in E.
  destruct (positions onam common) as [op|] eqn:E2; [|discriminate E]. cbn [rbind] in E.
  destruct oidx as [oi|]; [|discriminate E]. cbn [rbind] in E.
  destruct omin as [om|]; [|discriminate E]. cbn [rbind] in E.
  destruct omax as [oM|]; [|discriminate E]. cbn [rbind] in E.
  destruct (pick sidx sp) as [p1|] eqn:P1; [|discriminate E]. cbn [rbind] in E.
  destruct (pick smin sp) as [p2|] eqn:P2; [|discriminate E]. cbn [rbind] in E.
  destruct (pick smax sp) as [p3|] eqn:P3; [|discriminate E]. cbn [rbind] in E.
  destruct (pick oi op) as [p4|] eqn:P4; [|discriminate E]. cbn [rbind] in E.
  destruct (pick om op) as [p5|] eqn:P5; [|discriminate E]. cbn [rbind] in E.
  destruct (pick oM op) as [p6|] eqn:P6; [|discriminate E]. cbn [rbind] in E.
  destruct (negb (list_eqb Z.eqb p1 p4)); [discriminate E|]. cbv zeta in E.
  destruct (drop_at oi op); [|discriminate E]. cbn [rbind] in E.
  destruct (drop_at om op); [|discriminate E]. cbn [rbind] in E.
  destruct (drop_at oM op); [|discriminate E]. cbn [rbind] in E.
  injection E as -> <- <- _.
  apply pick_facts in P2 as (L2 & F2), P3 as (L3 & F3), P5 as (L5 & _), P6 as (L6 & _).
  apply rseq_facts in E1 as (L1 & _), E2 as (L4 & _).
  split; [rewrite Forall_forall in *; auto|]. rewrite !map_length, !combine_length. lia.
Qed.

Lemma intersect_band A snam onam common sidx smin smax oidx omin omax
    (k : list num -> list num -> list nat -> list num -> list num -> list Z -> list num -> list num -> list string -> res A) :
  rbind (positions snam common) (fun spos =>
  rbind (positions onam common) (fun opos =>
  rbind oidx (fun oidx =>
  rbind omin (fun omin =>
  rbind omax (fun omax =>
  rbind (pick sidx spos) (fun si =>
  rbind (pick smin spos) (fun sl =>
  rbind (pick smax spos) (fun sh =>
  rbind (pick oidx opos) (fun oi =>
  rbind (pick omin opos) (fun ol =>
  rbind (pick omax opos) (fun oh =>
  if negb (list_eqb Z.eqb si oi) then Err EIndex
  else
    let lows := map (fun p => py_max (fst p) (snd p)) (combine sl ol) in
    let highs := map (fun p => py_min (fst p) (snd p)) (combine sh oh) in
    rbind (drop_at oidx opos) (fun idx =>
    let names := filter (fun f => negb (mem str_eqb f common)) onam in
    rbind (drop_at omin opos) (fun mins =>
    rbind (drop_at omax opos) (fun maxs => k smin smax spos lows highs idx mins maxs names)))))))))))))) =
  rbind (intersect snam onam common sidx smin smax oidx omin omax) (fun x =>
    let '(spos, lows, highs, (idx, mins, maxs, names)) := x in k smin smax spos lows highs idx mins maxs names).
Proof.
  unfold intersect.
  destruct (positions snam common) as [sp|]; [|reflexivity]. cbn [rbind].
  destruct (positions onam common) as [op|]; [|reflexivity]. cbn [rbind].
  destruct oidx as [oi|]; [|reflexivity]. cbn [rbind].
  destruct omin as [om|]; [|reflexivity]. cbn [rbind].
  destruct omax as [oM|]; [|reflexivity]. cbn [rbind].
  destruct (pick sidx sp) as [p1|]; [|reflexivity]. cbn [rbind].
  destruct (pick smin sp) as [p2|]; [|reflexivity]. cbn [rbind].
  destruct (pick smax sp) as [p3|]; [|reflexivity]. cbn [rbind].
  destruct (pick oi op) as [p4|]; [|reflexivity]. cbn [rbind].
  destruct (pick om op) as [p5|]; [|reflexivity]. cbn [rbind].
  destruct (pick oM op) as [p6|]; [|reflexivity]. cbn [rbind].
  destruct (negb (list_eqb Z.eqb p1 p4)); [reflexivity|]. cbv zeta.
  destruct (drop_at oi op); [|reflexivity]. cbn [rbind].
  destruct (drop_at om op); [|reflexivity]. cbn [rbind].
  destruct (drop_at oM op); reflexivity.
Qed.

Definition finish (sett : settings) (sidx : list Z) (snam : list string) (smin smax : list num) (other_clone : cond) : res cond :=
  rbind (need (c_idx other_clone)) (fun oidx =>
  rbind (need (c_min other_clone)) (fun omin =>
  rbind (need (c_max other_clone)) (fun omax =>
  rbind (need (c_names other_clone)) (fun onam =>
  if has_dup Z.eqb (sidx ++ oidx) then Err EIndex
  else rebuild sett (sidx ++ oidx) (smin ++ omin) (smax ++ omax) (snam ++ onam))))).

Lemma band_unfold sett sidx smin smax snam b other self :
  build sett (option_map (map AInt) (c_idx self)) (option_map (map AFloat) (c_min self))
    (option_map (map AFloat) (c_max self)) (option_map (map AStr) (c_names self)) false true =
    Ok (mkCond (Some sidx) (Some smin) (Some smax) (Some snam) b) ->
  band sett self other =
  rbind (match c_names other with Some l => Ok l | None => match snam with [] => Ok [] | _ => Err EType end end) (fun onam =>
  let common := filter (fun f => mem str_eqb f onam) snam in
  match common with
  | [] => finish sett sidx snam smin smax other
  | _ => rbind (intersect snam onam common sidx smin smax (need (c_idx other)) (need (c_min other)) (need (c_max other))) (fun x =>
         let '(spos, lows, highs, (idx, mins, maxs, names)) := x in
         rbind (rebuild sett idx mins maxs names) (fun oc => finish sett sidx snam (assign spos lows smin) (assign spos highs smax) oc))
  end).
Proof.
  intros B. unfold band. rewrite B. cbn [rbind c_idx c_min c_max c_names need].
  destruct (match c_names other with Some l => Ok l | None => match snam with [] => Ok [] | _ => Err EType end end) as [onam|e]; [|reflexivity].
  cbn [rbind]. cbv zeta. destruct (filter (fun f => mem str_eqb f onam) snam) as [|f0 fs]; [reflexivity|].
  pose proof (intersect_band _ snam onam (f0 :: fs) sidx smin smax (need (c_idx other)) (need (c_min other)) (need (c_max other))
    (fun smin smax spos lows highs idx mins maxs names => rbind (rebuild sett idx mins maxs names) (fun oc => Ok (assign spos lows smin, assign spos highs smax, oc)))) as P.
  cbv zeta in P. rewrite P. clear P.
  destruct (intersect _ _ _ _ _ _ _ _ _) as [[[[spos lows] highs] [[[idx mins] maxs] names]]|e]; [|reflexivity]. cbn [rbind].
  destruct (rebuild sett idx mins maxs names) as [oc|e]; [|reflexivity]. cbn [rbind]. reflexivity.
Qed.

Lemma given_ints H o : ints_given H o = option_map (map AInt) (option_map (h_ints H) o).
Proof. destruct o; auto. Qed.
Lemma given_nums H o : nums_given H o = option_map (map AFloat) (option_map (h_nums H) o).
Proof. destruct o; auto. Qed.
Lemma given_texts H o : texts_given H o = option_map (map AStr) (option_map (h_texts H) o).
Proof. destruct o; auto. Qed.

Lemma view_fields H c : c_idx (view H c) = option_map (h_ints H) (o_idx (h_conds H c)) /\
  c_min (view H c) = option_map (h_nums H) (o_min (h_conds H c)) /\
  c_max (view H c) = option_map (h_nums H) (o_max (h_conds H c)) /\
  c_names (view H c) = option_map (h_texts H) (o_names (h_conds H c)).
Proof. unfold view, deref. cbn. auto. Qed.

(** The last lines, with the lists of the clone at [ri], [rm], [rM], [rn] *)
Lemma r_finish_spec sett ri rm rM rn oc H o H' : exists_in H oc ->
  (oc0 <- get_cond oc;
   oidx <- lift (need (o_idx oc0));
   omin <- lift (need (o_min oc0));
   omax <- lift (need (o_max oc0));
   onam <- lift (need (o_names oc0));
   args <- (fun H => (Ok (h_ints H ri ++ h_ints H oidx, h_nums H rm ++ h_nums H omin,
                          h_nums H rM ++ h_nums H omax, h_texts H rn ++ h_texts H onam), H));
   let '(idx, mins, maxs, names) := args in
   if has_dup Z.eqb idx then raise EIndex
   else r_rebuild sett idx mins maxs names) H = (o, H') ->
  keeps H H' /\ rmap (view H') o = finish sett (h_ints H ri) (h_texts H rn) (h_nums H rm) (h_nums H rM) (view H oc) /\
  forall c, o = Ok c -> brand_new H H' c.
Proof.
  intros X R. unfold finish. destruct (view_fields H oc) as (-> & -> & -> & ->).
  apply bindp_inv in R as (x & H1 & E & R). injection E as <- <-.
  destruct (h_conds H oc) as [[ai|] [am|] [aM|] [an|] b]; cbn [o_idx o_min o_max o_names option_map need rbind] in *;
    try (cbn in R; injection R as <- <-; split; [apply keeps_refl|]; split; [reflexivity|discriminate]).
  apply bindp_inv in R as (x & H1 & E & R). injection E as <- <-.
  apply bindp_inv in R as (x & H1 & E & R). injection E as <- <-.
  apply bindp_inv in R as (x & H1 & E & R). injection E as <- <-.
  apply bindp_inv in R as (x & H1 & E & R). injection E as <- <-.
  apply bindp_inv in R as (x & H1 & E & R). injection E as <- <-.
  destruct (has_dup Z.eqb (h_ints H ri ++ h_ints H ai)).
  - injection R as <- <-. split; [apply keeps_refl|]. split; [reflexivity|discriminate].
  - apply r_rebuild_spec in R as (K & V & C). split; [exact K|]. split; [exact V|]. intros c E. apply (C c E).
Qed.

Lemma r_band_spec sett a b H o H' : exists_in H a -> exists_in H b -> r_band sett a b H = (o, H') ->
  keeps H H' /\ rmap (view H') o = band sett (view H a) (view H b) /\ forall c, o = Ok c -> brand_new H H' c.
Proof.
  intros Xa Xb R. destruct (lists_there _ _ Xa) as (Ti & Tm & TM & Tn).
  unfold r_band in R.
  apply bindp_inv in R as (x & H1 & E & R). injection E as <- <-.
  apply bindp_inv in R as (x & H1 & E & R). destruct (copy_ints_spec _ _ _ _ Ti E) as (K1 & ci & -> & V1 & T1 & L1). clear E.
  apply bindp_inv in R as (x & H2 & E & R).
  destruct (copy_nums_spec _ _ _ _ (there_kept _ _ _ K1 Tm) E) as (K2 & cm & -> & V2 & T2 & L2). clear E.
  apply bindp_inv in R as (x & H3 & E & R). pose proof (keeps_trans _ _ _ K1 K2) as K02.
  destruct (copy_nums_spec _ _ _ _ (there_kept _ _ _ K02 TM) E) as (K3 & cM & -> & V3 & T3 & L3). clear E.
  apply bindp_inv in R as (x & H4 & E & R). pose proof (keeps_trans _ _ _ K02 K3) as K03.
  destruct (copy_texts_spec _ _ _ _ (there_kept _ _ _ K03 Tn) E) as (K4 & cn & -> & V4 & T4 & L4). clear E.
  pose proof (keeps_trans _ _ _ K03 K4) as K04.
  rewrite (nums_kept _ _ _ K1 Tm) in V2. rewrite (nums_kept _ _ _ K02 TM) in V3. rewrite (texts_kept _ _ _ K03 Tn) in V4.
  pose proof (keeps_trans _ _ _ K3 K4) as K24. pose proof (keeps_trans _ _ _ K2 K24) as K14.
  rewrite <- (ints_kept _ _ _ K14 T1) in V1. rewrite <- (nums_kept _ _ _ K24 T2) in V2. rewrite <- (nums_kept _ _ _ K4 T3) in V3.
  apply bindp_inv in R as (x & H5 & E & R).
  apply r_build_spec in E; [|exact (there_kept _ _ _ K14 T1)|exact (there_kept _ _ _ K24 T2)|exact (there_kept _ _ _ K4 T3)|exact T4].
  destruct E as (K5 & V5 & C5). rewrite given_ints, !given_nums, given_texts, V1, V2, V3, V4 in V5.
  pose proof (keeps_trans _ _ _ K04 K5) as K05.
  destruct (view_fields H a) as (F1 & F2 & F3 & F4). rewrite <- F1, <- F2, <- F3, <- F4 in V5.
  destruct x as [sc|e].
  2:{ destruct R as (-> & ->). split; [exact K05|]. split; [|discriminate]. unfold band. rewrite <- V5. reflexivity. }
  cbn [rmap] in V5. symmetry in V5. destruct (build_complete _ _ _ _ _ _ _ V5) as (si & sm & sM & sn & bb & Vc). rewrite Vc in V5.
  rewrite (band_unfold _ _ _ _ _ _ _ _ V5).
  destruct (C5 sc eq_refl) as (X5 & Lsc & _ & W). specialize (W eq_refl).
  assert (Q : exists ri rm rM rn, h_conds H5 sc = mkRobj (Some ri) (Some rm) (Some rM) (Some rn) bb /\
     h_ints H5 ri = si /\ h_nums H5 rm = sm /\ h_nums H5 rM = sM /\ h_texts H5 rn = sn).
  { unfold view in Vc. destruct (h_conds H5 sc) as [[ri|] [rm|] [rM|] [rn|] b0]; try discriminate Vc.
    cbn in Vc. injection Vc as <- <- <- <- <-. exists ri, rm, rM, rn. auto. }
  destruct Q as (ri & rm & rM & rn & Q & Qi & Qm & QM & Qn).
  assert (N : (h_next H <= rm)%nat /\ (h_next H <= rM)%nat /\ rm <> rM).
  { match type of W with (if ?c then _ else _) => destruct c end.
    - destruct W as (_ & _ & W & D). rewrite Q in W, D. cbn in D. pose proof (proj1 K04).
      pose proof (W rm) as W1. pose proof (W rM) as W2. rewrite !holds_mk in W1, W2.
      split; [enough (h_next H4 <= rm)%nat by lia; apply W1; auto|].
      split; [enough (h_next H4 <= rM)%nat by lia; apply W2; auto|]. intros ->. exact (D rM eq_refl eq_refl).
    - destruct W as (_ & W1 & W2 & _). rewrite Q in W1, W2. cbn in W1, W2. subst cm cM.
      specialize (L2 _ eq_refl). specialize (L3 _ eq_refl). specialize (T2 _ eq_refl). pose proof (proj1 K1). pose proof (proj1 K02).
      split; [lia|]. split; [lia|]. lia. }
  destruct N as (Nm & NM & Nd). clear W C5.
  assert (Lr : (rm < h_next H5)%nat /\ (rM < h_next H5)%nat /\ (ri < h_next H5)%nat /\ (rn < h_next H5)%nat).
  { destruct X5 as (_ & X5). rewrite Q in X5. split; [apply X5, holds_mk; auto|]. split; [apply X5, holds_mk; auto|].
    split; apply X5, holds_mk; auto. }
  apply bindp_inv in R as (x & H6 & E & R). injection E as <- <-. rewrite Q in R. cbn [o_idx o_min o_max o_names need] in R.
  apply bindp_inv in R as (x & H6 & E & R). injection E as <- <-.
  apply bindp_inv in R as (x & H6 & E & R). injection E as <- <-.
  apply bindp_inv in R as (x & H6 & E & R). injection E as <- <-.
  apply bindp_inv in R as (x & H6 & E & R). injection E as <- <-.
  apply bindp_inv in R as (x & H6 & E & R). injection E as <- <-.
  apply bindp_inv in R as (x & H6 & E & R). injection E as <- <-. rewrite Qn in R.
  pose proof (exists_kept _ _ _ K05 Xb) as Xb5. pose proof (view_kept _ _ _ K05 Xb) as Vb. rewrite <- Vb.
  destruct (view_fields H5 b) as (G1 & G2 & G3 & G4).
  apply bindp_inv in R as (x & H6 & E & R).
  assert (T : x = match c_names (view H5 b) with Some l => Ok l | None => match sn with [] => Ok [] | _ => Err EType end end /\ H6 = H5).
  { rewrite G4. destruct (o_names (h_conds H5 b)) as [an|]; [injection E as <- <-; auto|]. destruct sn; injection E as <- <-; auto. }
  destruct T as (-> & ->). clear E.
  destruct (match c_names (view H5 b) with Some l => Ok l | None => match sn with [] => Ok [] | _ => Err EType end end) as [onam|e].
  2:{ destruct R as (-> & ->). split; [exact K05|]. split; [reflexivity|discriminate]. }
  cbn [rbind]. cbv zeta in R |- *. destruct (filter (fun f => mem str_eqb f onam) sn) as [|f0 fs].
  - apply bindp_inv in R as (x & H6 & E & R). injection E as <- <-.
    apply r_finish_spec in R; [|exact Xb5]. rewrite Qi, Qm, QM, Qn in R. destruct R as (K6 & V6 & C6).
    split; [exact (keeps_trans _ _ _ K05 K6)|]. split; [exact V6|]. intros c E. apply (brand_new_from H H5); [exact (proj1 K05)|auto].
  - apply bindp_inv in R as (x & H6 & E & R). apply bindp_inv in E as (y & H7 & I & E). injection I as <- <-.
    rewrite Qi, Qm, QM in E.
    assert (Y : forall A B (f : A -> B) p, rmap f (need p) = need (option_map f p)) by (intros; destruct p; auto).
    rewrite !Y, <- G1, <- G2, <- G3 in E.
    destruct (intersect sn onam (f0 :: fs) si sm sM (need (c_idx (view H5 b))) (need (c_min (view H5 b))) (need (c_max (view H5 b))))
      as [[[[spos lows] highs] [[[idx mins] maxs] names]]|e] eqn:I.
    2:{ destruct E as (-> & ->). destruct R as (-> & ->). split; [exact K05|]. split; [reflexivity|discriminate]. }
    cbn [rbind].
    apply bindp_inv in E as (y & H7 & E7 & E). apply r_rebuild_spec in E7 as (K7 & V7 & C7).
    destruct y as [oc|e].
    2:{ destruct E as (-> & ->). destruct R as (-> & ->). rewrite <- V7. split; [exact (keeps_trans _ _ _ K05 K7)|]. split; [reflexivity|discriminate]. }
    cbn [rmap] in V7. rewrite <- V7. cbn [rbind]. destruct (C7 oc eq_refl) as (N7 & _). clear C7.
    destruct (intersect_facts _ _ _ _ _ _ _ _ _ _ _ _ _ I) as (Fp & Ll & Lh).
    pose proof (proj2 K7) as K7'.
    assert (Sm : h_nums H7 rm = sm) by (destruct (K7' rm) as (_ & -> & _); [lia|auto]).
    assert (SM : h_nums H7 rM = sM) by (destruct (K7' rM) as (_ & -> & _); [lia|auto]).
    assert (Si : h_ints H7 ri = si) by (destruct (K7' ri) as (-> & _); [lia|auto]).
    assert (Sn : h_texts H7 rn = sn) by (destruct (K7' rn) as (_ & _ & -> & _); [lia|auto]).
    destruct (set_bounds_ok rm rM Nd spos lows highs H7) as (H8 & E8 & N8 & J1 & J2 & J3 & J4 & J5 & J6); [rewrite Sm, SM; exact Fp|auto|auto|].
    apply bindp_inv in E as (y & H9 & E9 & E). rewrite E8 in E9. injection E9 as <- <-. injection E as <- <-.
    pose proof (keeps_trans _ _ _ K05 K7) as K07.
    assert (K08 : keeps H H8).
    { destruct K07 as (Lk & Kk). split; [rewrite N8; exact Lk|]. intros z Z. rewrite J1, J2, J3, J6 by lia. auto. }
    assert (Dm : forall z, holds (h_conds H7 oc) z -> z <> rm /\ z <> rM).
    { intros z Z. destruct N7 as (_ & _ & N7 & _). specialize (N7 z Z). lia. }
    assert (V8 : view H8 oc = view H7 oc).
    { unfold view. rewrite J3. unfold deref. rewrite J1, J2. f_equal.
      - destruct (o_min (h_conds H7 oc)) as [z|] eqn:Z; cbn; auto. f_equal. destruct (Dm z) as (? & ?); [right; left; constructor; auto|]. auto.
      - destruct (o_max (h_conds H7 oc)) as [z|] eqn:Z; cbn; auto. f_equal. destruct (Dm z) as (? & ?); [right; left; constructor 2; auto|]. auto. }
    apply r_finish_spec in R.
    2:{ destruct N7 as ((X7 & X7') & _). split; [rewrite N8; exact X7|]. rewrite J3, N8. exact X7'. }
    rewrite J1, J2, J4, J5, Si, Sn, Sm, SM, V8 in R. destruct R as (K9 & V9 & C9).
    split; [exact (keeps_trans _ _ _ K08 K9)|]. split; [exact V9|]. intros c E. apply (brand_new_from H H8); [exact (proj1 K08)|auto].
Qed.
