(** The profile along a run of a method (lemmas). *)
From Coq Require Import Decimal DecimalString DecimalZ ZArith QArith Bool String Ascii List Lia.
From Verif Require Import Base ActModel ActSpec ActObs ActCodec ActRep ActAccess ActBuild ActProf ActHold
  ActCountSpec.
Import ListNotations.
Open Scope Z_scope.

Lemma op_eqb_dec : forall a b, op_eqb a b = if op_eq_dec a b then true else false.
Proof. intros [] []; reflexivity. Qed.
Lemma szk_eqb_true : forall a b, szk_eqb a b = true <-> a = b.
Proof. intros [] []; split; intros H; reflexivity || discriminate H. Qed.

(** What changed in the profile between two states: the conversions counted and
    timed, the sizes that are now recorded. *)
Definition effp (w : world) (v : vec) (a : act) (t : op -> bool) (c : op -> nat) (s : szk -> option Z)
    (l : list op) (ks : list szk) : Prop :=
  (forall o, c o = (a_cnt a o + count_occ op_eq_dec l o)%nat) /\
  (forall o, t o = true <-> a_time a o = true \/ In o l) /\
  (forall k, In k ks -> s k <> None) /\
  (forall k, s k = a_size a k \/ exists z, s k = Some z /\ right_size w v k z).
Notation eff w v a a' := (effp w v a (a_time a') (a_cnt a') (a_size a')) (only parsing).

Lemma mkEff : forall w v a t c s l ks,
  (forall o, c o = (a_cnt a o + count_occ op_eq_dec l o)%nat) ->
  (forall o, t o = true <-> a_time a o = true \/ In o l) ->
  (forall k, In k ks -> s k <> None) ->
  (forall k, s k = a_size a k \/ exists z, s k = Some z /\ right_size w v k z) ->
  effp w v a t c s l ks.
Proof. intros; split; [assumption|]. split; [assumption|]. split; assumption. Qed.
Lemma e_cnt : forall w v a t c s l ks, effp w v a t c s l ks ->
  forall o, c o = (a_cnt a o + count_occ op_eq_dec l o)%nat.
Proof. intros w v a t c s l ks H. apply H. Qed.
Lemma e_time : forall w v a t c s l ks, effp w v a t c s l ks ->
  forall o, t o = true <-> a_time a o = true \/ In o l.
Proof. intros w v a t c s l ks H. apply H. Qed.
Lemma e_set : forall w v a t c s l ks, effp w v a t c s l ks -> forall k, In k ks -> s k <> None.
Proof. intros w v a t c s l ks H. apply H. Qed.
Lemma e_size : forall w v a t c s l ks, effp w v a t c s l ks ->
  forall k, s k = a_size a k \/ exists z, s k = Some z /\ right_size w v k z.
Proof. intros w v a t c s l ks H. apply H. Qed.

Lemma eff_refl : forall w v a, eff w v a a [] [].
Proof. intros w v a; apply mkEff; cbn; intuition. Qed.
Lemma eff_same : forall w v a a' b l ks, eff w v a a' l ks ->
  a_cnt b = a_cnt a' -> a_time b = a_time a' -> a_size b = a_size a' -> eff w v a b l ks.
Proof. intros w v a a' b l ks H E1 E2 E3. rewrite E1, E2, E3. exact H. Qed.
Lemma e_kept : forall w v a t c s l ks, effp w v a t c s l ks ->
  forall k, a_size a k <> None -> s k <> None.
Proof. intros w v a t c s l ks E k H. destruct (e_size _ _ _ _ _ _ _ _ E k) as [-> |(z & -> & _)]; [exact H|discriminate]. Qed.
Lemma eff_trans : forall w v a b t c s l l' ks ks', eff w v a b l ks -> effp w v b t c s l' ks' ->
  effp w v a t c s (l ++ l') (ks ++ ks').
Proof.
  intros w v a b t c s l l' ks ks' H1 H2. apply mkEff.
  - intros o. rewrite (e_cnt _ _ _ _ _ _ _ _ H2), (e_cnt _ _ _ _ _ _ _ _ H1), count_occ_app. lia.
  - intros o. rewrite (e_time _ _ _ _ _ _ _ _ H2), (e_time _ _ _ _ _ _ _ _ H1), in_app_iff. tauto.
  - intros k Hk. apply in_app_iff in Hk as [Hk|Hk]; [|apply (e_set _ _ _ _ _ _ _ _ H2), Hk].
    apply (e_kept _ _ _ _ _ _ _ _ H2), (e_set _ _ _ _ _ _ _ _ H1), Hk.
  - intros k. destruct (e_size _ _ _ _ _ _ _ _ H2 k) as [E|E]; [|right; exact E].
    rewrite E. apply (e_size _ _ _ _ _ _ _ _ H1).
Qed.
Lemma eff_after : forall w v a b t c s l l' ks ks', effp w v b t c s l' ks' -> eff w v a b l ks ->
  effp w v a t c s (l ++ l') (ks ++ ks').
Proof. intros w v a b t c s l l' ks ks' H1 H2. eapply eff_trans; [exact H2|exact H1]. Qed.
Lemma eff_incl : forall w v a t c s l ks ks', effp w v a t c s l ks -> incl ks' ks -> effp w v a t c s l ks'.
Proof. intros w v a t c s l ks ks' (EC & ET & ES & EZ) I. apply mkEff; auto. Qed.

Section Track.
Context (w : world) (v : vec).
Notation fs := (w_fs w).
Notation eff a a' := (eff w v a a').
Notation effp := (effp w v).

Lemma eff_stamp : forall a0 t c s l ks o, effp a0 t c s l ks ->
  effp a0 (fun o' => if op_eqb o' o then true else t o')
          (fun o' => if op_eqb o' o then S (c o') else c o') s (l ++ [o]) ks.
Proof.
  intros a0 t c s l ks o (EC & ET & ES & EZ). apply mkEff; auto.
  - intros o'. rewrite count_occ_app, op_eqb_dec. cbn [count_occ].
    destruct (op_eq_dec o' o) as [E|N]; destruct (op_eq_dec o o') as [E'|N']; try congruence; rewrite EC; lia.
  - intros o'. rewrite op_eqb_dec, in_app_iff. cbn [In].
    destruct (op_eq_dec o' o) as [E|N]; [subst; tauto|]. rewrite ET. split; [tauto|].
    intros [H|[H|[H|[]]]]; auto; congruence.
Qed.
Lemma eff_size : forall a0 t c s l ks k z, effp a0 t c s l ks -> right_size w v k z ->
  effp a0 t c (fun s' => if szk_eqb s' k then Some z else s s') l (k :: ks).
Proof.
  intros a0 t c s l ks k z (EC & ET & ES & EZ) R. apply mkEff; auto.
  - intros k' H. destruct (szk_eqb k' k) eqn:E; [discriminate|].
    destruct H as [<-|H]; [|auto]. exfalso. rewrite (proj2 (szk_eqb_true k k) eq_refl) in E. discriminate.
  - intros k'. destruct (szk_eqb k' k) eqn:E; [|apply EZ]. apply szk_eqb_true in E as ->. right. eauto.
Qed.

Lemma tr_stamp : forall a0 l ks o (Q : unit -> act -> world -> Prop) a w',
  eff a0 a l ks ->
  (forall t c s, effp a0 t c s (l ++ [o]) ks -> Q tt (reprof t c s a) w') ->
  wp (stamp_bump o) Q a w'.
Proof.
  intros a0 l ks o Q a w' E H. unfold stamp_bump. apply wp_upd. apply (H _ _ _ (eff_stamp _ _ _ _ _ _ o E)).
Qed.
Lemma tr_set_size : forall a0 l ks k z (Q : unit -> act -> world -> Prop) a w',
  eff a0 a l ks -> right_size w v k z ->
  (forall t c s, effp a0 t c s l (k :: ks) -> Q tt (reprof t c s a) w') ->
  wp (upd (set_size k z)) Q a w'.
Proof. intros a0 l ks k z Q a w' E R H. apply wp_upd. exact (H _ _ _ (eff_size _ _ _ _ _ _ _ _ E R)). Qed.
Lemma tr_rec_size : forall a0 l ks k d (Q : unit -> act -> world -> Prop) a w',
  eff a0 a l ks -> right_size w v k (w_size w' d) ->
  (forall t c s, effp a0 t c s l (k :: ks) -> Q tt (reprof t c s a) w') ->
  wp (rec_size k d) Q a w'.
Proof. intros a0 l ks k d Q a w' E R H. unfold rec_size. apply wp_bind, wp_getw. eapply tr_set_size; eauto. Qed.
Lemma tr_rec_size_if_unset : forall a0 l ks k d (Q : unit -> act -> world -> Prop) a w',
  eff a0 a l ks -> right_size w v k (w_size w' d) ->
  (forall t c s, effp a0 t c s l (k :: ks) -> Q tt (reprof t c s a) w') ->
  wp (rec_size_if_unset k d) Q a w'.
Proof.
  intros a0 l ks k d Q a w' E R H. unfold rec_size_if_unset. apply wp_bind, wp_get.
  destruct (a_size a k) eqn:K; [|eapply tr_rec_size; eauto].
  apply wp_ret. specialize (H (a_time a) (a_cnt a) (a_size a)). destruct a; apply H.
  destruct E as (EC & ET & ES & EZ). apply mkEff; asimpl; auto. intros k' [<-|I]; [congruence|auto].
Qed.
End Track.

(** One step of a method, with the profile in a hypothesis. *)
Ltac sized := first [ reflexivity | eexists; reflexivity | assumption ].
Ltac pstep :=
  match goal with
  | T : effp _ _ ?a0 _ _ _ _ _ |- wp (upd (set_size _ _)) _ _ _ =>
      eapply tr_set_size; [exact T|cbn [right_size]; asimpl; try solve [sized]|clear T; intros ? ? ? T]
  | T : effp _ _ ?a0 _ _ _ _ _ |- wp (stamp_bump _) _ _ _ =>
      eapply tr_stamp; [exact T|clear T; intros ? ? ? T]
  | T : effp _ _ ?a0 _ _ _ _ _ |- wp (rec_size _ _) _ _ _ =>
      eapply tr_rec_size; [exact T|cbn [right_size]; asimpl; try solve [sized]|clear T; intros ? ? ? T]
  | T : effp _ _ ?a0 _ _ _ _ _ |- wp (rec_size_if_unset _ _) _ _ _ =>
      eapply tr_rec_size_if_unset; [exact T|cbn [right_size]; asimpl; try solve [sized]|clear T; intros ? ? ? T]
  | |- _ => wstep
  end.
Ltac psteps := repeat pstep.

Lemma wp_both : forall A (m : M A) (Q Q' : A -> act -> world -> Prop) a w,
  wp m Q a w -> wp m Q' a w -> wp m (fun x a' w' => Q x a' w' /\ Q' x a' w') a w.
Proof. intros A m Q Q' a w. unfold wp. destruct (m a w) as [[[x|e] a'] w']; auto. Qed.

(** [T] extended by the profile [E] of a method called in between. *)
Ltac chain T E :=
  let K := fresh in pose proof (eff_after _ _ _ _ _ _ _ _ _ _ _ E T) as K; clear T E; rename K into T.
Ltac effs T := eapply eff_incl; [exact T|let k := fresh in intros k; cbn; tauto].

Section Tracked.
Context (w : world) (v : vec).
Notation fs := (w_fs w).
Notation eff a a' := (eff w v a a').
Notation effp := (effp w v).
Hypothesis Hi32 : i32_ok (w_i32 w).

Lemma tr_read_at : forall w' a p (Q : list Z -> act -> world -> Prop),
  w_size w' = w_size w -> w_fsize w' = w_fsize w ->
  w_fs w' p = Some (as_01 v) -> (exists q, a_data a = VPath q) ->
  a_nones a = None \/ a_nones a = Some (n_ones v) ->
  (forall t c s, effp a t c s [ORead] [SPath; SFile; SRaw] ->
     Q (as_01 v) (set_loaded true (set_nones (Some (n_ones v)) (reprof t c s a))) w') ->
  wp (read_at p) Q a w'.
Proof.
  intros w' a p Q Z1 Z2 Hp (q & Hd) Hn H. pose proof (eff_refl w v a) as T. unfold read_at.
  wstep. wstep. rewrite Hp. wstep. pstep; [rewrite Z1; reflexivity|].
  wstep. wstep. wstep.
  assert (En : forall (Q' : unit -> act -> world -> Prop),
    Q' tt (set_nones (Some (n_ones v)) (reprof t c s a)) w' ->
    wp match a_nones a with
       | Some _ => ret tt
       | None => upd (set_nones (Some (count_ones (as_01 v))))
       end Q' (reprof t c s a) w').
  { intros Q' HQ. destruct Hn as [E|E]; rewrite E.
    - wstep. rewrite count_ones_as_01. exact HQ.
    - wstep. destruct a; asimpl. subst. exact HQ. }
  apply En. clear En.
  wstep. wstep. wstep. pstep; [rewrite Z2; reflexivity|].
  wstep. wstep. wstep. pstep; [rewrite Hd, Z1; eexists; reflexivity|].
  wstep. pstep. wstep. wstep. wstep.
  apply (H t2 c2 s2). exact T.
Qed.

Lemma tr_read_self : forall a (Q : list Z -> act -> world -> Prop),
  Rep0 fs a v -> a_fmt a = Some FFile ->
  (forall t c s, effp a t c s [ORead] [SPath; SFile; SRaw] ->
     Q (as_01 v) (set_nones (Some (n_ones v)) (reprof t c s a)) w) ->
  wp read_self Q a w.
Proof.
  intros a Q R F H. unfold read_self. wstep. wstep. rewrite F. wstep. wstep.
  destruct R. rewrite F in r_stored. destruct r_stored as (p & E & C). rewrite E.
  apply tr_read_at; [reflexivity|reflexivity|exact C|eauto|assumption|].
  intros t c s K. destruct a; asimpl; subst. apply H, K.
Qed.

Lemma tr_bitarray_to_raw_some : forall a (Q : list Z -> act -> world -> Prop),
  (forall t c s, effp a t c s [OB2R] [SBits; SRaw] -> Q (as_01 v) (reprof t c s a) w) ->
  wp (bitarray_to_raw (Some (VBits v))) Q a w.
Proof.
  intros a Q H. unfold bitarray_to_raw. pose proof (eff_refl w v a) as T. wstep. wstep.
  wstep. pstep. wstep. pstep. wstep. pstep. wstep. apply H. exact T.
Qed.

Lemma tr_integer_to_raw_some : forall a (Q : list Z -> act -> world -> Prop),
  v <> [] -> a_len a = Some (size v) ->
  a_nones a = None \/ a_nones a = Some (n_ones v) ->
  (forall t c s, effp a t c s [OI2R] [SRaw; SInt] ->
     Q (as_01 v) (set_nones (Some (n_ones v)) (reprof t c s a)) w) ->
  wp (integer_to_raw (Some (VInt (binary v)))) Q a w.
Proof.
  intros a Q Hv Hl Hn H. unfold integer_to_raw. pose proof (eff_refl w v a) as T. wstep. wstep.
  destruct (bin_digits_binary v Hv) as (s & E & Hs & P).
  wstep. eapply wp_lift; [exact E|].
  wstep. pstep. wstep. wstep. asimpl. rewrite Hl.
  destruct (size v <? len s) eqn:L; [apply Z.ltb_lt in L; change (len s) with (size s) in L; lia|].
  assert (EA : repeat 0 (Z.to_nat (size v - len s)) ++ map bit s = as_01 v).
  { change (len s) with (size s). rewrite <- map_bit_zeros, <- map_app, P. reflexivity. }
  rewrite EA. clear EA.
  wstep. pstep. wstep. pstep. wstep.
  apply wp_nones_if_unset; [exact Hn|]. wstep. apply H. exact T.
Qed.

(** The conversions of a decompression, and the size it records. *)
Definition expanded (raw_ wc : bool) : list op :=
  if raw_ then [OC2R] else if wc then [OC2R; OR2I; OC2I] else [OC2R; OR2B; OC2B].
Definition expanded_size (raw_ wc : bool) : szk :=
  if raw_ then SRaw else if wc then SInt else SBits.

Lemma tr_decompress_gen : forall a wq (d : pyval) value raw_ (Q : pyval -> act -> world -> Prop),
  w_size wq = w_size w ->
  compressed_value v d ->
  (value = Some d \/ value = None /\ a_data a = d /\ (a_fmt a = Some FCStr \/ a_fmt a = Some FCArr)) ->
  a_nones a = None \/ a_nones a = Some (n_ones v) ->
  (forall t c s, effp a t c s (expanded raw_ (WILL_COMPARE (w_cfg wq)))
                     [expanded_size raw_ (WILL_COMPARE (w_cfg wq)); SRaw] ->
                 Q (decompressed v raw_ (WILL_COMPARE (w_cfg wq)))
                   (set_nones (Some (n_ones v)) (reprof t c s a)) wq) ->
  wp (decompress value raw_) Q a wq.
Proof.
  intros a wq d value raw_ Q Hw Hd Hv Hn H. unfold decompress. pose proof (eff_refl w v a) as TT.
  wstep.
  assert (G : forall (Q' : pyval -> act -> world -> Prop), Q' d a wq ->
    wp (match value with
        | Some v0 => ret v0
        | None => f <- get a_fmt;;
                  match f with
                  | Some FFile => xs <- read_self;; ret (VArr xs)
                  | _ => get a_data
                  end
        end) Q' a wq).
  { intros Q' HQ. destruct Hv as [->|(-> & E & F)]; [wstep; exact HQ|].
    wstep. wstep. destruct F as [F|F]; rewrite F; wstep; rewrite E; exact HQ. }
  apply G; clear G.
  (* the common tail *)
  assert (T : forall t c s k, effp a t c s [] [k] ->
     forall (Q' : pyval -> act -> world -> Prop),
     (forall t c s, effp a t c s (expanded raw_ (WILL_COMPARE (w_cfg wq)))
                     [expanded_size raw_ (WILL_COMPARE (w_cfg wq)); SRaw] ->
                   Q' (decompressed v raw_ (WILL_COMPARE (w_cfg wq)))
                   (set_nones (Some (n_ones v)) (reprof t c s a)) wq) ->
     v <> [] ->
     wp (s <- lift (decompress_list (run_lengths v));;
         rec_size_if_unset SRaw (VArr s) ;;;
         stamp_bump OC2R ;;;
         nones_if_unset s ;;;
         (if raw_ then ret (VArr s)
          else
            wc <- getw (fun w => WILL_COMPARE (w_cfg w));;
            if wc then
              n <- lift (raw_to_integer (VArr s));;
              stamp_bump OR2I ;;;
              rec_size_if_unset SInt (VInt n) ;;;
              stamp_bump OC2I ;;;
              ret (VInt n)
            else
              b <- lift (raw_to_bitarray (VArr s));;
              stamp_bump OR2B ;;;
              rec_size_if_unset SBits (VBits b) ;;;
              stamp_bump OC2B ;;;
              ret (VBits b))) Q' (reprof t c s a) wq).
  { clear TT. intros t c s k T Q' HQ Hne. wstep. eapply wp_lift; [apply decompress_run_lengths; exact Hne|].
    wstep. pstep; [rewrite Hw; reflexivity|]. wstep. pstep. wstep.
    unfold nones_if_unset. wstep. wstep.
    assert (N : forall (Q'' : unit -> act -> world -> Prop) t c s,
       Q'' tt (set_nones (Some (n_ones v)) (reprof t c s a)) wq ->
       wp match a_nones a with
          | Some _ => ret tt
          | None => upd (set_nones (Some (count_ones (as_01 v))))
          end Q'' (reprof t c s a) wq).
    { intros Q'' ? ? ? HQ''. destruct Hn as [E|E]; rewrite E; wstep.
      - rewrite count_ones_as_01. exact HQ''.
      - destruct a; asimpl; subst; exact HQ''. }
    apply N. clear N. unfold decompressed, expanded, expanded_size in HQ.
    destruct raw_; [wstep; apply HQ; effs T|].
    wstep. wstep. destruct (WILL_COMPARE (w_cfg wq)) eqn:W.
    - wstep. eapply wp_lift; [apply raw_to_integer_01; exact Hne|].
      wstep. pstep. wstep. pstep; [rewrite Hw; reflexivity|]. wstep. pstep. wstep.
      match goal with |- context [reprof ?t ?c ?s _] => apply (HQ t c s) end. effs T.
    - wstep. eapply wp_lift; [apply raw_to_bitarray_01|].
      wstep. pstep. wstep. pstep; [rewrite Hw; reflexivity|]. wstep. pstep. wstep.
      match goal with |- context [reprof ?t ?c ?s _] => apply (HQ t c s) end. effs T. }
  destruct Hd as [(Hne & ->)|(H2 & ->)].
  - pose proof (run_text_not_nil v) as NN.
    destruct (run_text v) as [|ch rt] eqn:E; [congruence|]. rewrite <- E.
    wstep. eapply wp_lift; [apply literal_seq_run_text|].
    wstep. clear T0 || idtac. pstep; [rewrite Hw; reflexivity|].
    eapply T; [exact TT|exact H|exact Hne].
  - pose proof (size2_not_nil v H2) as Hne.
    pose proof (run_lengths_not_nil v) as NN. pose proof (looks_raw_run_lengths v H2) as LR.
    destruct (run_lengths v) as [|z l] eqn:E; [congruence|]. rewrite LR.
    wstep. pstep; [rewrite Hw, <- E; reflexivity|]. eapply T; [exact TT|exact H|exact Hne].
Qed.

(** ** raw *)
Lemma tr_raw : forall a f, Rep0 fs a v -> a_fmt a = Some f ->
  wp raw (fun _ a' _ => eff a a' (to_raw f) (match f with FRaw => [] | _ => [SRaw] end)) a w.
Proof.
  intros a f R F. unfold raw. pose proof (eff_refl w v a) as T.
  wstep. wstep. rewrite (r_loaded _ _ _ R). wstep. wstep. wstep. wstep. rewrite F.
  pose proof (r_stored _ _ _ R) as S. pose proof (r_nones _ _ _ R) as RN. rewrite F in S.
  destruct f; cbn [stored] in S; cbn [to_raw].
  - wstep. wstep. rewrite S. wstep. exact T.
  - unfold bitarray_to_raw. wstep. wstep. wstep. rewrite F. wstep. rewrite S.
    wstep. pstep. wstep. pstep. wstep. pstep. wstep. effs T.
  - destruct S as [Hv S]. eapply wp_eq; [apply integer_to_raw_none; congruence|]. rewrite S.
    apply tr_integer_to_raw_some; [assumption|apply R|assumption|]. intros t c s K. effs K.
  - wstep. eapply tr_decompress_gen with (d := a_data a);
      [reflexivity|eapply Rep0_compressed_value; eauto|right; auto|exact RN|].
    intros t c s K. cbn [decompressed]. wstep. effs K.
  - wstep. eapply tr_decompress_gen with (d := a_data a);
      [reflexivity|eapply Rep0_compressed_value; eauto|right; auto|exact RN|].
    intros t c s K. cbn [decompressed]. wstep. effs K.
  - apply tr_read_self; [assumption..|]. intros t c s K. effs K.
Qed.

(** ** as_bitarray, as_integer *)
Lemma tr_bits : forall a f, Rep0 fs a v -> a_fmt a = Some f ->
  wp as_bitarray (fun _ a' _ => eff a a' (to_bits f) (match f with FBits => [] | _ => [SBits] end)) a w.
Proof.
  intros a f R F. unfold as_bitarray. pose proof (eff_refl w v a) as T. wstep. wstep. rewrite F.
  pose proof (r_stored _ _ _ R) as S. pose proof (r_nones _ _ _ R) as RN. rewrite F in S.
  destruct f; cbn [stored] in S; cbn [to_bits].
  - wstep. wstep. rewrite S. wstep. eapply wp_lift; [apply raw_to_bitarray_01|].
    wstep. pstep. wstep. pstep. wstep. effs T.
  - wstep. effs T.
  - destruct S as [Hv S]. wstep. wstep. rewrite S.
    destruct (bin_digits_binary v Hv) as (s & E & _ & _).
    wstep. eapply wp_lift; [exact E|]. wstep. wstep. rewrite (r_len _ _ _ R).
    rewrite (pad_bits_binary v s Hv E).
    wstep. pstep. wstep. pstep. wstep. effs T.
  - wstep. wstep. wstep. unfold set_will_compare at 1. wstep.
    wstep. eapply tr_decompress_gen with (d := a_data a);
      [reflexivity|eapply Rep0_compressed_value; eauto|right; auto|exact RN|].
    intros t c s K. wstep. unfold set_will_compare. wstep. wstep. effs K.
  - wstep. wstep. wstep. unfold set_will_compare at 1. wstep.
    wstep. eapply tr_decompress_gen with (d := a_data a);
      [reflexivity|eapply Rep0_compressed_value; eauto|right; auto|exact RN|].
    intros t c s K. wstep. unfold set_will_compare. wstep. wstep. effs K.
  - wstep. apply tr_read_self; [assumption..|]. intros t c s K. chain T K.
    wstep. eapply wp_lift; [apply raw_to_bitarray_01|].
    wstep. pstep. wstep. pstep. wstep. effs T.
Qed.

Lemma tr_int : forall a f, v <> [] -> Rep0 fs a v -> a_fmt a = Some f ->
  wp as_integer (fun _ a' _ => eff a a' (to_int f) (match f with FInt => [] | _ => [SInt] end)) a w.
Proof.
  intros a f Hv R F. unfold as_integer. pose proof (eff_refl w v a) as T. wstep. wstep. rewrite F.
  pose proof (r_stored _ _ _ R) as S. pose proof (r_nones _ _ _ R) as RN. rewrite F in S.
  destruct f; cbn [stored] in S; cbn [to_int].
  - wstep. wstep. rewrite S. wstep. eapply wp_lift; [apply raw_to_integer_01; exact Hv|].
    wstep. pstep. wstep. pstep. wstep. effs T.
  - wstep. wstep. rewrite S. wstep. eapply wp_lift; [apply bits_to_int_spec; exact Hv|].
    wstep. pstep. wstep. pstep. wstep. effs T.
  - wstep. effs T.
  - wstep. wstep. wstep. unfold set_will_compare at 1. wstep.
    wstep. eapply tr_decompress_gen with (d := a_data a);
      [reflexivity|eapply Rep0_compressed_value; eauto|right; auto|exact RN|].
    intros t c s K. wstep. unfold set_will_compare. wstep. wstep. effs K.
  - wstep. wstep. wstep. unfold set_will_compare at 1. wstep.
    wstep. eapply tr_decompress_gen with (d := a_data a);
      [reflexivity|eapply Rep0_compressed_value; eauto|right; auto|exact RN|].
    intros t c s K. wstep. unfold set_will_compare. wstep. wstep. effs K.
  - wstep. apply tr_read_self; [assumption..|]. intros t c s K. chain T K.
    wstep. eapply wp_lift; [apply raw_to_integer_01; exact Hv|].
    wstep. pstep. wstep. pstep. wstep. effs T.
Qed.

(** ** as_compressed_str, as_compressed_array *)
Lemma tr_note_entropy : forall e n a (Q : unit -> act -> world -> Prop) w',
  v <> [] -> a_len a = Some (size v) -> e = Ok n ->
  (forall a', a_cnt a' = a_cnt a -> a_time a' = a_time a -> a_size a' = a_size a -> Q tt a' w') ->
  wp (note_entropy e) Q a w'.
Proof.
  intros e n a Q w' Hv Hl He HQ. unfold note_entropy.
  wstep. eapply wp_lift; [exact He|]. wstep. wstep. wstep. wstep. asimpl.
  destruct (a_relent a).
  - wstep. apply HQ; reflexivity.
  - wstep. apply wp_div_len with (v := v); [exact Hv|exact Hl|]. wstep. apply HQ; reflexivity.
Qed.

Ltac tail Hv R :=
  cbv beta; wstep; eapply tr_note_entropy;
  [exact Hv|asimpl; rewrite ?(r_len _ _ _ R); reflexivity
  |first [apply compressed_len_str|apply compressed_len_arr]|];
  let a2 := fresh in let E1 := fresh in let E2 := fresh in let E3 := fresh in
  intros a2 E1 E2 E3; wstep;
  match goal with T : ActTrack.effp _ _ _ _ _ _ _ _ |- _ =>
rewrite E1, E2, E3; effs T end.

Lemma tr_cstr : forall a f, v <> [] -> Rep0 fs a v -> a_fmt a = Some f ->
  wp as_compressed_str
     (fun _ a' _ => eff a a' (to_compressed f) (match f with FFile => [] | _ => [SCStr] end)) a w.
Proof.
  intros a f Hv R F. unfold as_compressed_str. pose proof (eff_refl w v a) as T.
  wstep. wstep. wstep. wstep. rewrite F.
  pose proof (r_stored _ _ _ R) as S. rewrite F in S.
  pose proof (wp_both _ _ _ _ _ _ (acc_raw w v a R) (tr_raw a f R F)) as AR.
  destruct f; cbn [stored] in S; cbn [to_compressed].
  - wstep. wstep. wstep. rewrite S. wstep. eapply wp_lift; [apply compress_str; exact Hv|].
    wstep. pstep. wstep. pstep. wstep. tail Hv R.
  - wstep. wstep. eapply wp_mono; [exact AR|]. intros x a' w' ((-> & -> & R' & G) & K). chain T K.
    wstep. eapply wp_lift; [apply compress_str; exact Hv|].
    wstep. pstep. wstep. pstep. wstep. pstep. wstep. tail Hv R'.
  - wstep. wstep. eapply wp_mono; [exact AR|]. intros x a' w' ((-> & -> & R' & G) & K). chain T K.
    wstep. eapply wp_lift; [apply compress_str; exact Hv|].
    wstep. pstep. wstep. pstep. wstep. pstep. wstep. tail Hv R'.
  - destruct S as [_ S]. wstep. wstep. wstep. rewrite S. wstep. pstep. wstep. tail Hv R.
  - destruct S as [_ S]. wstep. wstep. wstep. rewrite S. rewrite join_run_lengths. wstep. pstep. wstep.
    tail Hv R.
  - wstep. wstep. apply tr_read_self; [assumption..|]. intros t c s K. chain T K.
    wstep. eapply wp_lift; [apply compress_str; exact Hv|].
    wstep. pstep. wstep. tail Hv R.
Qed.

Lemma tr_carr : forall a f, v <> [] -> fits_compressed_array v -> Rep0 fs a v -> a_fmt a = Some f ->
  wp as_compressed_array
     (fun _ a' _ => eff a a' (to_compressed f) (match f with FFile => [] | _ => [SCArr] end)) a w.
Proof.
  intros a f Hv Hf R F. unfold as_compressed_array. pose proof (eff_refl w v a) as T.
  wstep. wstep. wstep. wstep. rewrite F.
  pose proof (r_stored _ _ _ R) as S. rewrite F in S.
  pose proof (wp_both _ _ _ _ _ _ (acc_raw w v a R) (tr_raw a f R F)) as AR.
  destruct f; cbn [stored] in S; cbn [to_compressed].
  - wstep. wstep. wstep. rewrite S. wstep. eapply wp_lift; [apply compress_arr; assumption|].
    wstep. pstep. wstep. pstep. wstep. tail Hv R.
  - wstep. wstep. eapply wp_mono; [exact AR|]. intros x a' w' ((-> & -> & R' & G) & K). chain T K.
    wstep. eapply wp_lift; [apply compress_arr; assumption|].
    wstep. pstep. wstep. pstep. wstep. pstep. wstep. tail Hv R'.
  - wstep. wstep. eapply wp_mono; [exact AR|]. intros x a' w' ((-> & -> & R' & G) & K). chain T K.
    wstep. eapply wp_lift; [apply compress_arr; assumption|].
    wstep. pstep. wstep. pstep. wstep. pstep. wstep. tail Hv R'.
  - destruct S as [_ S]. wstep. wstep. wstep. rewrite S. wstep.
    eapply wp_lift; [apply literal_seq_run_text|]. wstep. pstep. wstep. tail Hv R.
  - destruct S as [_ S]. wstep. wstep. wstep. rewrite S. wstep. pstep. wstep. tail Hv R.
  - wstep. wstep. apply tr_read_self; [assumption..|]. intros t c s K. chain T K.
    wstep. eapply wp_lift; [apply compress_arr; assumption|].
    wstep. pstep. wstep. tail Hv R.
Qed.

(** ** statistics *)
Lemma tr_nones : forall a f, v <> [] -> Rep fs a v -> a_fmt a = Some f ->
  wp nones (fun _ a' _ => eff a a' (unless (a_nones a) (to_raw f)) []) a w.
Proof.
  intros a f Hv R F. unfold nones. wstep. wstep.
  assert (Q1 : forall a' l, Rep0 fs a' v -> a_nones a' = Some (n_ones v) -> eff a a' l [] ->
    wp (c <- get a_cov;;
        (match c with
         | Some _ => ret tt
         | None => n <- get a_nones;;
                   match n with
                   | None => throw EType
                   | Some k => q <- div_len k;; upd (set_cov (Some q))
                   end
         end) ;;; n <- get a_nones;; lift (opt_res EType n))
       (fun _ a' _ => eff a a' l []) a' w).
  { intros a' l R' N T. wstep. wstep.
    destruct (a_cov a').
    - wstep. wstep. wstep. wstep. rewrite N. eapply wp_lift; [reflexivity|]. exact T.
    - wstep. wstep. wstep. rewrite N. wstep. apply wp_div_len with (v := v); [exact Hv|apply R'|].
      wstep. wstep. wstep. rewrite N. eapply wp_lift; [reflexivity|]. exact T. }
  wstep. pose proof (r_nones _ _ _ (proj1 R)) as RN.
  destruct (a_nones a) as [n|] eqn:N; cbn [unless].
  - destruct RN as [RN|RN]; [discriminate|]. wstep. apply Q1; [apply R|congruence|apply eff_refl].
  - wstep. eapply wp_mono; [exact (wp_both _ _ _ _ _ _ (read_raw w v a (proj1 R)) (tr_raw a f (proj1 R) F))|].
    intros x a' w' ((-> & -> & R' & G & Hn) & K). wstep.
    apply Q1; [exact R'| |effs K].
    destruct (r_nones _ _ _ R') as [N'|N']; [|exact N']. exfalso.
    assert (C := proj2 R). unfold caches in C. rewrite F in *.
    apply Hn; [| |exact N']; intros F'; injection F' as ->; auto.
Qed.

Lemma tr_cov : forall a f, v <> [] -> Rep fs a v -> a_fmt a = Some f ->
  wp coverage (fun _ a' _ => eff a a' (unless (a_cov a) (unless (a_nones a) (to_raw f))) []) a w.
Proof.
  intros a f Hv R F. unfold coverage. wstep. wstep. wstep.
  destruct (a_cov a) eqn:E; cbn [unless].
  - wstep. wstep. wstep. rewrite E. eapply wp_lift; [reflexivity|]. apply eff_refl.
  - wstep. eapply wp_mono; [exact (wp_both _ _ _ _ _ _ (acc_nones w v a Hv R) (tr_nones a f Hv R F))|].
    intros x a' w' (((-> & -> & R' & G) & N) & K). wstep. wstep. wstep.
    destruct (a_cov a'); [|congruence]. eapply wp_lift; [reflexivity|]. exact K.
Qed.

Lemma tr_entropy : forall a f, v <> [] -> Rep fs a v -> a_fmt a = Some f ->
  wp entropy (fun _ a' _ => eff a a' (unless (a_entropy a) (to_entropy f)) []) a w.
Proof.
  intros a f Hv [R C] F. unfold entropy. pose proof (eff_refl w v a) as T. wstep. wstep. wstep.
  assert (TT : forall a' l, a_len a' = Some (size v) -> a_entropy a' <> None -> eff a a' l [] ->
    wp (r <- get a_relent;;
        e <- get a_entropy;;
        (match r with
         | Some _ => ret tt
         | None => n <- lift (opt_res EType e);; q <- div_len n;; upd (set_relent (Some q))
         end) ;;; lift (opt_res EType e))
       (fun _ a' _ => eff a a' l []) a' w).
  { intros a' l L N K. wstep. wstep. wstep. wstep. destruct (a_entropy a') as [n|]; [|congruence].
    destruct (a_relent a').
    - wstep. wstep. eapply wp_lift; [reflexivity|]. exact K.
    - wstep. wstep. eapply wp_lift; [reflexivity|]. wstep. apply wp_div_len with (v := v); [exact Hv|exact L|].
      wstep. eapply wp_lift; [reflexivity|]. exact K. }
  pose proof (r_len _ _ _ R) as RL.
  destruct (a_entropy a) as [n|] eqn:N; cbn [unless].
  - wstep. apply TT; [exact RL|congruence|exact T].
  - wstep. wstep. wstep. wstep. rewrite F.
    pose proof (r_stored _ _ _ R) as S. pose proof (r_nones _ _ _ R) as RN.
    unfold caches in C. rewrite F in *. wstep.
    destruct f; cbn [stored] in S; cbn [to_entropy]; try congruence.
    + wstep. wstep. rewrite S. wstep. eapply wp_lift; [apply compress_str; exact Hv|].
      wstep. pstep. wstep. wstep. eapply wp_lift; [apply compressed_len_str|].
      wstep. apply TT; [exact RL|discriminate|exact T].
    + wstep. wstep. rewrite S. wstep. apply tr_bitarray_to_raw_some. intros t c s K. chain T K.
      wstep. eapply wp_lift; [apply compress_str; exact Hv|].
      wstep. pstep. wstep. wstep. eapply wp_lift; [apply compressed_len_str|].
      wstep. apply TT; [exact RL|discriminate|effs T].
    + destruct S as [_ S]. wstep. wstep. rewrite S. wstep.
      apply tr_integer_to_raw_some; [exact Hv|exact RL|exact RN|]. intros t c s K. chain T K.
      wstep. eapply wp_lift; [apply compress_str; exact Hv|].
      wstep. pstep. wstep. wstep. eapply wp_lift; [apply compressed_len_str|].
      wstep. apply TT; [exact RL|discriminate|effs T].
    + wstep. apply tr_read_self; [assumption..|]. intros t c s K. chain T K.
      wstep. eapply wp_lift; [apply compress_str; exact Hv|].
      wstep. pstep. wstep. wstep. eapply wp_lift; [apply compressed_len_str|].
      wstep. apply TT; [exact RL|discriminate|effs T].
Qed.

Lemma tr_relent : forall a f, v <> [] -> Rep fs a v -> a_fmt a = Some f ->
  wp rel_entropy (fun _ a' _ => eff a a' (unless (a_relent a) (unless (a_entropy a) (to_entropy f))) []) a w.
Proof.
  intros a f Hv R F. unfold rel_entropy. wstep. wstep. wstep.
  destruct (a_relent a) eqn:E; cbn [unless].
  - wstep. wstep. wstep. rewrite E. eapply wp_lift; [reflexivity|]. apply eff_refl.
  - wstep. eapply wp_mono; [exact (wp_both _ _ _ _ _ _ (acc_entropy w v a Hv R) (tr_entropy a f Hv R F))|].
    intros x a' w' (((-> & -> & R' & G) & N) & K). wstep. wstep. wstep.
    destruct (a_relent a'); [|congruence]. eapply wp_lift; [reflexivity|]. exact K.
Qed.

(** ** every attribute *)
Definition noted (f : fmt) (x : attr) : list szk :=
  match x with
  | ARaw | AOnes => match f with FRaw => [] | _ => [SRaw] end
  | ABits => match f with FBits => [] | _ => [SBits] end
  | AInt => match f with FInt => [] | _ => [SInt] end
  | ACStr => match f with FFile => [] | _ => [SCStr] end
  | ACArr => match f with FFile => [] | _ => [SCArr] end
  | _ => []
  end.
Lemma tr_call : forall a f x, v <> [] -> fits_compressed_array v -> Rep fs a v -> a_fmt a = Some f ->
  wp (call x) (fun _ a' _ => eff a a' (conversions f a x) (noted f x)) a w.
Proof.
  intros a f x Hv Hf R F. pose proof (proj1 R) as R0.
  assert (G : forall A B (m : M A) (k : A -> B) l ks,
    wp m (fun _ a' _ => eff a a' l ks) a w ->
    wp (r <- m;; ret (k r)) (fun _ a' _ => eff a a' l ks) a w).
  { intros A B m k l ks H. wstep. eapply wp_mono; [exact H|]. intros y a' w' K. wstep. exact K. }
  destruct x; cbn [call conversions noted]; apply G.
  - apply tr_raw; assumption.
  - unfold ones. wstep. eapply wp_mono; [apply tr_raw; eassumption|]. intros y a' w' K. wstep. exact K.
  - apply tr_nones; assumption.
  - apply tr_cov; assumption.
  - apply tr_entropy; assumption.
  - apply tr_relent; assumption.
  - unfold length_of. wstep. wstep. rewrite (r_len _ _ _ R0). eapply wp_lift; [reflexivity|]. apply eff_refl.
  - apply tr_bits; assumption.
  - apply tr_int; assumption.
  - apply tr_cstr; assumption.
  - apply tr_carr; assumption.
Qed.
End Tracked.
