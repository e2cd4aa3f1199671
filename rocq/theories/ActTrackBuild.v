(** The profile after a constructor (lemmas). *)
From Coq Require Import Decimal DecimalString DecimalZ ZArith QArith Bool String Ascii List Lia.
From Verif Require Import Base ActModel ActSpec ActObs ActCodec ActRep ActAccess ActBuild ActProf ActHold
  ActCountSpec ActTrack.
Import ListNotations.
Open Scope Z_scope.

Section Tracked.
Context (w : world) (v : vec).
Notation fs := (w_fs w).
Notation eff a a' := (eff w v a a').
Notation effp := (effp w v).
Hypothesis Hi32 : i32_ok (w_i32 w).
Hypothesis Hv : v <> [].

Lemma tr_size_compressed : forall d a (Q : Z -> act -> world -> Prop),
  (forall t c s, effp a t c s [] [own_size (cfmt d)] ->
     Q (w_size w (compressed_of v d)) (reprof t c s a) w) ->
  wp (size_compressed (compressed_of v d)) Q a w.
Proof.
  intros d a Q H. unfold size_compressed. pose proof (eff_refl w v a) as T. wstep.
  destruct d; cbn [compressed_of]; pstep; wstep; apply H; exact T.
Qed.

Definition tracked (a : act) (l : list op) (ks : list szk) : unit -> act -> world -> Prop :=
  fun _ a' w' => eff a a' l ks /\ formed a'.
Lemma compressed_own : compressed_size (w_cfg w) = own_size (cfmt (DTYPE (w_cfg w))).
Proof. unfold compressed_size. destruct (DTYPE (w_cfg w)); reflexivity. Qed.
Ltac within T := eapply eff_incl; [exact T|let k := fresh in intros k; rewrite ?compressed_own; cbn [In app]; tauto].

Ltac finish T :=
  split; [within T|];
  let f := fresh in let E := fresh in intros f E; asimpl; injection E as <-;
  apply (e_set _ _ _ _ _ _ _ _ T); cbn [own_size cfmt In app]; repeat (first [left; reflexivity | right]).
Ltac finish_short T :=
  split; [within T|];
  let f := fresh in let E := fresh in intros f E; asimpl; injection E as <-;
  apply (e_set _ _ _ _ _ _ _ _ T); cbn [In app]; repeat (first [left; reflexivity | right]).

Lemma tr_init_bits : forall a, cfg_fits (w_cfg w) v ->
  wp (init_with_bitarray v) (tracked a (when (a_opt a) [OB2R; OR2C; OB2C])
    (SBits :: if a_opt a then [SRaw; compressed_size (w_cfg w)] else [])) a w.
Proof.
  intros a F. unfold init_with_bitarray. pose proof (eff_refl w v a) as T.
  wstep. wstep. wstep. wstep. wstep. wstep. wstep. pstep. wstep. wstep.
  rewrite count_filter_id. wstep. wstep.
  destruct (a_opt a) eqn:Ho; cbn [when].
  - wstep. apply tr_bitarray_to_raw_some. intros ? ? ? K. chain T K.
    wstep. eapply wp_lift; [apply compress_cfg; [exact Hi32|exact Hv|intros; apply F; auto]|].
    wstep. pstep. wstep. pstep. wstep. apply tr_size_compressed. intros ? ? ? K. chain T K.
    wstep. apply wp_set_entropies; [exact Hv|reflexivity|]. wstep. wstep.
    destruct (_ <? _).
    + wstep. wstep. wstep. finish T.
    + wstep. wstep. wstep. finish_short T.
  - wstep. wstep. wstep. finish T.
Qed.

Lemma tr_init_int : forall a, cfg_fits (w_cfg w) v -> okc a v ->
  wp (init_with_integer (binary v) (Some (size v))) (tracked a (when (a_opt a) [OI2R; OR2C; OI2C])
    (SInt :: if a_opt a then [SRaw; compressed_size (w_cfg w)] else [])) a w.
Proof.
  intros a F O. unfold init_with_integer. pose proof (eff_refl w v a) as T.
  wstep. wstep. wstep. wstep. wstep. wstep. wstep. pstep. wstep. wstep.
  destruct (a_opt a) eqn:Ho; cbn [when].
  - wstep. apply tr_integer_to_raw_some; [exact Hv|reflexivity|apply O|]. intros ? ? ? K. chain T K.
    wstep. wstep. rewrite count_ones_as_01.
    wstep. eapply wp_lift; [apply compress_cfg; [exact Hi32|exact Hv|intros; apply F; auto]|].
    wstep. pstep. wstep. pstep. wstep. apply tr_size_compressed. intros ? ? ? K. chain T K.
    wstep. apply wp_set_entropies; [exact Hv|reflexivity|]. wstep. wstep.
    destruct (_ <? _).
    + wstep. wstep. wstep. finish T.
    + wstep. wstep. wstep. finish_short T.
  - wstep. wstep. wstep. finish T.
Qed.

Lemma tr_init_str : forall a, wp (init_with_str (run_text v)) (tracked a [] [SCStr]) a w.
Proof.
  intros a. unfold init_with_str. pose proof (eff_refl w v a) as T.
  wstep. eapply wp_lift; [apply literal_eval_run_text|].
  wstep. wstep. wstep. pstep. wstep. wstep.
  destruct (run_lengths_two v) as (x & y & t' & E). rewrite E. rewrite <- E.
  rewrite last_run_lengths, len_run_lengths.
  wstep. wstep. wstep. apply wp_div_len with (v := v); [exact Hv|reflexivity|].
  wstep. wstep. wstep. finish T.
Qed.

Lemma tr_init_carr : forall a, 2 <= size v ->
  wp (init_with_compressed_array (run_lengths v)) (tracked a [] [SCArr]) a w.
Proof.
  intros a H2. unfold init_with_compressed_array. pose proof (eff_refl w v a) as T.
  wstep. wstep. wstep. pstep. wstep. wstep.
  rewrite last_run_lengths, len_run_lengths.
  wstep. wstep. wstep. apply wp_div_len with (v := v); [exact Hv|reflexivity|].
  wstep. wstep. wstep. finish T.
Qed.

Lemma tr_init_raw : forall a, (STORE_RAW (w_cfg w) = false -> cfg_fits (w_cfg w) v) ->
  wp (init_with_raw (as_01 v)) (tracked a (stored_raw w false) (made_raw w false)) a w.
Proof.
  intros a F. unfold init_with_raw, stored_raw, made_raw. rewrite ubyte_as_01, count_ones_as_01, len_as_01.
  pose proof (eff_refl w v a) as T.
  wstep. wstep. wstep. wstep. wstep. pstep. wstep. wstep. wstep. wstep. wstep. wstep.
  destruct (STORE_RAW (w_cfg w)).
  - wstep. wstep. wstep. finish T.
  - specialize (F eq_refl).
    wstep. eapply wp_lift; [apply compress_cfg; [exact Hi32|exact Hv|intros; apply F; auto]|].
    wstep. pstep. wstep. apply tr_size_compressed. intros ? ? ? K. chain T K.
    wstep. apply wp_set_entropies; [exact Hv|reflexivity|]. wstep. wstep.
    destruct (WILL_COMPARE (w_cfg w)) eqn:W.
    + wstep. eapply wp_lift; [apply raw_to_integer_01; exact Hv|].
      wstep. pstep. wstep. pstep. wstep. wstep.
      destruct (_ <? _).
      * wstep. wstep. wstep. finish_short T.
      * wstep. wstep. wstep. finish T.
    + wstep. eapply wp_lift; [apply raw_to_bitarray_01|].
      wstep. pstep. wstep. pstep. wstep. wstep.
      destruct (_ <? _).
      * wstep. wstep. wstep. finish_short T.
      * wstep. wstep. wstep. finish T.
Qed.

Lemma tr_write : forall a (Q : bool -> act -> world -> Prop),
  fs (next_name w) = None ->
  (forall t c s, effp a t c s [OWrite] [SPath; SFile; SRaw] ->
     s SPath = Some (w_size w (VPath (next_name w))) ->
     Q true (set_fmt (Some FFile) (set_data (VPath (next_name w))
     (set_nones (Some (n_ones v)) (set_len (Some (size v)) (reprof t c s a))))) (saved w v)) ->
  wp (write (as_01 v)) Q a w.
Proof.
  intros a Q N H. unfold write. rewrite ubyte_as_01, count_ones_as_01, len_as_01.
  pose proof (eff_refl w v a) as T.
  wstep. pstep. wstep. wstep. wstep. wstep. wstep. unfold randint.
  wstep. wstep. wstep. wstep. wstep. wstep. wstep. wstep.
  change (PTmp (w_rnd w (w_clk w))) with (next_name w).
  apply wp_mono with (Q := fun x a' w' => x = Some (next_name w) /\ a' = set_nones (Some (n_ones v)) (set_len (Some (size v)) (reprof t c s a)) /\ w' = tick w).
  - destruct (a_lasy a).
    + wstep. auto.
    + change (find_name 100) with (fun ar n => find_name 100 ar n). cbv beta.
      unfold wp, find_name, bind at 1, getw at 1. cbn [w_fs tick].
      unfold next_name in N. rewrite N. cbn. auto.
  - intros x a' w' (-> & -> & ->).
    wstep. wstep. wstep. wstep. wstep. wstep.
    wstep. wstep. wstep. asimpl. pstep.
    wstep. unfold rec_size. wstep. wstep. apply wp_upd. wstep. unfold stamp_bump. apply wp_upd. wstep.
    assert (R : right_size w v SPath (w_size w (VPath (next_name w)))) by (eexists; reflexivity).
    pose proof (eff_stamp w v _ _ _ _ _ _ OWrite (eff_size w v _ _ _ _ _ _ _ _ T R)) as K.
    exact (H _ _ _ K eq_refl).
Qed.

(** A raw vector, kept in memory or saved. *)
Lemma tr_init_any_raw : forall a to_file length,
  (to_file = true -> STORE_RAW (w_cfg w) = false -> fs (next_name w) = None) ->
  (STORE_RAW (w_cfg w) = false -> to_file = false -> cfg_fits (w_cfg w) v) -> okc a v ->
  wp (init_with_any (VArr (as_01 v)) length to_file)
     (fun u a' w' => tracked a (stored_raw w to_file) (made_raw w to_file) u a' w' /\
        (to_file = true -> STORE_RAW (w_cfg w) = false -> a_size a' SPath <> None /\
           exists z, a_size a' SPath = Some z /\ right_size w v SPath z)) a w.
Proof.
  intros a to_file l N F O. unfold init_with_any.
  rewrite last_as_01_lt, andb_false_r. wstep. wstep.
  destruct (to_file && negb (STORE_RAW (w_cfg w))) eqn:E.
  - apply andb_true_iff in E as [-> E]. apply negb_true_iff in E.
    wstep. unfold to_raw_from_any. wstep.
    apply wp_mono with (Q := fun x a' w' => x = VArr (as_01 v) /\ w' = w /\ eff a a' [] [SRaw]).
    + unfold decompress. pose proof (eff_refl w v a) as T. wstep. wstep.
      pose proof (looks_raw_as_01 v) as LR. pose proof (ubyte_as_01 v) as UB.
      destruct (as_01 v) as [|x t] eqn:EA.
      * apply map_eq_nil in EA. congruence.
      * rewrite LR. wstep. rewrite UB, <- EA. pstep. wstep. apply wp_nones_if_unset; [apply O|].
        wstep. split; [reflexivity|]. split; [reflexivity|]. exact T.
    + intros x a' w' (-> & -> & T). wstep. wstep.
      apply wp_mono with (Q := fun x b w' => x = true /\ a_fmt b = Some FFile /\
         eff a b [OWrite] [SPath; SFile; SRaw] /\
         exists z, a_size b SPath = Some z /\ right_size w v SPath z).
      * apply tr_write; [auto|]. intros t c s K P.
        split; [reflexivity|]. split; [reflexivity|]. chain T K. split; [effs T|].
        eexists. split; [exact P|eexists; reflexivity].
      * intros x b w' (-> & F' & K & P). wstep. unfold stored_raw, made_raw. rewrite E.
        split; [split; [within K|]|].
        -- intros f Ef. asimpl. assert (f = FFile) as -> by congruence.
           apply (e_set _ _ _ _ _ _ _ _ K). cbn; tauto.
        -- intros _ _. split; [|exact P]. apply (e_set _ _ _ _ _ _ _ _ K); cbn; tauto.
  - eapply wp_mono; [apply tr_init_raw|].
    + intros S. apply F; auto. rewrite S in E. cbn in E. rewrite andb_true_r in E; exact E.
    + intros x a' w' H. split.
      * unfold stored_raw, made_raw in *. destruct (STORE_RAW (w_cfg w)); [exact H|].
        destruct to_file; [discriminate|exact H].
      * intros -> S. rewrite S in E. discriminate.
Qed.

(** ** __init__ *)

(** Reading a file into an instance without data: the size of the path is then
    the size of None. *)
Lemma tr_read_blank : forall a p (Q : list Z -> act -> world -> Prop),
  fs p = Some (as_01 v) -> a_data a = VNone ->
  a_nones a = None \/ a_nones a = Some (n_ones v) ->
  (forall t c s, effp a t c s [ORead] [SFile; SRaw] ->
     Q (as_01 v) (set_loaded true (set_nones (Some (n_ones v))
       (reprof t c (fun k => if szk_eqb k SPath then Some (w_size w VNone) else s k) a))) w) ->
  wp (read_at p) Q a w.
Proof.
  intros a p Q Hp Hd Hn H. pose proof (eff_refl w v a) as T. unfold read_at.
  wstep. wstep. rewrite Hp. wstep. pstep.
  wstep. wstep. wstep.
  assert (En : forall (Q' : unit -> act -> world -> Prop),
    Q' tt (set_nones (Some (n_ones v)) (reprof t c s a)) w ->
    wp match a_nones a with
       | Some _ => ret tt
       | None => upd (set_nones (Some (count_ones (as_01 v))))
       end Q' (reprof t c s a) w).
  { intros Q' HQ. destruct Hn as [E|E]; rewrite E.
    - wstep. rewrite count_ones_as_01. exact HQ.
    - wstep. destruct a; asimpl. subst. exact HQ. }
  apply En. clear En.
  wstep. wstep. wstep. pstep.
  wstep. wstep. wstep. unfold rec_size. wstep. wstep. rewrite Hd. apply wp_upd.
  wstep. unfold stamp_bump. apply wp_upd. wstep. wstep. wstep.
  exact (H _ _ _ (eff_stamp w v _ _ _ _ _ _ ORead T)).
Qed.

(** The profile of a new activation. *)
Record profiled (src : pyval) (optimize to_file : bool) (a : act) : Prop := mkProfiled {
  p_cnt : forall o, a_cnt a o = count_occ op_eq_dec (constructed w src optimize to_file) o;
  p_time : forall o, a_time a o = true <-> In o (constructed w src optimize to_file);
  p_formed : formed a;
  p_made : forall k, In k (made w src optimize to_file) -> a_size a k <> None;
  p_size : forall k z, a_size a k = Some z ->
    right_size w v k z \/
    (k = SPath /\ z = w_size w VNone /\ (exists p, src = VPath p) /\ writes w src to_file = false)
}.

Lemma profiled_of : forall src optimize to_file a a0,
  a_cnt a0 = a_cnt (blank optimize) -> a_time a0 = a_time (blank optimize) ->
  a_size a0 = a_size (blank optimize) ->
  eff a0 a (constructed w src optimize to_file) (made w src optimize to_file) -> formed a ->
  profiled src optimize to_file a.
Proof.
  intros src optimize to_file a a0 C0 T0 S0 (EC & ET & ES & EZ) F. constructor; [| |exact F|exact ES|].
  - intros o. rewrite EC, C0. reflexivity.
  - intros o. rewrite ET, T0. cbn. split; [intros [H|H]; [discriminate H|exact H]|tauto].
  - intros k z E. left. destruct (EZ k) as [H|(z' & H & R)].
    + rewrite S0 in H. rewrite H in E. discriminate E.
    + rewrite H in E. injection E as <-. exact R.
Qed.

Lemma tr_init : forall src l opt to_file,
  denotes w v src l ->
  cfg_fits (w_cfg w) v ->
  (writes w src to_file = true -> fs (next_name w) = None) ->
  wp (init src l to_file false) (fun _ a' _ => profiled src opt to_file a') (blank opt) w.
Proof.
  intros src l opt to_file D F N. unfold init.
  wstep. unfold init_convert. wstep. wstep.
  assert (OB : okc (set_loaded true (blank opt)) v) by (constructor; left; reflexivity).
  destruct D as [l | l Hl | | l | l H2 | p l Hp].
  - wstep. wstep. wstep.
    eapply wp_mono; [apply (tr_init_any_raw (set_loaded true (blank opt)) to_file l)|].
    + intros -> E. apply N. unfold writes. rewrite last_as_01_lt, E. reflexivity.
    + intros _ _. exact F.
    + exact OB.
    + intros u a' w' ((K & FO) & _).
      eapply (profiled_of _ _ _ _ (set_loaded true (blank opt))); [reflexivity..| |exact FO].
      unfold constructed, made. rewrite last_as_01_lt. exact K.
  - destruct (WILL_COMPARE (w_cfg w)) eqn:W.
    + pose proof (eff_refl w v (blank opt)) as T.
      wstep. pstep. wstep. wstep.
      wstep. eapply wp_lift; [apply bits_to_int_spec; exact Hv|].
      wstep. pstep. wstep. pstep. wstep.
      rewrite count_filter_id. wstep. wstep.
      assert (El : match l with Some _ => l | None => Some (len v) end = Some (size v))
        by (destruct Hl as [->| ->]; reflexivity).
      rewrite El. cbn [init_with_any].
      eapply wp_mono; [apply tr_init_int|]; auto.
      * constructor; asimpl; unfold blank; asimpl; auto.
      * intros u a' w' (K & FO). chain T K.
        eapply (profiled_of _ _ _ _ (blank opt)); [reflexivity..| |exact FO].
        unfold constructed, made. rewrite W. within T.
    + wstep. wstep. wstep. cbn [init_with_any].
      eapply wp_mono; [apply tr_init_bits|]; auto.
      intros u a' w' (K & FO).
      eapply (profiled_of _ _ _ _ (set_loaded true (blank opt))); [reflexivity..| |exact FO].
      unfold constructed, made. rewrite W. exact K.
  - destruct (WILL_COMPARE (w_cfg w)) eqn:W.
    + wstep. wstep. wstep. cbn [init_with_any].
      eapply wp_mono; [apply tr_init_int|]; auto.
      intros u a' w' (K & FO).
      eapply (profiled_of _ _ _ _ (set_loaded true (blank opt))); [reflexivity..| |exact FO].
      unfold constructed, made. rewrite W. exact K.
    + pose proof (eff_refl w v (blank opt)) as T. wstep. pstep.
      destruct (bin_digits_binary v Hv) as (sb & E & _ & _).
      wstep. eapply wp_lift; [exact E|].
      rewrite (pad_bits_binary v sb Hv E).
      wstep. pstep. wstep. pstep. wstep. wstep. wstep. cbn [init_with_any].
      eapply wp_mono; [apply tr_init_bits|]; auto.
      intros u a' w' (K & FO). chain T K.
      eapply (profiled_of _ _ _ _ (blank opt)); [reflexivity..| |exact FO].
      unfold constructed, made. rewrite W. within T.
  - wstep. wstep. wstep. cbn [init_with_any].
    eapply wp_mono; [apply tr_init_str|]. intros u a' w' (K & FO).
    eapply (profiled_of _ _ _ _ (set_loaded true (blank opt))); [reflexivity..| |exact FO]. exact K.
  - assert (E1 : (1 <? size v) = true) by (apply Z.ltb_lt; lia).
    wstep. wstep. wstep. unfold init_with_any. rewrite last_run_lengths, E1.
    assert (E2 : (0 <? len (run_lengths v)) = true).
    { apply Z.ltb_lt. rewrite len_run_lengths. pose proof (len_nonneg _ (switches v)). lia. }
    rewrite E2. cbn [andb].
    eapply wp_mono; [apply tr_init_carr; exact H2|]. intros u a' w' (K & FO).
    eapply (profiled_of _ _ _ _ (set_loaded true (blank opt))); [reflexivity..| |exact FO].
    unfold constructed, made. rewrite last_run_lengths, E1. exact K.
  - wstep. wstep.
    apply tr_read_blank; [exact Hp|reflexivity|left; reflexivity|]. intros t c s T.
    eapply wp_mono; [apply (tr_init_any_raw _ to_file l)|].
    + intros -> E. apply N. unfold writes. rewrite E. reflexivity.
    + intros _ _. exact F.
    + constructor; asimpl; unfold blank; asimpl; auto.
    + intros u a' w' ((K & FO) & P). destruct T as (TC & TT & TS & TZ).
      pose proof (e_kept _ _ _ _ _ _ _ _ K) as KE. destruct K as (KC & KT & KS & KZ).
      constructor; [| |exact FO| |].
      * intros o. rewrite KC. asimpl. rewrite TC. cbn [blank a_cnt constructed].
        change (ORead :: stored_raw w to_file) with ([ORead] ++ stored_raw w to_file).
        rewrite count_occ_app. reflexivity.
      * intros o. rewrite KT. asimpl. rewrite TT. cbn [blank a_time constructed In]. 
        split; [intros [[H|[H|[]]]|H]; [discriminate H|auto|auto]|intros [H|H]; auto].
      * intros k [<-|[<-|I]].
        -- apply KE. cbn. apply TS. left; reflexivity.
        -- apply KE. discriminate.
        -- apply KS, I.
      * intros k z E. destruct (szk_eqb k SPath) eqn:EK.
        -- apply szk_eqb_true in EK as ->.
           destruct (writes w (VPath p) to_file) eqn:W.
           ++ left. unfold writes in W. cbn [andb] in W. apply andb_true_iff in W as [W1 W2].
              apply negb_true_iff in W2. destruct (P W1 W2) as (_ & z' & E' & R).
              rewrite E' in E. injection E as <-. exact R.
           ++ destruct (KZ SPath) as [H|(z' & H & R)].
              ** right. asimpl. cbn in H. rewrite H in E. injection E as <-. eauto.
              ** left. rewrite H in E. injection E as <-. exact R.
        -- left. destruct (KZ k) as [H|(z' & H & R)].
           ++ asimpl. rewrite EK in H. destruct (TZ k) as [H'|(z' & H' & R)].
              ** rewrite H' in H. rewrite H in E. discriminate E.
              ** rewrite H' in H. rewrite H in E. injection E as <-. exact R.
           ++ rewrite H in E. injection E as <-. exact R.
Qed.

Lemma tr_new : forall src l opt to_file a w',
  denotes w v src l ->
  cfg_fits (w_cfg w) v ->
  (writes w src to_file = true -> fs (next_name w) = None) ->
  new src opt l to_file false w = (Ok a, w') -> profiled src opt to_file a.
Proof.
  intros src l opt to_file a w' D F N H. pose proof (tr_init src l opt to_file D F N) as P.
  unfold wp in P. unfold new in H.
  destruct (init src l to_file false (blank opt) w) as [[[u|e] a0] w0]; [|contradiction].
  injection H as <- _. exact P.
Qed.
End Tracked.
