(** Representation invariant of Activation instances and correctness of the
    accessors (lemmas). *)
From Coq Require Import Decimal DecimalString DecimalZ ZArith QArith Bool String Ascii List Lia.
From Verif Require Import Base ActModel ActSpec ActCodec.
Import ListNotations.
Open Scope Z_scope.

(** * Weakest preconditions for successful runs *)

Definition wp {A} (m : M A) (Q : A -> act -> world -> Prop) (a : act) (w : world) : Prop :=
  match m a w with
  | (Ok x, a', w') => Q x a' w'
  | (Err _, _, _) => False
  end.

Lemma wp_bind : forall A B (m : M A) (f : A -> M B) Q a w,
  wp m (fun x => wp (f x) Q) a w -> wp (bind m f) Q a w.
Proof.
  intros A B m f Q a w. unfold wp, bind. destruct (m a w) as [[[x|e] a'] w']; auto.
Qed.
Lemma wp_mono : forall A (m : M A) (Q Q' : A -> act -> world -> Prop) a w,
  wp m Q a w -> (forall x a' w', Q x a' w' -> Q' x a' w') -> wp m Q' a w.
Proof.
  intros A m Q Q' a w. unfold wp. destruct (m a w) as [[[x|e] a'] w']; auto.
Qed.
Lemma wp_eq : forall A (m m' : M A) (Q : A -> act -> world -> Prop) a w,
  m a w = m' a w -> wp m' Q a w -> wp m Q a w.
Proof. intros A m m' Q a w H. unfold wp. rewrite H. auto. Qed.
Lemma wp_ret : forall A (x : A) (Q : A -> act -> world -> Prop) a w, Q x a w -> wp (ret x) Q a w.
Proof. auto. Qed.
Lemma wp_get : forall A (f : act -> A) (Q : A -> act -> world -> Prop) a w, Q (f a) a w -> wp (get f) Q a w.
Proof. auto. Qed.
Lemma wp_getw : forall A (f : world -> A) (Q : A -> act -> world -> Prop) a w, Q (f w) a w -> wp (getw f) Q a w.
Proof. auto. Qed.
Lemma wp_upd : forall f (Q : unit -> act -> world -> Prop) a w, Q tt (f a) w -> wp (upd f) Q a w.
Proof. auto. Qed.
Lemma wp_updw : forall f (Q : unit -> act -> world -> Prop) a w, Q tt a (f w) -> wp (updw f) Q a w.
Proof. auto. Qed.
Lemma wp_lift : forall A (r : res A) x (Q : A -> act -> world -> Prop) a w, r = Ok x -> Q x a w -> wp (lift r) Q a w.
Proof. intros; subst; assumption. Qed.

(** Same instance up to profiling attributes. *)
Definition reprof (t : op -> bool) (c : op -> nat) (s : szk -> option Z) (a : act) : act :=
  mkAct (a_entropy a) (a_relent a) (a_nones a) (a_cov a) (a_len a) (a_data a) (a_fmt a) (a_opt a)
    (a_tofile a) (a_loaded a) (a_lasy a) t c s.

Lemma wp_stamp_bump : forall o (Q : unit -> act -> world -> Prop) a w,
  (forall t c s, Q tt (reprof t c s a) w) -> wp (stamp_bump o) Q a w.
Proof.
  intros o Q a w H. unfold stamp_bump. apply wp_upd.
  exact (H (fun o' => if op_eqb o' o then true else a_time a o')
           (fun o' => if op_eqb o' o then S (a_cnt a o') else a_cnt a o') (a_size a)).
Qed.
Lemma wp_set_size : forall k z (Q : unit -> act -> world -> Prop) a w,
  (forall t c s, Q tt (reprof t c s a) w) -> wp (upd (set_size k z)) Q a w.
Proof.
  intros k z Q a w H. apply wp_upd.
  exact (H (a_time a) (a_cnt a) (fun s' => if szk_eqb s' k then Some z else a_size a s')).
Qed.
Lemma wp_rec_size : forall k v (Q : unit -> act -> world -> Prop) a w,
  (forall t c s, Q tt (reprof t c s a) w) -> wp (rec_size k v) Q a w.
Proof.
  intros k v Q a w H. unfold rec_size. apply wp_bind, wp_getw, wp_set_size, H.
Qed.
Lemma wp_rec_size_if_unset : forall k v (Q : unit -> act -> world -> Prop) a w,
  (forall t c s, Q tt (reprof t c s a) w) -> wp (rec_size_if_unset k v) Q a w.
Proof.
  intros k v Q a w H. unfold rec_size_if_unset. apply wp_bind, wp_get.
  destruct (a_size a k).
  - apply wp_ret. specialize (H (a_time a) (a_cnt a) (a_size a)). destruct a; exact H.
  - apply wp_rec_size, H.
Qed.

Ltac asimpl :=
  cbn [a_entropy a_relent a_nones a_cov a_len a_data a_fmt a_opt a_tofile a_loaded a_lasy
       a_time a_cnt a_size reprof set_entropy set_relent set_nones set_cov set_len set_data
       set_fmt set_tofile set_loaded set_lasy reset
       w_cfg w_fs w_clk w_rnd w_mem w_oom w_size w_fsize w_i32 set_cfg set_fs tick
       DTYPE FORCE_STAT WILL_COMPARE STORE_RAW NCPUS] in *.

Ltac wstep :=
  match goal with
  | |- wp (bind _ _) _ _ _ => apply wp_bind
  | |- wp (ret _) _ _ _ => apply wp_ret
  | |- wp (get _) _ _ _ => apply wp_get; asimpl
  | |- wp (getw _) _ _ _ => apply wp_getw; asimpl
  | |- wp (upd (set_size _ _)) _ _ _ => apply wp_set_size; intros ? ? ?
  | |- wp (upd _) _ _ _ => apply wp_upd
  | |- wp (updw _) _ _ _ => apply wp_updw
  | |- wp (stamp_bump _) _ _ _ => apply wp_stamp_bump; intros ? ? ?
  | |- wp (rec_size _ _) _ _ _ => apply wp_rec_size; intros ? ? ?
  | |- wp (rec_size_if_unset _ _) _ _ _ => apply wp_rec_size_if_unset; intros ? ? ?
  end.

(** Closes a goal with [H : forall t c s, Q x (.. (reprof t c s a)) w] whatever
    the order of the field updates. *)
Ltac fin H :=
  first [ apply H
        | match goal with |- context [reprof ?t ?c ?s _] => exact (H t c s) end ].

(** * The invariant *)

(** [d] stored in format [f] holds the vector [v]. *)
Definition stored (fs : path -> option (list Z)) (d : pyval) (f : option fmt) (v : vec) : Prop :=
  match f with
  | Some FRaw => d = VArr (as_01 v)
  | Some FBits => d = VBits v
  | Some FInt => v <> [] /\ d = VInt (binary v)
  | Some FCStr => v <> [] /\ d = VStr (run_text v)
  | Some FCArr => 2 <= size v /\ d = VArr (run_lengths v)
  | Some FFile => exists p, d = VPath p /\ fs p = Some (as_01 v)
  | None => False
  end.

Definition n_entropy (v : vec) : Z := 2 + len (switches v).

(** Every cached statistic is absent or right. *)
Record Rep0 (fs : path -> option (list Z)) (a : act) (v : vec) : Prop := mkRep0 {
  r_len : a_len a = Some (size v);
  r_loaded : a_loaded a = true;
  r_stored : stored fs (a_data a) (a_fmt a) v;
  r_nones : a_nones a = None \/ a_nones a = Some (n_ones v);
  r_cov : a_cov a = None \/ a_cov a = Some (fraction (n_ones v) (size v));
  r_ent : a_entropy a = None \/ a_entropy a = Some (n_entropy v);
  r_relent : a_relent a = None \/ a_relent a = Some (fraction (n_entropy v) (size v))
}.

(** Statistics that the format cannot recompute are present. *)
Definition caches (a : act) : Prop :=
  match a_fmt a with
  | Some FRaw | Some FBits => a_nones a <> None
  | Some FCStr | Some FCArr => a_entropy a <> None
  | _ => True
  end.

Definition Rep fs a v : Prop := Rep0 fs a v /\ caches a.

(** [a'] is [a] with possibly more cached statistics. *)
Record grows (a a' : act) : Prop := mkGrows {
  g_data : a_data a' = a_data a;
  g_fmt : a_fmt a' = a_fmt a;
  g_len : a_len a' = a_len a;
  g_opt : a_opt a' = a_opt a;
  g_tofile : a_tofile a' = a_tofile a;
  g_loaded : a_loaded a' = a_loaded a;
  g_lasy : a_lasy a' = a_lasy a;
  g_nones : a_nones a <> None -> a_nones a' <> None;
  g_ent : a_entropy a <> None -> a_entropy a' <> None
}.

Lemma grows_refl : forall a, grows a a.
Proof. intros; constructor; auto. Qed.
Lemma grows_trans : forall a b c, grows a b -> grows b c -> grows a c.
Proof. intros a b c [] []; constructor; try congruence; auto. Qed.
Lemma grows_reprof : forall t c s a, grows a (reprof t c s a).
Proof. intros; constructor; auto. Qed.

Lemma caches_grows : forall a a', caches a -> grows a a' -> caches a'.
Proof.
  intros a a' H G. unfold caches in *. rewrite (g_fmt _ _ G).
  destruct (a_fmt a) as [[]|]; auto; [apply (g_nones _ _ G)|apply (g_nones _ _ G)|apply (g_ent _ _ G)|apply (g_ent _ _ G)]; auto.
Qed.
Lemma Rep_grows : forall fs a a' v, Rep fs a v -> Rep0 fs a' v -> grows a a' -> Rep fs a' v.
Proof. intros fs a a' v [_ C] R G; split; [assumption|]. exact (caches_grows _ _ C G). Qed.

Lemma stored_ext : forall fs fs' d f v,
  (forall p c, fs p = Some c -> fs' p = Some c) -> stored fs d f v -> stored fs' d f v.
Proof.
  intros fs fs' d f v H S. destruct f as [[]|]; cbn in *; auto.
  destruct S as (p & E & C). exists p; auto.
Qed.
Lemma Rep0_ext : forall fs fs' a v,
  (forall p c, fs p = Some c -> fs' p = Some c) -> Rep0 fs a v -> Rep0 fs' a v.
Proof. intros fs fs' a v H []; constructor; auto. eapply stored_ext; eauto. Qed.
Lemma Rep_ext : forall fs fs' a v,
  (forall p c, fs p = Some c -> fs' p = Some c) -> Rep fs a v -> Rep fs' a v.
Proof. intros fs fs' a v H [R C]; split; auto. eapply Rep0_ext; eauto. Qed.

Ltac rep_same :=
  match goal with
  | H : Rep0 _ ?a ?v |- Rep0 _ _ ?v => destruct H; constructor; asimpl; auto
  end.
Ltac grows_same := constructor; asimpl; auto; try congruence.

(** * Accessors *)

Section Accessors.
Context (w : world) (v : vec).
Notation fs := (w_fs w).

(** Post-condition of a reading accessor that returns [x]. *)
Definition reads {A} (x : A) (a : act) (m : M A) : Prop :=
  wp m (fun y a' w' => y = x /\ w' = w /\ Rep0 fs a' v /\ grows a a') a w.

Lemma wp_read_at : forall a p (Q : list Z -> act -> world -> Prop),
  fs p = Some (as_01 v) ->
  a_nones a = None \/ a_nones a = Some (n_ones v) ->
  (forall t c s, Q (as_01 v) (set_loaded true (set_nones (Some (n_ones v)) (reprof t c s a))) w) ->
  wp (read_at p) Q a w.
Proof.
  intros a p Q Hp Hn H. unfold read_at.
  wstep. wstep. rewrite Hp.
  wstep. wstep.
  wstep. wstep. wstep.
  assert (En : forall (Q' : unit -> act -> world -> Prop),
    Q' tt (set_nones (Some (n_ones v)) (reprof t c s a)) w ->
    wp match a_nones a with
       | Some _ => ret tt
       | None => upd (set_nones (Some (count_ones (as_01 v))))
       end Q' (reprof t c s a) w).
  { intros Q' HQ. destruct Hn as [E|E]; rewrite E.
    - wstep. rewrite count_ones_as_01. exact HQ.
    - wstep. destruct a; asimpl. subst. exact HQ. }
  apply En. clear En.
  wstep. wstep. wstep. wstep.
  wstep. wstep. wstep. wstep.
  wstep. wstep. wstep. wstep. wstep.
  refine (H t2 c2 s2).
Qed.

Lemma wp_read_self : forall a (Q : list Z -> act -> world -> Prop),
  Rep0 fs a v -> a_fmt a = Some FFile ->
  (forall t c s, Q (as_01 v) (set_nones (Some (n_ones v)) (reprof t c s a)) w) ->
  wp read_self Q a w.
Proof.
  intros a Q R F H. unfold read_self. wstep. wstep. rewrite F. wstep. wstep.
  destruct R. rewrite F in r_stored0. destruct r_stored0 as (p & E & C). rewrite E.
  apply wp_read_at; [assumption..|].
  intros t c s. destruct a; asimpl; subst. apply H.
Qed.

Lemma Rep0_set_nones : forall a, Rep0 fs a v -> Rep0 fs (set_nones (Some (n_ones v)) a) v.
Proof. intros a R; rep_same. Qed.
Lemma Rep0_reprof : forall a t c s, Rep0 fs a v -> Rep0 fs (reprof t c s a) v.
Proof. intros a t c s R; rep_same. Qed.
Lemma grows_set_nones : forall a n, grows a (set_nones (Some n) a).
Proof. intros; grows_same. Qed.

Lemma wp_nones_if_unset : forall a (Q : unit -> act -> world -> Prop),
  a_nones a = None \/ a_nones a = Some (n_ones v) ->
  Q tt (set_nones (Some (n_ones v)) a) w ->
  wp (nones_if_unset (as_01 v)) Q a w.
Proof.
  intros a Q Hn HQ. unfold nones_if_unset. wstep. wstep.
  destruct Hn as [E|E]; rewrite E; wstep.
  - rewrite count_ones_as_01. exact HQ.
  - destruct a; asimpl; subst; exact HQ.
Qed.

Lemma wp_bitarray_to_raw_some : forall a (Q : list Z -> act -> world -> Prop),
  (forall t c s, Q (as_01 v) (reprof t c s a) w) ->
  wp (bitarray_to_raw (Some (VBits v))) Q a w.
Proof.
  intros a Q H. unfold bitarray_to_raw. wstep. wstep.
  wstep. wstep. wstep. wstep. wstep. wstep. wstep. apply H.
Qed.

Lemma integer_to_raw_none : forall a wq, a_fmt a <> Some FFile ->
  integer_to_raw None a wq = integer_to_raw (Some (a_data a)) a wq.
Proof.
  intros a wq H. unfold integer_to_raw, bind at 1 3, get at 1, ret at 1.
  destruct (a_fmt a) as [[]|] eqn:F; try congruence; unfold bind at 1, get at 1; rewrite F; reflexivity.
Qed.

Lemma map_bit_zeros : forall n, map bit (repeat false n) = repeat 0 n.
Proof. induction n as [|n IH]; cbn; [reflexivity|]. rewrite IH; reflexivity. Qed.

Lemma wp_integer_to_raw_some : forall a (Q : list Z -> act -> world -> Prop),
  v <> [] -> a_len a = Some (size v) ->
  a_nones a = None \/ a_nones a = Some (n_ones v) ->
  (forall t c s, Q (as_01 v) (set_nones (Some (n_ones v)) (reprof t c s a)) w) ->
  wp (integer_to_raw (Some (VInt (binary v)))) Q a w.
Proof.
  intros a Q Hv Hl Hn H. unfold integer_to_raw. wstep. wstep.
  destruct (bin_digits_binary v Hv) as (s & E & Hs & P).
  wstep. eapply wp_lift; [exact E|].
  wstep. wstep. wstep. wstep. asimpl. rewrite Hl.
  destruct (size v <? len s) eqn:L; [apply Z.ltb_lt in L; change (len s) with (size s) in L; lia|].
  assert (EA : repeat 0 (Z.to_nat (size v - len s)) ++ map bit s = as_01 v).
  { change (len s) with (size s). rewrite <- map_bit_zeros, <- map_app, P. reflexivity. }
  rewrite EA. clear EA.
  wstep. wstep. wstep. wstep. wstep.
  apply wp_nones_if_unset; [exact Hn|]. wstep. apply H.
Qed.

(** Shape of the decompression of a compressed value [d]. *)
Definition compressed_value (d : pyval) : Prop :=
  (v <> [] /\ d = VStr (run_text v)) \/ (2 <= size v /\ d = VArr (run_lengths v)).

Lemma size2_not_nil : 2 <= size v -> v <> [].
Proof. intros H ->. unfold size in H; cbn in H; lia. Qed.

Lemma looks_raw_run_lengths : 2 <= size v -> looks_raw (run_lengths v) = false.
Proof.
  intros H. unfold looks_raw, last_not_bit. pose proof (run_lengths_not_nil v).
  destruct (run_lengths v) eqn:E; [congruence|]. rewrite <- E, last_run_lengths.
  destruct (size v =? 0) eqn:E0; [apply Z.eqb_eq in E0; lia|].
  destruct (size v =? 1) eqn:E1; [apply Z.eqb_eq in E1; lia|]. reflexivity.
Qed.

(** Result of decompress for each kind of output. *)
Definition decompressed (raw_ wc : bool) : pyval :=
  if raw_ then VArr (as_01 v) else if wc then VInt (binary v) else VBits v.

Lemma wp_decompress_gen : forall a wq (d : pyval) value raw_ (Q : pyval -> act -> world -> Prop),
  compressed_value d ->
  (value = Some d \/ value = None /\ a_data a = d /\ (a_fmt a = Some FCStr \/ a_fmt a = Some FCArr)) ->
  a_nones a = None \/ a_nones a = Some (n_ones v) ->
  (forall t c s, Q (decompressed raw_ (WILL_COMPARE (w_cfg wq)))
                   (set_nones (Some (n_ones v)) (reprof t c s a)) wq) ->
  wp (decompress value raw_) Q a wq.
Proof.
  intros a wq d value raw_ Q Hd Hv Hn H. unfold decompress.
  wstep.
  assert (G : forall (Q' : pyval -> act -> world -> Prop), Q' d a wq ->
    wp (match value with
        | Some v0 => ret v0
        | None => f <- get a_fmt;;
                  match f with
                  | Some FFile => xs <- read_self;; ret (VArr xs)
                  | _ => get a_data
                  end
        end) Q' a wq).
  { intros Q' HQ. destruct Hv as [->|(-> & E & F)]; [wstep; exact HQ|].
    wstep. wstep. destruct F as [F|F]; rewrite F; wstep; rewrite E; exact HQ. }
  apply G; clear G.
  (* the common tail *)
  assert (T : forall t c s (Q' : pyval -> act -> world -> Prop),
     (forall t c s, Q' (decompressed raw_ (WILL_COMPARE (w_cfg wq)))
                   (set_nones (Some (n_ones v)) (reprof t c s a)) wq) ->
     v <> [] ->
     wp (s <- lift (decompress_list (run_lengths v));;
         rec_size_if_unset SRaw (VArr s) ;;;
         stamp_bump OC2R ;;;
         nones_if_unset s ;;;
         (if raw_ then ret (VArr s)
          else
            wc <- getw (fun w => WILL_COMPARE (w_cfg w));;
            if wc then
              n <- lift (raw_to_integer (VArr s));;
              stamp_bump OR2I ;;;
              rec_size_if_unset SInt (VInt n) ;;;
              stamp_bump OC2I ;;;
              ret (VInt n)
            else
              b <- lift (raw_to_bitarray (VArr s));;
              stamp_bump OR2B ;;;
              rec_size_if_unset SBits (VBits b) ;;;
              stamp_bump OC2B ;;;
              ret (VBits b))) Q' (reprof t c s a) wq).
  { intros t c s Q' HQ Hne. wstep. eapply wp_lift; [apply decompress_run_lengths; exact Hne|].
    wstep. wstep. wstep. wstep. wstep.
    unfold nones_if_unset. wstep. wstep.
    assert (N : forall (Q'' : unit -> act -> world -> Prop) t c s,
       Q'' tt (set_nones (Some (n_ones v)) (reprof t c s a)) wq ->
       wp match a_nones a with
          | Some _ => ret tt
          | None => upd (set_nones (Some (count_ones (as_01 v))))
          end Q'' (reprof t c s a) wq).
    { intros Q'' ? ? ? HQ''. destruct Hn as [E|E]; rewrite E; wstep.
      - rewrite count_ones_as_01. exact HQ''.
      - destruct a; asimpl; subst; exact HQ''. }
    apply N. clear N. unfold decompressed in HQ.
    destruct raw_; [wstep; apply HQ|].
    wstep. wstep. destruct (WILL_COMPARE (w_cfg wq)) eqn:W.
    - wstep. eapply wp_lift; [apply raw_to_integer_01; exact Hne|].
      wstep. wstep. wstep. wstep. wstep. wstep. wstep. fin HQ.
    - wstep. eapply wp_lift; [apply raw_to_bitarray_01|].
      wstep. wstep. wstep. wstep. wstep. wstep. wstep. fin HQ. }
  destruct Hd as [(Hne & ->)|(H2 & ->)].
  - pose proof (run_text_not_nil v) as NN.
    destruct (run_text v) as [|ch rt] eqn:E; [congruence|]. rewrite <- E.
    wstep. eapply wp_lift; [apply literal_seq_run_text|].
    wstep. wstep. apply T; assumption.
  - pose proof (size2_not_nil H2) as Hne.
    pose proof (run_lengths_not_nil v) as NN. pose proof (looks_raw_run_lengths H2) as LR.
    destruct (run_lengths v) as [|z l] eqn:E; [congruence|]. rewrite LR.
    wstep. wstep. apply T; assumption.
Qed.

Lemma Rep0_compressed_value : forall a, Rep0 fs a v ->
  a_fmt a = Some FCStr \/ a_fmt a = Some FCArr -> compressed_value (a_data a).
Proof.
  intros a [] [F|F]; rewrite F in r_stored0; [left|right]; exact r_stored0.
Qed.

Lemma read_raw : forall a, Rep0 fs a v ->
  wp raw (fun y a' w' => y = as_01 v /\ w' = w /\ Rep0 fs a' v /\ grows a a' /\
            (a_fmt a <> Some FRaw -> a_fmt a <> Some FBits -> a_nones a' <> None)) a w.
Proof.
  intros a R. unfold raw. wstep. wstep. rewrite (r_loaded _ _ _ R). wstep. wstep.
  wstep. wstep. destruct (a_fmt a) as [f|] eqn:F; [|destruct R; rewrite F in *; contradiction].
  assert (RN := r_nones _ _ _ R).
  destruct f.
  - wstep. wstep. pose proof (r_stored _ _ _ R) as S. rewrite F in S. cbn in S. rewrite S.
    wstep. repeat split; auto using grows_refl; try congruence; apply R.
  - pose proof (r_stored _ _ _ R) as S. rewrite F in S. cbn in S.
    unfold bitarray_to_raw. wstep. wstep. wstep. rewrite F. wstep. rewrite S.
    wstep. wstep. wstep. wstep. wstep. wstep. wstep.
    split; [reflexivity|]. split; [reflexivity|].
    split; [rep_same|]. split; [grows_same|congruence].
  - pose proof (r_stored _ _ _ R) as S. rewrite F in S. cbn in S. destruct S as [Hv S].
    eapply wp_eq; [apply integer_to_raw_none; congruence|]. rewrite S.
    apply wp_integer_to_raw_some; [assumption|apply R|assumption|].
    intros t c s. split; [reflexivity|]. split; [reflexivity|].
    split; [apply Rep0_set_nones, Rep0_reprof, R|]. split; [grows_same|].
    intros; asimpl; discriminate.
  - (* FCStr *)
    wstep. eapply wp_decompress_gen with (d := a_data a).
    + apply Rep0_compressed_value; auto.
    + right; auto.
    + exact RN.
    + intros t c s. cbn [decompressed]. wstep.
      split; [reflexivity|]. split; [reflexivity|].
      split; [apply Rep0_set_nones, Rep0_reprof, R|]. split; [grows_same|].
      intros; asimpl; discriminate.
  - wstep. eapply wp_decompress_gen with (d := a_data a).
    + apply Rep0_compressed_value; auto.
    + right; auto.
    + exact RN.
    + intros t c s. cbn [decompressed]. wstep.
      split; [reflexivity|]. split; [reflexivity|].
      split; [apply Rep0_set_nones, Rep0_reprof, R|]. split; [grows_same|].
      intros; asimpl; discriminate.
  - apply wp_read_self; auto. intros t c s.
    split; [reflexivity|]. split; [reflexivity|].
    split; [apply Rep0_set_nones, Rep0_reprof, R|]. split; [grows_same|].
    intros; asimpl; discriminate.
Qed.
End Accessors.
