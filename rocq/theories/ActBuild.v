(** Constructors of Activation: they establish the representation invariant
    (lemmas). *)
From Coq Require Import Decimal DecimalString DecimalZ ZArith QArith Bool String Ascii List Lia.
From Verif Require Import Base ActModel ActSpec ActObs ActCodec ActRep ActAccess.
Import ListNotations.
Open Scope Z_scope.

(** Cached statistics absent or right, whatever the data. *)
Record okc (a : act) (v : vec) : Prop := mkOkc {
  o_nones : a_nones a = None \/ a_nones a = Some (n_ones v);
  o_cov : a_cov a = None \/ a_cov a = Some (fraction (n_ones v) (size v));
  o_ent : a_entropy a = None \/ a_entropy a = Some (n_entropy v);
  o_relent : a_relent a = None \/ a_relent a = Some (fraction (n_entropy v) (size v))
}.

(** The world after saving [v] under that name. *)
Definition saved (w : world) (v : vec) : world :=
  set_fs (fs_put (next_name w) (as_01 v) (w_fs w)) (tick w).

Section Build.
Context (w : world) (v : vec).
Notation fs := (w_fs w).
Hypothesis Hi32 : i32_ok (w_i32 w).
Hypothesis Hv : v <> [].

Definition compressed_of (d : dtype) : pyval :=
  match d with DStr => VStr (run_text v) | DArr => VArr (run_lengths v) end.

Lemma compress_cfg : forall d, (d = DArr -> fits_compressed_array v) ->
  compress (w_i32 w) (VArr (as_01 v)) d = Ok (compressed_of d).
Proof.
  intros [|] H; [apply compress_str; exact Hv|apply compress_arr; auto].
Qed.

Lemma wp_size_compressed : forall d a (Q : Z -> act -> world -> Prop),
  (forall t c s, Q (w_size w (compressed_of d)) (reprof t c s a) w) ->
  wp (size_compressed (compressed_of d)) Q a w.
Proof.
  intros d a Q H. unfold size_compressed. wstep. destruct d; cbn [compressed_of]; wstep; wstep; apply H.
Qed.

Lemma compressed_len_cfg : forall d, compressed_len d (compressed_of d) = Ok (n_entropy v).
Proof. intros [|]; [apply compressed_len_str|apply compressed_len_arr]. Qed.

Lemma wp_set_entropies : forall d a (Q : unit -> act -> world -> Prop),
  a_len a = Some (size v) ->
  Q tt (set_relent (Some (fraction (n_entropy v) (size v))) (set_entropy (Some (n_entropy v)) a)) w ->
  wp (set_entropies d (compressed_of d)) Q a w.
Proof.
  intros d a Q Hl HQ. unfold set_entropies. wstep.
  eapply wp_lift; [apply compressed_len_cfg|]. wstep. wstep. wstep.
  apply wp_div_len with (v := v); [exact Hv|exact Hl|]. wstep. exact HQ.
Qed.

(** Post-condition of a constructor that stays in memory. *)
Definition built (a : act) : unit -> act -> world -> Prop :=
  fun _ a' w' => w' = w /\ Rep fs a' v /\ a_fmt a' <> Some FFile /\
    (a_fmt a' = Some FInt -> WILL_COMPARE (w_cfg w) = true) /\
    a_opt a' = a_opt a /\ a_tofile a' = a_tofile a /\ a_lasy a' = a_lasy a.

Ltac done_built O :=
  split; [reflexivity|]; split;
  [ split; [ constructor; asimpl; cbn [stored cfmt]; auto; try (destruct O; auto; fail)
           | unfold caches; asimpl; cbn [cfmt]; try discriminate; auto ]
  | asimpl; cbn [cfmt]; repeat split; auto; try discriminate ].

Lemma stored_cfg : forall d, (d = DArr -> 2 <= size v) -> stored fs (compressed_of d) (Some (cfmt d)) v.
Proof. intros [|] H; cbn; auto. Qed.

Lemma wp_init_bits : forall a, cfg_fits (w_cfg w) v -> okc a v -> a_loaded a = true ->
  wp (init_with_bitarray v) (built a) a w.
Proof.
  intros a F O L. unfold init_with_bitarray.
  wstep. wstep. wstep. wstep. wstep. wstep. wstep. wstep. wstep. wstep.
  rewrite count_filter_id. wstep. wstep.
  destruct (a_opt a) eqn:Ho.
  - wstep. apply wp_bitarray_to_raw_some. intros.
    wstep. eapply wp_lift; [apply compress_cfg; intros; apply F; auto|].
    wstep. wstep. wstep. wstep. wstep. apply wp_size_compressed. intros.
    wstep. apply wp_set_entropies; [reflexivity|]. wstep. wstep.
    destruct (_ <? _).
    + wstep. wstep. wstep. done_built O.
    + wstep. wstep. wstep. split; [reflexivity|].
      split; [split; [constructor; asimpl; auto; try (destruct O; auto; fail)
                     |unfold caches; asimpl; destruct (DTYPE (w_cfg w)); cbn; discriminate]|].
      * apply stored_cfg. intros; apply F; auto.
      * asimpl. destruct (DTYPE (w_cfg w)); cbn; repeat split; auto; discriminate.
  - wstep. wstep. wstep. done_built O.
Qed.

Lemma wp_init_int : forall a, cfg_fits (w_cfg w) v -> okc a v -> a_loaded a = true ->
  WILL_COMPARE (w_cfg w) = true ->
  wp (init_with_integer (binary v) (Some (size v))) (built a) a w.
Proof.
  intros a F O L W. unfold init_with_integer.
  wstep. wstep. wstep. wstep. wstep. wstep. wstep. wstep. wstep. wstep.
  destruct (a_opt a) eqn:Ho.
  - wstep. apply wp_integer_to_raw_some; [exact Hv|reflexivity|apply O|]. intros.
    wstep. wstep. rewrite count_ones_as_01.
    wstep. eapply wp_lift; [apply compress_cfg; intros; apply F; auto|].
    wstep. wstep. wstep. wstep. wstep. apply wp_size_compressed. intros.
    wstep. apply wp_set_entropies; [reflexivity|]. wstep. wstep.
    destruct (_ <? _).
    + wstep. wstep. wstep. done_built O.
    + wstep. wstep. wstep. split; [reflexivity|].
      split; [split; [constructor; asimpl; auto; try (destruct O; auto; fail)
                     |unfold caches; asimpl; destruct (DTYPE (w_cfg w)); cbn; discriminate]|].
      * apply stored_cfg. intros; apply F; auto.
      * asimpl. destruct (DTYPE (w_cfg w)); cbn; repeat split; auto; discriminate.
  - wstep. wstep. wstep. done_built O.
Qed.

Lemma wp_init_str : forall a, okc a v -> a_loaded a = true ->
  wp (init_with_str (run_text v)) (built a) a w.
Proof.
  intros a O L. unfold init_with_str. wstep. eapply wp_lift; [apply literal_eval_run_text|].
  wstep. wstep. wstep. wstep. wstep. wstep.
  destruct (run_lengths_two v) as (x & y & t' & E). rewrite E. rewrite <- E. 
  rewrite last_run_lengths, len_run_lengths.
  wstep. wstep. wstep. apply wp_div_len with (v := v); [exact Hv|reflexivity|].
  wstep. wstep. wstep. done_built O.
Qed.

Lemma wp_init_carr : forall a, 2 <= size v -> okc a v -> a_loaded a = true ->
  wp (init_with_compressed_array (run_lengths v)) (built a) a w.
Proof.
  intros a H2 O L. unfold init_with_compressed_array. wstep. wstep. wstep. wstep. wstep. wstep.
  rewrite last_run_lengths, len_run_lengths.
  wstep. wstep. wstep. apply wp_div_len with (v := v); [exact Hv|reflexivity|].
  wstep. wstep. wstep. done_built O.
Qed.

Lemma wp_init_raw : forall a, (STORE_RAW (w_cfg w) = false -> cfg_fits (w_cfg w) v) ->
  okc a v -> a_loaded a = true ->
  wp (init_with_raw (as_01 v)) (built a) a w.
Proof.
  intros a F O L. unfold init_with_raw. rewrite ubyte_as_01, count_ones_as_01, len_as_01.
  wstep. wstep. wstep. wstep. wstep. wstep. wstep. wstep. wstep. wstep. wstep. wstep.
  destruct (STORE_RAW (w_cfg w)).
  - wstep. wstep. wstep. done_built O.
  - specialize (F eq_refl).
    wstep. eapply wp_lift; [apply compress_cfg; intros; apply F; auto|].
    wstep. wstep. wstep. apply wp_size_compressed. intros.
    wstep. apply wp_set_entropies; [reflexivity|]. wstep. wstep.
    destruct (WILL_COMPARE (w_cfg w)) eqn:W.
    + wstep. eapply wp_lift; [apply raw_to_integer_01; exact Hv|].
      wstep. wstep. wstep. wstep. wstep. wstep.
      destruct (_ <? _).
      * wstep. wstep. wstep. split; [reflexivity|].
        split; [split; [constructor; asimpl; auto; try (destruct O; auto; fail)
                       |unfold caches; asimpl; destruct (DTYPE (w_cfg w)); cbn; discriminate]|].
        -- apply stored_cfg. intros; apply F; auto.
        -- asimpl. destruct (DTYPE (w_cfg w)); cbn; repeat split; auto; discriminate.
      * wstep. wstep. wstep. done_built O.
    + wstep. eapply wp_lift; [apply raw_to_bitarray_01|].
      wstep. wstep. wstep. wstep. wstep. wstep.
      destruct (_ <? _).
      * wstep. wstep. wstep. split; [reflexivity|].
        split; [split; [constructor; asimpl; auto; try (destruct O; auto; fail)
                       |unfold caches; asimpl; destruct (DTYPE (w_cfg w)); cbn; discriminate]|].
        -- apply stored_cfg. intros; apply F; auto.
        -- asimpl. destruct (DTYPE (w_cfg w)); cbn; repeat split; auto; discriminate.
      * wstep. wstep. wstep. done_built O.
Qed.

(** ** writing *)
Lemma path_eqb_refl : forall p, path_eqb p p = true.
Proof. intros [n|s]; cbn; [apply Z.eqb_refl|apply String.eqb_refl]. Qed.
Lemma path_eqb_true : forall p q, path_eqb p q = true -> p = q.
Proof.
  intros [n|s] [m|r]; cbn; try discriminate; intros H.
  - apply Z.eqb_eq in H; congruence.
  - apply String.eqb_eq in H; congruence.
Qed.
Lemma fs_put_same : forall p xs f, fs_put p xs f p = Some xs.
Proof. intros. unfold fs_put. rewrite path_eqb_refl. reflexivity. Qed.
Lemma fs_put_keep : forall p xs f q c, f p = None -> f q = Some c -> fs_put p xs f q = Some c.
Proof.
  intros. unfold fs_put. destruct (path_eqb q p) eqn:E; [|assumption].
  apply path_eqb_true in E; subst; congruence.
Qed.

Lemma wp_write : forall a (Q : bool -> act -> world -> Prop),
  fs (next_name w) = None ->
  (forall t c s, Q true (set_fmt (Some FFile) (set_data (VPath (next_name w))
     (set_nones (Some (n_ones v)) (set_len (Some (size v)) (reprof t c s a))))) (saved w v)) ->
  wp (write (as_01 v)) Q a w.
Proof.
  intros a Q N H. unfold write. rewrite ubyte_as_01, count_ones_as_01, len_as_01.
  wstep. wstep. wstep. wstep. wstep. wstep. wstep. unfold randint.
  wstep. wstep. wstep. wstep. wstep. wstep. wstep. wstep.
  change (PTmp (w_rnd w (w_clk w))) with (next_name w).
  apply wp_mono with (Q := fun x a' w' => x = Some (next_name w) /\ a' = set_nones (Some (n_ones v)) (set_len (Some (size v)) (reprof t c s a)) /\ w' = tick w).
  - destruct (a_lasy a).
    + wstep. auto.
    + change (find_name 100) with (fun ar n => find_name 100 ar n). cbv beta.
      unfold wp, find_name, bind at 1, getw at 1. cbn [w_fs tick].
      unfold next_name in N. rewrite N. cbn. auto.
  - intros x a' w' (-> & -> & ->).
    wstep. wstep. wstep. wstep. wstep. wstep.
    wstep. wstep. wstep. asimpl. wstep. wstep. wstep. wstep. wstep.
    wstep. exact (H t2 c2 s2).
Qed.

(** ** the dispatch on a raw vector *)
Definition built_any (to_file : bool) (a : act) : unit -> act -> world -> Prop :=
  fun _ a' w' =>
    w' = (if to_file && negb (STORE_RAW (w_cfg w)) then saved w v else w) /\
    Rep (w_fs w') a' v /\
    (a_fmt a' = Some FFile <-> to_file && negb (STORE_RAW (w_cfg w)) = true) /\
    (a_fmt a' = Some FFile -> a_data a' = VPath (next_name w)) /\
    (a_fmt a' = Some FInt -> WILL_COMPARE (w_cfg w) = true) /\
    a_opt a' = a_opt a /\ a_lasy a' = a_lasy a /\
    a_tofile a' = (if to_file && negb (STORE_RAW (w_cfg w)) then true else a_tofile a).

Lemma wp_decompress_raw : forall a raw_ (Q : pyval -> act -> world -> Prop),
  (a_nones a = None \/ a_nones a = Some (n_ones v)) ->
  (forall t c s, Q (VArr (as_01 v)) (set_nones (Some (n_ones v)) (reprof t c s a)) w) ->
  wp (decompress (Some (VArr (as_01 v))) raw_) Q a w.
Proof.
  intros a raw_ Q Hn H. unfold decompress. wstep. wstep.
  destruct (as_01 v) as [|x l] eqn:E.
  - wstep. wstep. wstep. rewrite <- E. apply wp_nones_if_unset; [assumption|].
    wstep. rewrite E. exact (H t c s).
  - rewrite <- E, looks_raw_as_01. wstep. wstep. wstep. rewrite ubyte_as_01.
    apply wp_nones_if_unset; [assumption|]. wstep. rewrite E. exact (H t c s).
Qed.

Lemma last_as_01_lt : (1 <? last (as_01 v) 0) = false.
Proof. destruct (last_as_01 v) as [H|H]; rewrite H; reflexivity. Qed.

(** What a vector needs to be stored from raw without loss. *)
Definition raw_fits (to_file : bool) : Prop :=
  STORE_RAW (w_cfg w) = false -> to_file = false -> cfg_fits (w_cfg w) v.

Lemma wp_init_any_raw : forall a to_file length,
  (to_file = true -> STORE_RAW (w_cfg w) = false -> fs (next_name w) = None) ->
  raw_fits to_file -> okc a v -> a_loaded a = true ->
  wp (init_with_any (VArr (as_01 v)) length to_file) (built_any to_file a) a w.
Proof.
  intros a to_file l N F O L. unfold init_with_any.
  rewrite last_as_01_lt, andb_false_r. wstep. wstep.
  destruct (to_file && negb (STORE_RAW (w_cfg w))) eqn:E.
  - apply andb_true_iff in E as [-> E]. apply negb_true_iff in E.
    wstep. unfold to_raw_from_any. wstep. apply wp_decompress_raw; [apply O|]. intros.
    wstep. wstep. apply wp_write; [auto|]. intros. wstep.
    unfold built_any. rewrite E. cbn [negb andb].
    split; [reflexivity|]. split; [split|].
    + constructor; asimpl; auto; try (destruct O; auto; fail).
      exists (next_name w). split; [reflexivity|]. apply fs_put_same.
    + unfold caches; asimpl. exact I.
    + asimpl. repeat split; auto; discriminate.
  - eapply wp_mono; [apply (wp_init_raw a)|]; auto.
    + intros S. apply F; auto. rewrite S in E. cbn in E. rewrite andb_true_r in E; exact E.
    + intros x a' w' (-> & R & NF & W & HO & T & HL). unfold built_any. rewrite E.
      repeat split; auto; try apply R; try congruence; intros; try discriminate; contradiction.
Qed.

(** ** __init__ *)
Lemma okc_blank : forall o, okc (blank o) v.
Proof. intros; constructor; left; reflexivity. Qed.

Definition built_new (wr : bool) (opt : bool) (a' : act) (w' : world) : Prop :=
    w' = (if wr then saved w v else w) /\
    Rep (w_fs w') a' v /\
    (a_fmt a' = Some FFile <-> wr = true) /\
    (a_fmt a' = Some FFile -> a_data a' = VPath (next_name w)) /\
    (a_fmt a' = Some FInt -> WILL_COMPARE (w_cfg w) = true) /\
    a_opt a' = opt /\ a_lasy a' = false /\ a_tofile a' = wr.

Lemma built_new_of_built : forall a' opt w' u, built (set_loaded true (blank opt)) u a' w' ->
  built_new false opt a' w'.
Proof.
  intros a' opt w' u (-> & R & NF & W & HO & T & HL). unfold built_new.
  repeat split; auto; try apply R; intros; try contradiction; try discriminate.
Qed.

Lemma wp_init : forall src l opt to_file,
  denotes w v src l ->
  cfg_fits (w_cfg w) v ->
  (writes w src to_file = true -> fs (next_name w) = None) ->
  wp (init src l to_file false) (fun _ => built_new (writes w src to_file) opt) (blank opt) w.
Proof.
  intros src l opt to_file D F N. unfold init.
  wstep. unfold init_convert. wstep. wstep.
  destruct D as [l | l Hl | | l | l H2 | p l Hp].
  - wstep. unfold writes in *. rewrite last_as_01_lt in *. cbn [negb andb] in *.
    wstep. wstep. eapply wp_mono; [apply (wp_init_any_raw (set_loaded true (blank opt)) to_file l)|].
    + intros -> E. apply N. rewrite E. reflexivity.
    + intros _ _. exact F.
    + constructor; left; reflexivity.
    + reflexivity.
    + intros x a' w' (A & B & C & D & E & G & H & I). unfold built_new.
      split; [exact A|]. repeat split; auto; try apply B; try apply C.
      rewrite I. asimpl. unfold blank. asimpl. destruct (to_file && negb (STORE_RAW (w_cfg w))); reflexivity.
  - unfold writes; cbv iota beta. destruct (WILL_COMPARE (w_cfg w)) eqn:W.
    + wstep. wstep. wstep. wstep.
      wstep. eapply wp_lift; [apply bits_to_int_spec; exact Hv|].
      wstep. wstep. wstep. wstep. wstep.
      rewrite count_filter_id. wstep. wstep.
      assert (El : match l with Some _ => l | None => Some (len v) end = Some (size v))
        by (destruct Hl as [->| ->]; reflexivity).
      rewrite El. cbn [init_with_any].
      eapply wp_mono; [apply wp_init_int|]; auto.
      * constructor; asimpl; unfold blank; asimpl; auto.
      * intros x a' w' (A & B & C & D & E & G & H). eapply (built_new_of_built) with (u:=tt).
        unfold built. asimpl. unfold blank in *; asimpl. repeat split; auto; try apply B; congruence.
    + wstep. wstep. wstep. cbn [init_with_any].
      eapply wp_mono; [apply wp_init_bits|]; auto.
      * constructor; left; reflexivity.
      * intros x a' w' B. eapply built_new_of_built; exact B.
  - unfold writes; cbv iota beta. destruct (WILL_COMPARE (w_cfg w)) eqn:W.
    + wstep. wstep. wstep. cbn [init_with_any].
      eapply wp_mono; [apply wp_init_int|]; auto.
      * constructor; left; reflexivity.
      * intros x a' w' B. eapply built_new_of_built; exact B.
    + wstep. wstep.
      destruct (bin_digits_binary v Hv) as (sb & E & _ & _).
      wstep. eapply wp_lift; [exact E|].
      rewrite (pad_bits_binary v sb Hv E).
      wstep. wstep. wstep. wstep. wstep. wstep. wstep. cbn [init_with_any].
      eapply wp_mono; [apply wp_init_bits|]; auto.
      * constructor; left; reflexivity.
      * intros x a' w' (A & B & C & D & G & H & K). eapply (built_new_of_built) with (u:=tt).
        unfold built. asimpl. unfold blank in *; asimpl. repeat split; auto; try apply B; congruence.
  - unfold writes; cbv iota beta. wstep. wstep. wstep. cbn [init_with_any].
    eapply wp_mono; [apply wp_init_str|]; auto.
    + constructor; left; reflexivity.
    + intros x a' w' B. eapply built_new_of_built; exact B.
  - unfold writes; cbv iota beta. rewrite last_run_lengths.
    assert (E1 : (1 <? size v) = true) by (apply Z.ltb_lt; lia). rewrite E1.
    wstep. wstep. wstep. unfold init_with_any. rewrite last_run_lengths, E1.
    assert (E2 : (0 <? len (run_lengths v)) = true).
    { apply Z.ltb_lt. rewrite len_run_lengths. pose proof (len_nonneg _ (switches v)). lia. }
    rewrite E2. cbn [andb].
    eapply wp_mono; [apply wp_init_carr|]; auto.
    + constructor; left; reflexivity.
    + intros x a' w' B. eapply built_new_of_built; exact B.
  - unfold writes in *. wstep. wstep.
    apply (wp_read_at w v); [exact Hp|left; reflexivity|]. intros t c s.
    eapply wp_mono; [apply (wp_init_any_raw _ to_file l)|].
    + intros -> E. apply N. rewrite E. reflexivity.
    + intros _ _. exact F.
    + constructor; asimpl; unfold blank; asimpl; auto.
    + reflexivity.
    + intros x a' w' (A & B & C & D & E & G & H & I). unfold built_new. cbn [andb].
      split; [exact A|]. repeat split; auto; try apply B; try apply C.
      rewrite I. asimpl. unfold blank. asimpl. destruct (to_file && negb (STORE_RAW (w_cfg w))); reflexivity.
Qed.

Lemma new_spec : forall src l opt to_file,
  denotes w v src l ->
  cfg_fits (w_cfg w) v ->
  (writes w src to_file = true -> fs (next_name w) = None) ->
  exists a w', new src opt l to_file false w = (Ok a, w') /\ built_new (writes w src to_file) opt a w'.
Proof.
  intros src l opt to_file D F N. pose proof (wp_init src l opt to_file D F N) as H.
  unfold wp in H. unfold new.
  destruct (init src l to_file false (blank opt) w) as [[[u|e] a] w']; [|contradiction].
  exists a, w'. split; [reflexivity|exact H].
Qed.
End Build.
