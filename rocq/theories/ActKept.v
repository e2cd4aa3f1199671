(** Which of the representations the constructor keeps. *)
From Coq Require Import ZArith QArith Bool String Lia List.
From Verif Require Import Base ActModel ActSpec ActObs ActCodec ActRep ActAccess ActBuild.
Import ListNotations.
Open Scope Z_scope.

Definition kept (f : fmt * pyval) : unit -> act -> world -> Prop :=
  fun _ a _ => a_fmt a = Some (fst f) /\ a_data a = snd f.

Section Kept.
Context (w : world) (v : vec).
Hypothesis Hi32 : i32_ok (w_i32 w).
Hypothesis Hv : v <> [].
Notation fs := (w_fs w).

Lemma short_compressed : short_form (w_cfg w) v = (cfmt (DTYPE (w_cfg w)), compressed_of v (DTYPE (w_cfg w))).
Proof. unfold short_form. destruct (DTYPE (w_cfg w)); reflexivity. Qed.

Lemma kept_bits : forall a, cfg_fits (w_cfg w) v -> okc a v -> a_loaded a = true ->
  WILL_COMPARE (w_cfg w) = false ->
  wp (init_with_bitarray v) (kept (chosen w v (VBits v) (a_opt a))) a w.
Proof.
  intros a F O L W. unfold init_with_bitarray, chosen, plain_form. rewrite W, short_compressed.
  wstep. wstep. wstep. wstep. wstep. wstep. wstep. wstep. wstep. wstep.
  rewrite count_filter_id. wstep. wstep.
  destruct (a_opt a) eqn:Ho.
  - wstep. apply (wp_bitarray_to_raw_some w v). intros.
    wstep. eapply wp_lift; [apply (compress_cfg w v); auto; intros; apply F; auto|].
    wstep. wstep. wstep. wstep. wstep. apply (wp_size_compressed w). intros.
    wstep. apply (wp_set_entropies w v); [exact Hv|reflexivity|]. wstep. wstep.
    cbn [fst snd]. destruct (_ <? _); wstep; wstep; wstep; split; reflexivity.
  - wstep. wstep. wstep. split; reflexivity.
Qed.

Lemma kept_int : forall a src, cfg_fits (w_cfg w) v -> okc a v -> a_loaded a = true ->
  WILL_COMPARE (w_cfg w) = true -> src = VBits v \/ src = VInt (binary v) ->
  wp (init_with_integer (binary v) (Some (size v))) (kept (chosen w v src (a_opt a))) a w.
Proof.
  intros a src F O L W S.
  assert (Hs : chosen w v src (a_opt a) = chosen w v (VBits v) (a_opt a)) by (destruct S as [->| -> ]; reflexivity).
  rewrite Hs. unfold init_with_integer, chosen, plain_form. rewrite W, short_compressed.
  wstep. wstep. wstep. wstep. wstep. wstep. wstep. wstep. wstep. wstep.
  destruct (a_opt a) eqn:Ho.
  - wstep. apply (wp_integer_to_raw_some w v); [exact Hv|reflexivity|apply O|]. intros.
    wstep. wstep. wstep. eapply wp_lift; [apply (compress_cfg w v); auto; intros; apply F; auto|].
    wstep. wstep. wstep. wstep. wstep. apply (wp_size_compressed w). intros.
    wstep. apply (wp_set_entropies w v); [exact Hv|reflexivity|]. wstep. wstep.
    cbn [fst snd]. destruct (_ <? _); wstep; wstep; wstep; split; reflexivity.
  - wstep. wstep. wstep. split; reflexivity.
Qed.

Lemma kept_str : forall a o,
  wp (init_with_str (run_text v)) (kept (chosen w v (VStr (run_text v)) o)) a w.
Proof.
  intros a o. unfold init_with_str. wstep. eapply wp_lift; [apply literal_eval_run_text|].
  wstep. wstep. wstep. wstep. wstep. wstep.
  destruct (run_lengths_two v) as (x & y & t' & E). rewrite E. rewrite <- E.
  rewrite last_run_lengths, len_run_lengths.
  wstep. wstep. wstep. apply wp_div_len with (v := v); [exact Hv|reflexivity|].
  wstep. wstep. wstep. split; reflexivity.
Qed.

Lemma kept_carr : forall a o, 2 <= size v ->
  wp (init_with_compressed_array (run_lengths v)) (kept (chosen w v (VArr (run_lengths v)) o)) a w.
Proof.
  intros a o H2. unfold init_with_compressed_array, chosen. wstep. wstep. wstep. wstep. wstep. wstep.
  rewrite last_run_lengths, len_run_lengths.
  assert (E1 : (1 <? size v) = true) by (apply Z.ltb_lt; lia). rewrite E1.
  wstep. wstep. wstep. apply wp_div_len with (v := v); [exact Hv|reflexivity|].
  wstep. wstep. wstep. split; reflexivity.
Qed.

Lemma kept_raw : forall a src o, (STORE_RAW (w_cfg w) = false -> cfg_fits (w_cfg w) v) ->
  okc a v -> a_loaded a = true -> src = VArr (as_01 v) \/ (exists p, src = VPath p) ->
  wp (init_with_raw (as_01 v)) (kept (chosen w v src o)) a w.
Proof.
  intros a src o F O L S.
  assert (Hs : chosen w v src o = chosen w v VNone o).
  { destruct S as [->|[p ->]]; [|reflexivity]. unfold chosen. rewrite last_as_01_lt. reflexivity. }
  rewrite Hs. unfold chosen, plain_form. rewrite short_compressed.
  unfold init_with_raw. rewrite ubyte_as_01, count_ones_as_01, len_as_01.
  wstep. wstep. wstep. wstep. wstep. wstep. wstep. wstep. wstep. wstep. wstep. wstep.
  destruct (STORE_RAW (w_cfg w)).
  - wstep. wstep. wstep. split; reflexivity.
  - specialize (F eq_refl).
    wstep. eapply wp_lift; [apply (compress_cfg w v); auto; intros; apply F; auto|].
    wstep. wstep. wstep. apply (wp_size_compressed w). intros.
    wstep. apply (wp_set_entropies w v); [exact Hv|reflexivity|]. wstep. wstep.
    destruct (WILL_COMPARE (w_cfg w)) eqn:W.
    + wstep. eapply wp_lift; [apply raw_to_integer_01; exact Hv|].
      wstep. wstep. wstep. wstep. wstep. wstep.
      cbn [fst snd]. destruct (_ <? _); wstep; wstep; wstep; split; reflexivity.
    + wstep. eapply wp_lift; [apply raw_to_bitarray_01|].
      wstep. wstep. wstep. wstep. wstep. wstep.
      cbn [fst snd]. destruct (_ <? _); wstep; wstep; wstep; split; reflexivity.
Qed.

Lemma kept_any_raw : forall a length to_file src o,
  (STORE_RAW (w_cfg w) = false -> cfg_fits (w_cfg w) v) ->
  okc a v -> a_loaded a = true -> src = VArr (as_01 v) \/ (exists p, src = VPath p) ->
  to_file && negb (STORE_RAW (w_cfg w)) = false ->
  wp (init_with_any (VArr (as_01 v)) length to_file) (kept (chosen w v src o)) a w.
Proof.
  intros a l tf src o F O L S E. unfold init_with_any.
  rewrite last_as_01_lt, andb_false_r. wstep. wstep. rewrite E. apply kept_raw; auto.
Qed.

Lemma kept_init : forall src l opt to_file,
  denotes w v src l -> cfg_fits (w_cfg w) v -> writes w src to_file = false ->
  wp (init src l to_file false) (kept (chosen w v src opt)) (blank opt) w.
Proof.
  intros src l opt to_file D F N. unfold init.
  wstep. unfold init_convert. wstep. wstep.
  destruct D as [l | l Hl | | l | l H2 | p l Hp].
  - wstep. unfold writes in *. rewrite last_as_01_lt in *. cbn [negb andb] in *.
    wstep. wstep. apply kept_any_raw; auto. constructor; left; reflexivity.
  - destruct (WILL_COMPARE (w_cfg w)) eqn:W.
    + wstep. wstep. wstep. wstep.
      wstep. eapply wp_lift; [apply bits_to_int_spec; exact Hv|].
      wstep. wstep. wstep. wstep. wstep.
      rewrite count_filter_id. wstep. wstep.
      assert (El : match l with Some _ => l | None => Some (len v) end = Some (size v))
        by (destruct Hl as [->| ->]; reflexivity).
      rewrite El. cbn [init_with_any].
      eapply wp_mono; [eapply kept_int with (src := VBits v)|]; auto.
      * constructor; asimpl; unfold blank; asimpl; auto.
    + wstep. wstep. wstep. cbn [init_with_any].
      eapply wp_mono; [apply kept_bits|]; auto. constructor; left; reflexivity.
  - destruct (WILL_COMPARE (w_cfg w)) eqn:W.
    + wstep. wstep. wstep. cbn [init_with_any].
      eapply wp_mono; [eapply kept_int with (src := VInt (binary v))|]; auto. constructor; left; reflexivity.
    + wstep. wstep.
      destruct (bin_digits_binary v Hv) as (sb & E & _ & _).
      wstep. eapply wp_lift; [exact E|].
      rewrite (pad_bits_binary v sb Hv E).
      wstep. wstep. wstep. wstep. wstep. wstep. wstep. cbn [init_with_any].
      eapply wp_mono; [apply kept_bits|]; auto. constructor; left; reflexivity.
  - wstep. wstep. wstep. cbn [init_with_any].
    eapply wp_mono; [apply kept_str with (o := opt)|]; auto.
  - unfold writes; cbv iota beta.
    assert (E1 : (1 <? size v) = true) by (apply Z.ltb_lt; lia).
    wstep. wstep. wstep. unfold init_with_any. rewrite last_run_lengths, E1.
    assert (E2 : (0 <? len (run_lengths v)) = true).
    { apply Z.ltb_lt. rewrite len_run_lengths. pose proof (len_nonneg _ (switches v)). lia. }
    rewrite E2. cbn [andb]. apply kept_carr; auto.
  - unfold writes in *. wstep. wstep.
    apply (wp_read_at w v); [exact Hp|left; reflexivity|]. intros t c s.
    apply kept_any_raw; eauto. constructor; asimpl; unfold blank; asimpl; auto.
Qed.

Lemma new_kept : forall src l opt to_file a w',
  denotes w v src l -> cfg_fits (w_cfg w) v -> writes w src to_file = false ->
  new src opt l to_file false w = (Ok a, w') ->
  a_fmt a = Some (fst (chosen w v src opt)) /\ a_data a = snd (chosen w v src opt).
Proof.
  intros src l opt to_file a w' D F N E. pose proof (kept_init src l opt to_file D F N) as H.
  unfold wp in H. unfold new in E.
  destruct (init src l to_file false (blank opt) w) as [[[u|e] a1] w1]; [|contradiction].
  injection E as <- <-. exact H.
Qed.
End Kept.
