(** The profile after clear and after a lazy loading, and the profile of every
    activation a user can hold (lemmas). *)
From Coq Require Import Decimal DecimalString DecimalZ ZArith QArith Bool String Ascii List Lia.
From Verif Require Import Base ActModel ActSpec ActObs ActCodec ActRep ActAccess ActBuild ActProf ActHold
  ActCountSpec ActTrack ActTrackBuild ActTrackMore.
Import ListNotations.
Open Scope Z_scope.

(** * clear *)
Lemma tr_clear : forall w v a,
  i32_ok (w_i32 w) -> v <> [] -> Rep0 (w_fs w) a v -> cfg_fits (w_cfg w) v ->
  wp clear (fun _ a' _ => eff w (map (fun _ => false) v) (reset a) a' (stored_raw w false) (made_raw w false) /\ formed a') a w.
Proof.
  intros w v a Hi Hv R F. unfold clear. wstep. wstep. rewrite (r_len _ _ _ R).
  assert (E : (size v <? 0) = false) by (apply Z.ltb_ge; pose proof (size_nonneg v); lia).
  rewrite E. wstep. wstep. unfold size at 1. rewrite Nat2Z.id.
  rewrite <- as_01_zeros, <- map_const_repeat.
  eapply wp_mono; [apply (tr_init_raw w (map (fun _ => false) v))|].
  - exact Hi.
  - apply zeros_not_nil, Hv.
  - intros _. unfold cfg_fits, fits_compressed_array in *. rewrite size_zeros. exact F.
  - intros u a' w' (K & FO). split; [exact K|exact FO].
Qed.

(** * The first reading of a lazy activation *)
Lemma fmt_init_raw : forall w xs a, STORE_RAW (w_cfg w) = true ->
  wp (init_with_raw xs) (fun _ a' _ => a_fmt a' = Some FRaw) a w.
Proof.
  intros w xs a S. unfold init_with_raw.
  wstep. wstep. wstep. wstep. wstep. unfold rec_size. wstep. wstep. wstep. wstep. wstep. wstep. wstep. wstep. wstep.
  rewrite S. wstep. wstep. wstep. reflexivity.
Qed.
Lemma fmt_init_any_raw : forall w v l tf a, STORE_RAW (w_cfg w) = true ->
  wp (init_with_any (VArr (as_01 v)) l tf) (fun _ a' _ => a_fmt a' = Some FRaw) a w.
Proof.
  intros w v l tf a S. unfold init_with_any. rewrite last_as_01_lt, andb_false_r. wstep. wstep.
  rewrite S, andb_false_r. apply fmt_init_raw, S.
Qed.

Definition lazily (w : world) : list op :=
  ORead :: stored_raw w true ++ (if STORE_RAW (w_cfg w) then [] else [ORead]).
Lemma tr_lazy : forall w v p opt,
  i32_ok (w_i32 w) -> v <> [] -> w_fs w p = Some (as_01 v) ->
  (STORE_RAW (w_cfg w) = false -> w_fs w (next_name w) = None) ->
  let a := set_fmt (Some FFile) (set_data (VPath p) (set_lasy true (blank opt))) in
  wp raw (fun _ a' _ => eff w v a a' (lazily w) [] /\ formed a') a w.
Proof.
  intros w v p opt Hi Hv Hp N a. pose proof (eff_refl w v a) as T.
  unfold raw. wstep. wstep. change (a_loaded a) with false. cbv iota.
  wstep. wstep. unfold read_self. wstep. wstep.
  change (a_fmt a) with (Some FFile). cbv iota. wstep. wstep. change (a_data a) with (VPath p). cbv iota.
  apply (tr_read_at w v w); [reflexivity|reflexivity|exact Hp|eexists; reflexivity|left; reflexivity|].
  intros t c s K. chain T K.
  assert (OB : okc (set_loaded true (set_nones (Some (n_ones v)) (reprof t c s a))) v)
    by (constructor; asimpl; unfold a, blank; asimpl; auto).
  set (a1 := set_loaded true (set_nones (Some (n_ones v)) (reprof t c s a))) in *.
  assert (B : wp (init_with_any (VArr (as_01 v)) None true) (built_any w v true a1) a1 w).
  { apply wp_init_any_raw; [exact Hi|exact Hv|auto|intros _ H; discriminate H|exact OB|reflexivity]. }
  assert (Tr := tr_init_any_raw w v Hi Hv a1 true None (fun _ => N) (fun _ H => False_ind _ (diff_true_false H)) OB).
  assert (F : wp (init_with_any (VArr (as_01 v)) None true)
     (fun _ a' _ => STORE_RAW (w_cfg w) = true -> a_fmt a' = Some FRaw) a1 w).
  { destruct (STORE_RAW (w_cfg w)) eqn:S.
    - eapply wp_mono; [apply fmt_init_any_raw, S|]. auto.
    - eapply wp_mono; [exact B|]. intros u a' w' _ H. discriminate H. }
  eapply wp_mono; [exact (wp_both _ _ _ _ _ _ B (wp_both _ _ _ _ _ _ Tr F))|].
  intros u a2 w2 ((A & R & FF & _) & ((K & FO) & _) & FR).
  assert (T2 : eff w v a a2 (ORead :: stored_raw w true) []).
  { assert (T1 : eff w v a a1 [ORead] []) by (effs T). chain T1 K. effs T1. }
  clear T K. eapply wp_eq; [symmetry; apply raw_loaded; apply R|].
  cbn [andb] in A, FF.
  assert (EF : exists f, a_fmt a2 = Some f /\ to_raw f = if STORE_RAW (w_cfg w) then [] else [ORead]).
  { destruct (STORE_RAW (w_cfg w)).
    - exists FRaw. auto.
    - exists FFile. split; [apply FF; reflexivity|reflexivity]. }
  destruct EF as (f & Ef & Er).
  pose proof (wp_both _ _ _ _ _ _ (acc_raw w2 v a2 (proj1 R)) (tr_raw w2 v a2 f (proj1 R) Ef)) as AR.
  eapply wp_mono; [exact AR|]. intros x a3 w3 ((_ & _ & _ & G) & K).
  assert (K' : eff w v a2 a3 (to_raw f) []).
  { assert (K1 : eff w2 v a2 a3 (to_raw f) []) by (effs K).
    rewrite A in K1. clear - K1. destruct (STORE_RAW (w_cfg w)); exact K1. }
  pose proof (eff_trans w v _ _ _ _ _ _ _ _ _ T2 K') as Z. rewrite Er in Z. split; [exact Z|].
  intros f' E'. rewrite (g_fmt _ _ G) in E'. apply (e_kept _ _ _ _ _ _ _ _ K'), (FO f' E').
Qed.

(** * Held activations *)
Lemma obtained_form : forall w a v, obtained w a v -> exists f, a_fmt a = Some f.
Proof.
  intros w a v O. destruct (obtained_rep _ _ _ O) as (_ & _ & _ & [R _]).
  pose proof (r_stored _ _ _ R) as S. destruct (a_fmt a) as [f|]; [eauto|destruct S].
Qed.

Lemma held_call : forall w a v f x r a' w', obtained w a v -> a_fmt a = Some f ->
  call x a w = (r, a', w') -> eff w v a a' (conversions f a x) (noted f x) /\ a_fmt a' = Some f.
Proof.
  intros w a v f x r a' w' O F E. destruct (obtained_rep _ _ _ O) as (Hi & Hv & Hf & R).
  pose proof (tr_call w v Hi a f x Hv Hf R F) as K.
  destruct (call_rep w v x a Hi Hv Hf R) as (a0 & E0 & _ & G).
  unfold wp in K. rewrite E0 in K. rewrite E0 in E. injection E as _ <- _.
  split; [exact K|]. rewrite (g_fmt _ _ G). exact F.
Qed.
Lemma held_clear : forall w a v r a' w', obtained w a v -> cfg_fits (w_cfg w) v ->
  clear a w = (r, a', w') ->
  eff w (map (fun _ => false) v) (reset a) a' (stored_raw w false) (made_raw w false) /\ formed a'.
Proof.
  intros w a v r a' w' O F E. destruct (obtained_rep _ _ _ O) as (Hi & Hv & Hf & R).
  pose proof (tr_clear w v a Hi Hv (proj1 R) F) as K. unfold wp in K. rewrite E in K.
  destruct r as [u|e]; [exact K|contradiction].
Qed.
Lemma held_time : forall w a v f o r a' w', obtained w a v -> a_fmt a = Some f ->
  w_fs w (next_name w) = None -> time_ o a w = (r, a', w') ->
  r = Ok (a_time a' o) /\ eff w v a a' (time_profile w a f o) [] /\ a_fmt a' = Some f.
Proof.
  intros w a v f o r a' w' O F N E. destruct (obtained_rep _ _ _ O) as (Hi & Hv & Hf & R).
  pose proof (wp_both _ _ _ _ _ _ (tr_time w v Hi Hv o a f R F N) (wp_time w v Hi Hv o a R N)) as K.
  unfold wp in K. rewrite E in K. destruct r as [y|e]; [|contradiction].
  destruct K as ((-> & K) & (_ & _ & FF & _)). split; [reflexivity|]. split; [exact K|congruence].
Qed.
Lemma held_size : forall w a v f k r a' w', obtained w a v -> a_fmt a = Some f ->
  w_fs w (next_name w) = None -> sizeof_ k a w = (r, a', w') ->
  r = Ok (a_size a' k) /\ eff w v a a' (size_profile w a f k) [] /\ a_fmt a' = Some f /\
  (FORCE_STAT (w_cfg w) = true -> formed a -> ~ unrecorded f k -> a_size a' k <> None).
Proof.
  intros w a v f k r a' w' O F N E. destruct (obtained_rep _ _ _ O) as (Hi & Hv & Hf & R).
  pose proof (wp_both _ _ _ _ _ _ (tr_sizeof w v Hi Hv Hf k a f R F N) (wp_sizeof w v Hi Hv Hf k a R N)) as K.
  unfold wp in K. rewrite E in K. destruct r as [y|e]; [|contradiction].
  destruct K as ((-> & K & S) & (_ & _ & FF & _)). split; [reflexivity|]. split; [exact K|].
  split; [congruence|exact S].
Qed.

Lemma timed_eff : forall w v a a' l ks, timed a -> eff w v a a' l ks -> timed a'.
Proof.
  intros w v a a' l ks T (C & TT & _) o. rewrite TT, C, (T o).
  pose proof (count_occ_In op_eq_dec l o) as CI. split.
  - intros [H|H]; [lia|]. apply CI in H. lia.
  - intros H. destruct (Nat.eq_dec (a_cnt a o) 0) as [Z|Z]; [|left; lia]. right. apply CI. lia.
Qed.
Lemma timed_zero : forall a l, (forall o, a_cnt a o = count_occ op_eq_dec l o) ->
  (forall o, a_time a o = true <-> In o l) -> timed a.
Proof. intros a l C T o. rewrite T, C. apply count_occ_In. Qed.
Lemma formed_eff : forall w v a a' f l ks, formed a -> eff w v a a' l ks ->
  a_fmt a = Some f -> a_fmt a' = Some f -> formed a'.
Proof.
  intros w v a a' f l ks FO K E E' f' E2. rewrite E' in E2. injection E2 as <-.
  apply (e_kept _ _ _ _ _ _ _ _ K), (FO f E).
Qed.

Lemma held_profile : forall w a v, obtained w a v -> timed a /\ formed a.
Proof.
  intros w a v O. induction O.
  - pose proof (tr_new w v H H0 src l opt to_file a w' H2 H3 H4 H5) as [C T FO _].
    split; [|exact FO]. eapply timed_zero; [exact C|exact T].
  - destruct (obtained_form _ _ _ O) as (f & F). destruct (held_call _ _ _ _ _ _ _ _ O F H) as (K & F').
    destruct IHO as (T & FO). split; [eapply timed_eff; eauto|eapply formed_eff; eauto].
  - exact IHO.
  - destruct (held_clear _ _ _ _ _ _ O H H0) as (K & FO). split; [|exact FO].
    eapply timed_eff; [|exact K]. intros o. cbn. split; [discriminate|lia].
  - destruct (obtained_form _ _ _ O) as (f & F). destruct IHO as (T & FO).
    destruct x as [k|o]; unfold measure, bind in H0.
    + destruct (sizeof_ k a w) as [[[y|e] a1] w1] eqn:E;
        destruct (held_size _ _ _ _ _ _ _ _ O F H E) as (Q & K & F' & _); [|discriminate Q].
      injection H0 as _ <- _. split; [eapply timed_eff; eauto|eapply formed_eff; eauto].
    + destruct (time_ o a w) as [[[y|e] a1] w1] eqn:E;
        destruct (held_time _ _ _ _ _ _ _ _ O F H E) as (Q & K & F'); [|discriminate Q].
      injection H0 as _ <- _. split; [eapply timed_eff; eauto|eapply formed_eff; eauto].
  - rewrite lazy_new in H. injection H as <- <-.
    pose proof (tr_lazy w v p opt H0 H1 H3 H4) as K. cbv zeta in K. unfold wp in K. rewrite H5 in K.
    destruct K as (K & FO). split; [|exact FO]. eapply timed_eff; [|exact K].
    intros o. cbn. split; [discriminate|lia].
Qed.

(** * What the theorems say *)
Lemma read_counts : forall w a v f x r a' w', obtained w a v -> a_fmt a = Some f ->
  call x a w = (r, a', w') -> counts (conversions f a x) a a'.
Proof. intros w a v f x r a' w' O F E. exact (e_cnt _ _ _ _ _ _ _ _ (proj1 (held_call _ _ _ _ _ _ _ _ O F E))). Qed.
Lemma new_counts : forall w v src l optimize to_file a w',
  int32_cast (w_i32 w) -> v <> [] -> denotes w v src l -> cfg_fits (w_cfg w) v ->
  (writes w src to_file = true -> w_fs w (next_name w) = None) ->
  new src optimize l to_file false w = (Ok a, w') ->
  forall o, a_cnt a o = count_occ op_eq_dec (constructed w src optimize to_file) o.
Proof. intros w v src l opt tf a w' H1 H2 H3 H4 H5 E. exact (p_cnt _ _ _ _ _ _ (tr_new w v H1 H2 _ _ _ _ _ _ H3 H4 H5 E)). Qed.
Lemma clear_counts : forall w a v r a' w', obtained w a v -> cfg_fits (w_cfg w) v ->
  clear a w = (r, a', w') ->
  forall o, a_cnt a' o = count_occ op_eq_dec (stored_raw w false) o.
Proof. intros w a v r a' w' O F E o. exact (e_cnt _ _ _ _ _ _ _ _ (proj1 (held_clear _ _ _ _ _ _ O F E)) o). Qed.
Lemma lazy_counts : forall w0 w v p optimize l to_file a w1 r a' w',
  new (VPath p) optimize l to_file true w0 = (Ok a, w1) ->
  int32_cast (w_i32 w) -> v <> [] -> w_fs w p = Some (as_01 v) ->
  (STORE_RAW (w_cfg w) = false -> w_fs w (next_name w) = None) ->
  raw a w = (r, a', w') ->
  (forall o, a_cnt a o = O) /\
  forall o, a_cnt a' o =
    count_occ op_eq_dec (if STORE_RAW (w_cfg w) then [ORead] else [ORead; OWrite; ORead]) o.
Proof.
  intros w0 w v p opt l tf a w1 r a' w' E Hi Hv Hp N ER.
  rewrite lazy_new in E. injection E as <- _. split; [reflexivity|].
  pose proof (tr_lazy w v p opt Hi Hv Hp N) as K. cbv zeta in K. unfold wp in K. rewrite ER in K.
  destruct r as [x|e]; [|contradiction]. destruct K as (K & _). intros o.
  rewrite (e_cnt _ _ _ _ _ _ _ _ K). unfold lazily, stored_raw.
  destruct (STORE_RAW (w_cfg w)); reflexivity.
Qed.
Lemma time_counts : forall w a v f o r a' w', obtained w a v -> a_fmt a = Some f ->
  w_fs w (next_name w) = None -> time_ o a w = (r, a', w') ->
  r = Ok (a_time a' o) /\
  counts (if FORCE_STAT (w_cfg w) then if a_time a o then [] else measured f o else []) a a'.
Proof.
  intros w a v f o r a' w' O F N E. destruct (held_time _ _ _ _ _ _ _ _ O F N E) as (Q & K & _).
  split; [exact Q|]. unfold time_profile in K.
  destruct (a_time a o), (FORCE_STAT (w_cfg w)); exact (e_cnt _ _ _ _ _ _ _ _ K).
Qed.
Lemma size_counts : forall w a v f k r a' w', obtained w a v -> a_fmt a = Some f ->
  w_fs w (next_name w) = None -> sizeof_ k a w = (r, a', w') ->
  r = Ok (a_size a' k) /\
  counts (if FORCE_STAT (w_cfg w) then unless (a_size a k) (sized_by f k) else []) a a'.
Proof.
  intros w a v f k r a' w' O F N E. destruct (held_size _ _ _ _ _ _ _ _ O F N E) as (Q & K & _).
  split; [exact Q|]. unfold size_profile in K. unfold unless.
  destruct (a_size a k), (FORCE_STAT (w_cfg w)); exact (e_cnt _ _ _ _ _ _ _ _ K).
Qed.

(** Times. *)
Lemma held_timed : forall w a v, obtained w a v -> timed a.
Proof. intros w a v O. apply (held_profile _ _ _ O). Qed.
Lemma measured_in : forall f o, In o (measured f o).
Proof. intros [] []; cbn; auto 10. Qed.
Lemma time_forced : forall w a v o, obtained w a v -> FORCE_STAT (w_cfg w) = true ->
  w_fs w (next_name w) = None -> exists a' w', time_ o a w = (Ok true, a', w') /\ (0 < a_cnt a' o)%nat.
Proof.
  intros w a v o O FS N. destruct (obtained_form _ _ _ O) as (f & F).
  destruct (time_ o a w) as [[r a'] w'] eqn:E.
  destruct (held_time _ _ _ _ _ _ _ _ O F N E) as (-> & K & _).
  assert (T : a_time a' o = true).
  { apply (e_time _ _ _ _ _ _ _ _ K). unfold time_profile. rewrite FS.
    destruct (a_time a o); [left; reflexivity|right; apply measured_in]. }
  exists a', w'. rewrite T. split; [reflexivity|].
  apply (timed_eff _ _ _ _ _ _ (held_timed _ _ _ O) K), T.
Qed.

(** Sizes. *)
Lemma held_formed : forall w a v, obtained w a v -> formed a.
Proof. intros w a v O. apply (held_profile _ _ _ O). Qed.
Lemma size_forced : forall w a v f k, obtained w a v -> FORCE_STAT (w_cfg w) = true ->
  w_fs w (next_name w) = None -> a_fmt a = Some f -> ~ unrecorded f k ->
  exists z a' w', sizeof_ k a w = (Ok (Some z), a', w') /\ a_size a' k = Some z.
Proof.
  intros w a v f k O FS N F U. destruct (sizeof_ k a w) as [[r a'] w'] eqn:E.
  destruct (held_size _ _ _ _ _ _ _ _ O F N E) as (-> & _ & _ & S).
  specialize (S FS (held_formed _ _ _ O) U).
  destruct (a_size a' k) as [z|] eqn:Z; [|contradiction].
  exists z, a', w'. split; [reflexivity|exact Z].
Qed.
Lemma unforced : forall k o a w, FORCE_STAT (w_cfg w) = false ->
  sizeof_ k a w = (Ok (a_size a k), a, w) /\ time_ o a w = (Ok (a_time a o), a, w).
Proof.
  intros k o a w FS. split.
  - unfold sizeof_, force_stat, bind, get, getw. rewrite FS. destruct (a_size a k) eqn:E; cbn; rewrite E; reflexivity.
  - unfold time_, force_stat, bind, get, getw. rewrite FS. rewrite andb_false_r. reflexivity.
Qed.
Lemma read_sizes : forall w a v x r a' w', obtained w a v -> call x a w = (r, a', w') -> records w v a a'.
Proof.
  intros w a v x r a' w' O E. destruct (obtained_form _ _ _ O) as (f & F).
  destruct (held_call _ _ _ _ _ _ _ _ O F E) as (K & _). exact (e_size _ _ _ _ _ _ _ _ K).
Qed.
Lemma measure_sizes : forall w a v x r a' w', obtained w a v -> w_fs w (next_name w) = None ->
  measure x a w = (r, a', w') -> records w v a a'.
Proof.
  intros w a v x r a' w' O N M. destruct (obtained_form _ _ _ O) as (f & F).
  destruct x as [k|o]; unfold measure, bind in M.
  - destruct (sizeof_ k a w) as [[[y|e] a1] w1] eqn:E;
      destruct (held_size _ _ _ _ _ _ _ _ O F N E) as (Q & K & F' & _); [|discriminate Q].
    injection M as _ <- _. exact (e_size _ _ _ _ _ _ _ _ K).
  - destruct (time_ o a w) as [[[y|e] a1] w1] eqn:E;
      destruct (held_time _ _ _ _ _ _ _ _ O F N E) as (Q & K & F'); [|discriminate Q].
    injection M as _ <- _. exact (e_size _ _ _ _ _ _ _ _ K).
Qed.
Lemma records_right : forall w v a a', right_sizes w v a -> records w v a a' -> right_sizes w v a'.
Proof.
  intros w v a a' R K k z E. destruct (K k) as [H|(z' & H & R')].
  - rewrite H in E. apply (R k z E).
  - rewrite H in E. injection E as <-. exact R'.
Qed.
Lemma clear_sizes : forall w a v r a' w', obtained w a v -> cfg_fits (w_cfg w) v ->
  clear a w = (r, a', w') -> right_sizes w (map (fun _ => false) v) a'.
Proof.
  intros w a v r a' w' O F E. destruct (held_clear _ _ _ _ _ _ O F E) as (K & _).
  apply (records_right _ _ (reset a)); [intros k z H; discriminate H|exact (e_size _ _ _ _ _ _ _ _ K)].
Qed.
Lemma new_sizes : forall w v src l optimize to_file a w',
  int32_cast (w_i32 w) -> v <> [] -> denotes w v src l -> cfg_fits (w_cfg w) v ->
  (writes w src to_file = true -> w_fs w (next_name w) = None) ->
  new src optimize l to_file false w = (Ok a, w') ->
  forall k z, a_size a k = Some z ->
    right_size w v k z \/
    k = SPath /\ z = w_size w VNone /\ (exists p, src = VPath p) /\ writes w src to_file = false.
Proof. intros w v src l opt tf a w' H1 H2 H3 H4 H5 E. exact (p_size _ _ _ _ _ _ (tr_new w v H1 H2 _ _ _ _ _ _ H3 H4 H5 E)). Qed.
Lemma lazy_sizes : forall w0 w v p optimize l to_file a w1 r a' w',
  new (VPath p) optimize l to_file true w0 = (Ok a, w1) ->
  int32_cast (w_i32 w) -> v <> [] -> w_fs w p = Some (as_01 v) ->
  (STORE_RAW (w_cfg w) = false -> w_fs w (next_name w) = None) ->
  raw a w = (r, a', w') -> right_sizes w v a'.
Proof.
  intros w0 w v p opt l tf a w1 r a' w' E Hi Hv Hp N ER.
  rewrite lazy_new in E. injection E as <- _.
  pose proof (tr_lazy w v p opt Hi Hv Hp N) as K. cbv zeta in K. unfold wp in K. rewrite ER in K.
  destruct r as [x|e]; [|contradiction]. destruct K as (K & _).
  eapply records_right; [|exact (e_size _ _ _ _ _ _ _ _ K)]. intros k z H. discriminate H.
Qed.

Lemma new_made : forall w v src l optimize to_file a w',
  int32_cast (w_i32 w) -> v <> [] -> denotes w v src l -> cfg_fits (w_cfg w) v ->
  (writes w src to_file = true -> w_fs w (next_name w) = None) ->
  new src optimize l to_file false w = (Ok a, w') ->
  forall k, In k (made w src optimize to_file) -> a_size a k <> None.
Proof. intros w v src l opt tf a w' H1 H2 H3 H4 H5 E. exact (p_made _ _ _ _ _ _ (tr_new w v H1 H2 _ _ _ _ _ _ H3 H4 H5 E)). Qed.
Lemma clear_made : forall w a v r a' w', obtained w a v -> cfg_fits (w_cfg w) v ->
  clear a w = (r, a', w') -> forall k, In k (made_raw w false) -> a_size a' k <> None.
Proof.
  intros w a v r a' w' O F E. destruct (held_clear _ _ _ _ _ _ O F E) as (K & _).
  exact (e_set _ _ _ _ _ _ _ _ K).
Qed.
Lemma read_made : forall w a v f x k r a' w', obtained w a v -> a_fmt a = Some f ->
  call x a w = (r, a', w') -> form x = Some k -> ~ unrecorded f k -> a_size a' k <> None.
Proof.
  intros w a v f x k r a' w' O F E X U. destruct (held_call _ _ _ _ _ _ _ _ O F E) as (K & _).
  pose proof (e_kept _ _ _ _ _ _ _ _ K _ (held_formed _ _ _ O f F)) as FO.
  pose proof (e_set _ _ _ _ _ _ _ _ K) as S.
  destruct x; try discriminate X; injection X as <-; destruct f; cbn [noted own_size] in *;
    first [exact FO | apply S; left; reflexivity | exfalso; apply U; split; [reflexivity|auto]].
Qed.
