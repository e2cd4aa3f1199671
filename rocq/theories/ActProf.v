(** Lazy loading and profiling accessors (lemmas). *)
From Coq Require Import ZArith QArith Bool String List Lia.
From Verif Require Import Base ActModel ActSpec ActObs ActCodec ActRep ActAccess ActBuild.
Import ListNotations.
Open Scope Z_scope.

(** * Lazy loading *)
Lemma lazy_new : forall p opt l tf w,
  new (VPath p) opt l tf true w =
  (Ok (set_fmt (Some FFile) (set_data (VPath p) (set_lasy true (blank opt)))), w).
Proof.
  intros. unfold new, init, init_convert, bind at 1 2, getw.
  reflexivity.
Qed.

Lemma raw_loaded : forall a w,
  a_loaded a = true ->
  raw a w = (f <- get a_fmt;;
  match f with
  | Some FRaw =>
      d <- get a_data;;
      match d with VArr xs => ret xs | _ => throw EType end
  | Some FBits => bitarray_to_raw None
  | Some FInt => integer_to_raw None
  | Some FFile => read_self
  | Some FCStr | Some FCArr =>
      r <- decompress None true;;
      match r with VArr xs => ret xs | _ => throw EType end
  | None => throw EType
  end) a w.
Proof. intros a w L. unfold raw at 1. unfold bind at 1, get at 1. rewrite L. reflexivity. Qed.

Lemma lazy_raw : forall w v p opt,
  i32_ok (w_i32 w) -> v <> [] -> w_fs w p = Some (as_01 v) ->
  (STORE_RAW (w_cfg w) = false -> w_fs w (next_name w) = None) ->
  exists a' w',
    raw (set_fmt (Some FFile) (set_data (VPath p) (set_lasy true (blank opt)))) w = (Ok (as_01 v), a', w') /\
    Rep (w_fs w') a' v /\ w' = (if STORE_RAW (w_cfg w) then w else saved w v).
Proof.
  intros w v p opt Hi Hv Hp N.
  set (a := set_fmt _ _).
  assert (W : wp raw (fun y a' w' => y = as_01 v /\ Rep (w_fs w') a' v /\
                w' = (if STORE_RAW (w_cfg w) then w else saved w v)) a w).
  { unfold raw. wstep. wstep. subst a. cbn [a_loaded set_fmt set_data set_lasy blank].
    wstep. wstep. unfold read_self. wstep. wstep. wstep. wstep.
    apply (wp_read_at w v); [exact Hp|left; reflexivity|]. intros t c s.
    eapply wp_mono; [apply (wp_init_any_raw w v)|].
    - exact Hi.
    - exact Hv.
    - auto.
    - intros _ H; discriminate.
    - constructor; asimpl; unfold blank; asimpl; auto.
    - reflexivity.
    - intros u a' w' (A & R & _). cbn [andb] in A.
      eapply wp_eq; [symmetry; apply raw_loaded; apply R|].
      eapply wp_mono; [apply (acc_raw w' v a' (proj1 R))|].
      intros y a'' w'' (-> & -> & R' & G). split; [reflexivity|]. split.
      + split; [exact R'|]. eapply caches_grows; [apply R|exact G].
      + rewrite A. destruct (STORE_RAW (w_cfg w)); reflexivity. }
  unfold wp in W. destruct (raw a w) as [[[y|e] a'] w']; [|contradiction].
  destruct W as (-> & R & ->). exists a', (if STORE_RAW (w_cfg w) then w else saved w v). auto.
Qed.

(** * Profiling accessors *)
Lemma Rep_restore : forall fs a a2 v, Rep fs a v -> okc a2 v -> a_len a2 = Some (size v) ->
  a_loaded a2 = true ->
  (a_nones a <> None -> a_nones a2 <> None) -> (a_entropy a <> None -> a_entropy a2 <> None) ->
  Rep fs (set_fmt (a_fmt a) (set_data (a_data a) a2)) v.
Proof.
  intros fs a a2 v [R C] R2 HL HD N E. split.
  - destruct R, R2. constructor; asimpl; auto.
  - unfold caches in *; asimpl. destruct (a_fmt a) as [[]|]; auto.
Qed.
Lemma Rep0_okc : forall fs a v, Rep0 fs a v -> okc a v.
Proof. intros fs a v []. constructor; assumption. Qed.

Definition undisturbed (w : world) (v : vec) (a a' : act) (w' : world) : Prop :=
  Rep (w_fs w') a' v /\ a_data a' = a_data a /\ a_fmt a' = a_fmt a /\
  (forall p, w_fs w' p = w_fs w p) /\ w_cfg w' = w_cfg w /\ w_i32 w' = w_i32 w.

Section Profiling.
Context (w : world) (v : vec).
Notation fs := (w_fs w).
Hypothesis Hi32 : i32_ok (w_i32 w).
Hypothesis Hv : v <> [].
Hypothesis Hf : fits_compressed_array v.

Lemma wp_saved_conv : forall (use : M unit) (B : Type) (conv : M B) a,
  Rep fs a v ->
  wp use (fun _ a1 w1 => w1 = w /\ Rep0 fs a1 v /\
     (a_nones a <> None -> a_nones a1 <> None) /\ (a_entropy a <> None -> a_entropy a1 <> None)) a w ->
  (forall a1, Rep0 fs a1 v -> wp conv (fun _ a2 w2 => w2 = w /\ Rep0 fs a2 v /\ grows a1 a2) a1 w) ->
  wp (with_saved_data (use ;;; conv ;;; ret tt)) (fun _ a' w' => undisturbed w v a a' w') a w.
Proof.
  intros use B conv a R U C. unfold with_saved_data. wstep. wstep. wstep. wstep. wstep. wstep.
  eapply wp_mono; [exact U|]. intros _ a1 w1 (-> & R1 & N1 & E1).
  wstep. eapply wp_mono; [apply (C a1 R1)|]. intros _ a2 w2 (-> & R2 & G).
  wstep. wstep. wstep. wstep.
  split; [apply Rep_restore; [exact R|apply (Rep0_okc _ _ _ R2)|apply R2|apply R2| |]|].
  - intros H. apply (g_nones _ _ G), N1, H.
  - intros H. apply (g_ent _ _ G), E1, H.
  - repeat split.
Qed.

Lemma wp_use_raw : forall a, Rep fs a v -> wp use_raw (fun _ a1 w1 => w1 = w /\ Rep0 fs a1 v /\
     (a_nones a <> None -> a_nones a1 <> None) /\ (a_entropy a <> None -> a_entropy a1 <> None)) a w.
Proof.
  intros a [R C]. unfold use_raw. wstep. eapply wp_mono; [apply (acc_raw w v a R)|].
  intros x a1 w1 (-> & -> & R1 & G). wstep. wstep. wstep. split; [reflexivity|]. split.
  - destruct R1; constructor; asimpl; auto. reflexivity.
  - asimpl. split; [apply (g_nones _ _ G)|apply (g_ent _ _ G)].
Qed.
Lemma wp_use_bits : forall a, Rep fs a v -> wp use_bits (fun _ a1 w1 => w1 = w /\ Rep0 fs a1 v /\
     (a_nones a <> None -> a_nones a1 <> None) /\ (a_entropy a <> None -> a_entropy a1 <> None)) a w.
Proof.
  intros a [R C]. unfold use_bits. wstep. eapply wp_mono; [apply (acc_bits w v Hi32 a R)|].
  intros x a1 w1 (-> & -> & R1 & G). wstep. wstep. wstep. split; [reflexivity|]. split.
  - destruct R1; constructor; asimpl; auto. reflexivity.
  - asimpl. split; [apply (g_nones _ _ G)|apply (g_ent _ _ G)].
Qed.
Lemma wp_use_int : forall a, Rep fs a v -> wp use_int (fun _ a1 w1 => w1 = w /\ Rep0 fs a1 v /\
     (a_nones a <> None -> a_nones a1 <> None) /\ (a_entropy a <> None -> a_entropy a1 <> None)) a w.
Proof.
  intros a [R C]. unfold use_int. wstep. eapply wp_mono; [apply (acc_int w v Hi32 a Hv R)|].
  intros x a1 w1 (-> & -> & R1 & G). wstep. wstep. wstep. split; [reflexivity|]. split.
  - destruct R1; constructor; asimpl; auto. split; auto.
  - asimpl. split; [apply (g_nones _ _ G)|apply (g_ent _ _ G)].
Qed.
Lemma wp_use_compressed : forall a, Rep fs a v -> wp use_compressed (fun _ a1 w1 => w1 = w /\ Rep0 fs a1 v /\
     (a_nones a <> None -> a_nones a1 <> None) /\ (a_entropy a <> None -> a_entropy a1 <> None)) a w.
Proof.
  intros a [R C]. unfold use_compressed. wstep. eapply wp_mono; [apply (acc_cstr w v a Hv R)|].
  intros x a1 w1 (-> & -> & R1 & G). wstep. wstep. wstep. split; [reflexivity|]. split.
  - destruct R1; constructor; asimpl; auto. split; auto.
  - asimpl. split; [apply (g_nones _ _ G)|apply (g_ent _ _ G)].
Qed.

Lemma conv_raw : forall a1, Rep0 fs a1 v -> wp raw (fun _ a2 w2 => w2 = w /\ Rep0 fs a2 v /\ grows a1 a2) a1 w.
Proof. intros a1 R. eapply wp_mono; [apply (acc_raw w v a1 R)|]. intros x a2 w2 (_ & H); exact H. Qed.
Lemma conv_bits : forall a1, Rep0 fs a1 v -> wp as_bitarray (fun _ a2 w2 => w2 = w /\ Rep0 fs a2 v /\ grows a1 a2) a1 w.
Proof. intros a1 R. eapply wp_mono; [apply (acc_bits w v Hi32 a1 R)|]. intros x a2 w2 (_ & H); exact H. Qed.
Lemma conv_int : forall a1, Rep0 fs a1 v -> wp as_integer (fun _ a2 w2 => w2 = w /\ Rep0 fs a2 v /\ grows a1 a2) a1 w.
Proof. intros a1 R. eapply wp_mono; [apply (acc_int w v Hi32 a1 Hv R)|]. intros x a2 w2 (_ & H); exact H. Qed.
Lemma conv_cstr : forall a1, Rep0 fs a1 v -> wp as_compressed_str (fun _ a2 w2 => w2 = w /\ Rep0 fs a2 v /\ grows a1 a2) a1 w.
Proof. intros a1 R. eapply wp_mono; [apply (acc_cstr w v a1 Hv R)|]. intros x a2 w2 (_ & H); exact H. Qed.
Lemma conv_carr : forall a1, Rep0 fs a1 v -> wp as_compressed_array (fun _ a2 w2 => w2 = w /\ Rep0 fs a2 v /\ grows a1 a2) a1 w.
Proof. intros a1 R. eapply wp_mono; [apply (acc_carr w v Hi32 a1 Hv Hf R)|]. intros x a2 w2 (_ & H); exact H. Qed.

Lemma wp_unlink : forall a (Q : unit -> act -> world -> Prop) w1 p c,
  a_data a = VPath p -> w_fs w1 p = Some c -> Q tt a (set_fs (fs_del p (w_fs w1)) w1) -> wp unlink_data Q a w1.
Proof.
  intros a Q w1 p c E H HQ. unfold unlink_data. wstep. wstep. rewrite E. wstep. wstep. rewrite H. wstep. exact HQ.
Qed.

Lemma fs_del_put : forall p c f, f p = None -> forall q, fs_del p (fs_put p c f) q = f q.
Proof.
  intros p c f H q. unfold fs_del, fs_put. destruct (path_eqb q p) eqn:E; [|reflexivity].
  apply path_eqb_true in E; subst; symmetry; exact H.
Qed.

Lemma written_undisturbed : forall a a1 t c s, Rep fs a v -> fs (next_name w) = None ->
  Rep0 fs a1 v -> grows a a1 ->
  undisturbed w v a
    (set_fmt (a_fmt a) (set_data (a_data a)
       (reprof t c s (set_fmt (Some FFile) (set_data (VPath (next_name w))
         (set_nones (Some (n_ones v)) (set_len (Some (size v)) a1)))))))
    (set_fs (fs_del (next_name w) (w_fs (saved w v))) (saved w v)).
Proof.
  intros a a1 t c s R N R1 G.
  assert (K : forall p, fs_del (next_name w) (fs_put (next_name w) (as_01 v) fs) p = fs p) by (apply fs_del_put, N).
  split; [|repeat split; asimpl; auto].
  apply Rep_ext with (fs := fs); [intros p c0 Hp; cbn; rewrite K; exact Hp|].
  pose proof (Rep0_okc _ _ _ R1) as O1.
  apply Rep_restore; [exact R|destruct O1; constructor; asimpl; auto|reflexivity|apply R1|asimpl; discriminate|].
  asimpl. apply (g_ent _ _ G).
Qed.

Lemma wp_write_then_unlink : forall a, Rep fs a v -> fs (next_name w) = None ->
  wp write_then_unlink (fun _ a' w' => undisturbed w v a a' w') a w.
Proof.
  intros a R N. unfold write_then_unlink, with_saved_data. wstep. wstep. wstep. wstep. wstep. wstep.
  eapply wp_mono; [apply (acc_raw w v a (proj1 R))|]. intros x a1 w1 (-> & -> & R1 & G).
  wstep. apply wp_write; [exact N|]. intros t c s.
  eapply wp_unlink; [reflexivity|cbn; apply fs_put_same|].
  wstep. wstep. wstep.
  exact (written_undisturbed a a1 t c s R N R1 G).
Qed.

Lemma wp_write_read_unlink : forall a, Rep fs a v -> fs (next_name w) = None ->
  wp (with_saved_data
           (xs <- raw;; write xs ;;;
            (d <- get a_data;;
             match d with VPath p => read_at p ;;; ret tt | _ => throw EType end) ;;;
            unlink_data)) (fun _ a' w' => undisturbed w v a a' w') a w.
Proof.
  intros a R N. unfold with_saved_data. wstep. wstep. wstep. wstep. wstep. wstep.
  eapply wp_mono; [apply (acc_raw w v a (proj1 R))|]. intros x a1 w1 (-> & -> & R1 & G).
  wstep. apply wp_write; [exact N|]. intros t c s.
  wstep. wstep. wstep. wstep.
  apply (wp_read_at (saved w v) v); [cbn; apply fs_put_same|right; reflexivity|]. intros t' c' s'.
  wstep.
  eapply wp_unlink; [reflexivity|cbn; apply fs_put_same|].
  wstep. wstep. wstep.
  pose proof (written_undisturbed a (set_loaded true a1) t' c' s' R N) as H.
  apply H; [destruct R1; constructor; asimpl; auto|destruct G; constructor; asimpl; auto].
  rewrite <- g_loaded. symmetry. apply R1.
Qed.

(** The profiling accessors, with FORCE_STAT or not. *)
Lemma undisturbed_grows : forall a a', Rep fs a v -> Rep0 fs a' v -> grows a a' -> undisturbed w v a a' w.
Proof.
  intros a a' R R' G. split; [eapply Rep_grows; eauto|]. repeat split; apply G.
Qed.

Lemma wp_sizeof : forall s a, Rep fs a v -> fs (next_name w) = None ->
  wp (sizeof_ s) (fun _ a' w' => undisturbed w v a a' w') a w.
Proof.
  intros s a R N. unfold sizeof_, force_stat. wstep. wstep. wstep. wstep. wstep.
  assert (D : forall B (m : M B), wp m (fun _ a' w' => w' = w /\ Rep0 fs a' v /\ grows a a') a w ->
     wp (m ;;; ret tt) (fun _ => wp (get (fun a => a_size a s)) (fun _ a' w' => undisturbed w v a a' w')) a w).
  { intros B m H. wstep. eapply wp_mono; [exact H|]. intros _ a1 w1 (-> & R1 & G).
    wstep. wstep. apply undisturbed_grows; auto. }
  assert (I : undisturbed w v a a w) by (apply undisturbed_grows; [exact R|apply R|apply grows_refl]).
  destruct (a_size a s); [wstep; wstep; exact I|].
  destruct (FORCE_STAT (w_cfg w)); [|wstep; wstep; exact I].
  destruct s.
  - apply D, conv_carr, R.
  - apply D, conv_cstr, R.
  - apply D, conv_bits, R.
  - apply D, conv_int, R.
  - apply D, conv_raw, R.
  - eapply wp_mono; [apply wp_write_then_unlink; assumption|]. intros y a' w' H. wstep. exact H.
  - eapply wp_mono; [apply wp_write_then_unlink; assumption|]. intros y a' w' H. wstep. exact H.
Qed.

Lemma wp_time : forall o a, Rep fs a v -> fs (next_name w) = None ->
  wp (time_ o) (fun _ a' w' => undisturbed w v a a' w') a w.
Proof.
  intros o a R N. unfold time_, force_stat. wstep. wstep. wstep. wstep. wstep.
  assert (I : undisturbed w v a a w) by (apply undisturbed_grows; [exact R|apply R|apply grows_refl]).
  destruct (negb (a_time a o) && FORCE_STAT (w_cfg w)); [|wstep; wstep; exact I].
  eapply wp_mono with (Q := fun _ a' w' => undisturbed w v a a' w'); [|intros x a' w' H; wstep; exact H].
  destruct o.
  - apply wp_write_then_unlink; assumption.
  - apply wp_write_read_unlink; assumption.
  - apply wp_saved_conv; [exact R|apply wp_use_compressed, R|apply conv_raw].
  - apply wp_saved_conv; [exact R|apply wp_use_raw, R|apply conv_cstr].
  - apply wp_saved_conv; [exact R|apply wp_use_raw, R|apply conv_int].
  - apply wp_saved_conv; [exact R|apply wp_use_bits, R|apply conv_raw].
  - apply wp_saved_conv; [exact R|apply wp_use_raw, R|apply conv_bits].
  - apply wp_saved_conv; [exact R|apply wp_use_compressed, R|apply conv_bits].
  - apply wp_saved_conv; [exact R|apply wp_use_compressed, R|apply conv_int].
  - apply wp_saved_conv; [exact R|apply wp_use_bits, R|apply conv_cstr].
  - apply wp_saved_conv; [exact R|apply wp_use_int, R|apply conv_cstr].
  - apply wp_saved_conv; [exact R|apply wp_use_int, R|apply conv_raw].
  - apply wp_saved_conv; [exact R|apply wp_use_bits, R|apply conv_int].
  - apply wp_saved_conv; [exact R|apply wp_use_int, R|apply conv_bits].
Qed.
End Profiling.
