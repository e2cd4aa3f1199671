(** Activations a user can hold satisfy the invariant, and show their vector
    (lemmas). *)
From Coq Require Import Decimal DecimalString DecimalZ ZArith QArith Bool String Ascii List Lia.
From Verif Require Import Base ActModel ActSpec ActObs ActCodec ActRep ActAccess ActBuild ActProf.
Import ListNotations.
Open Scope Z_scope.

(** One reading attribute on a represented vector. *)
Lemma wp_call : forall w v x a,
  i32_ok (w_i32 w) -> v <> [] -> fits_compressed_array v -> Rep (w_fs w) a v ->
  wp (call x) (fun y a' w' => y = view x v /\ w' = w /\ Rep (w_fs w) a' v /\ grows a a') a w.
Proof.
  intros w v x a Hi Hv Hf R. pose proof (proj1 R) as R0.
  assert (G : forall A B (m : M A) (y : A) (k : A -> B) (z : B),
    wp m (post w v y a) a w -> k y = z ->
    wp (r <- m;; ret (k r)) (fun y a' w' => y = z /\ w' = w /\ Rep (w_fs w) a' v /\ grows a a') a w).
  { intros A B m y k z H E. wstep. eapply wp_mono; [exact H|].
    intros x' a' w' (-> & -> & R' & G). wstep. repeat split; auto; try apply R'; try apply G.
    eapply caches_grows; [apply R|exact G]. }
  assert (G2 : forall A B (m : M A) (y : A) (k : A -> B) (z : B),
    wp m (posts w v y a) a w -> k y = z ->
    wp (r <- m;; ret (k r)) (fun y a' w' => y = z /\ w' = w /\ Rep (w_fs w) a' v /\ grows a a') a w).
  { intros A B m y k z H E. wstep. eapply wp_mono; [exact H|].
    intros x' a' w' (-> & -> & R' & G'). wstep. split; auto. }
  assert (En : n_entropy v = Z.of_nat (List.length (switches v)) + 2) by (unfold n_entropy, len; lia).
  destruct x; cbn [call view].
  - eapply G; [apply acc_raw; auto|reflexivity].
  - eapply G; [apply acc_ones; auto|reflexivity].
  - eapply G2; [|reflexivity]. eapply wp_mono; [apply acc_nones with (v:=v); auto|]. intros ? ? ? [H _]; exact H.
  - eapply G2; [apply acc_cov; auto|reflexivity].
  - rewrite <- En. eapply G2; [|reflexivity]. eapply wp_mono; [apply acc_entropy with (v:=v); auto|]. intros ? ? ? [H _]; exact H.
  - rewrite <- En. eapply G2; [apply acc_relent; auto|reflexivity].
  - eapply G; [apply acc_len; auto|reflexivity].
  - eapply G; [apply acc_bits; auto|reflexivity].
  - eapply G; [apply acc_int; auto|reflexivity].
  - eapply G; [apply acc_cstr; auto|reflexivity].
  - eapply G; [apply acc_carr; auto|reflexivity].
Qed.

Lemma call_rep : forall w v x a,
  i32_ok (w_i32 w) -> v <> [] -> fits_compressed_array v -> Rep (w_fs w) a v ->
  exists a', call x a w = (Ok (view x v), a', w) /\ Rep (w_fs w) a' v /\ grows a a'.
Proof.
  intros w v x a Hi Hv Hf R. pose proof (wp_call w v x a Hi Hv Hf R) as H. unfold wp in H.
  destruct (call x a w) as [[[y|e] a'] w']; [|contradiction].
  destruct H as (-> & -> & R' & G). exists a'. auto.
Qed.

Lemma run_rep : forall h w v a,
  i32_ok (w_i32 w) -> v <> [] -> fits_compressed_array v -> Rep (w_fs w) a v ->
  exists a' w', run h a w = (expected h v, a', w') /\ w_fs w' = w_fs w /\ w_i32 w' = w_i32 w /\
    Rep (w_fs w') a' v.
Proof.
  induction h as [|[x|c] t IH]; intros w v a Hi Hv Hf R; cbn [run expected].
  - exists a, w. auto.
  - destruct (call_rep w v x a Hi Hv Hf R) as (a' & E & R' & _). rewrite E.
    destruct (IH w v a' Hi Hv Hf R') as (a'' & w'' & E' & F & I & R''). rewrite E'.
    exists a'', w''. auto.
  - destruct (IH (set_cfg c w) v a Hi Hv Hf R) as (a'' & w'' & E' & F & I & R'').
    exists a'', w''. auto.
Qed.

Lemma shows_rep : forall w v a,
  i32_ok (w_i32 w) -> v <> [] -> fits_compressed_array v -> Rep (w_fs w) a v -> shows w a v.
Proof.
  intros w v a Hi Hv Hf R h. destruct (run_rep h w v a Hi Hv Hf R) as (a' & w' & E & F & _).
  rewrite E. rewrite F. auto.
Qed.

(** ** clear *)
Lemma as_01_zeros : forall n, as_01 (repeat false n) = repeat 0 n.
Proof. induction n as [|n IH]; [reflexivity|]. cbn. f_equal. exact IH. Qed.
Lemma map_const_repeat : forall (v : vec), map (fun _ => false) v = repeat false (List.length v).
Proof. induction v as [|b t IH]; [reflexivity|]. cbn. f_equal. exact IH. Qed.
Lemma size_zeros : forall v : vec, size (map (fun _ => false) v) = size v.
Proof. intros; unfold size; rewrite map_length; reflexivity. Qed.
Lemma zeros_not_nil : forall v : vec, v <> [] -> map (fun _ => false) v <> [].
Proof. intros [|]; [congruence|discriminate]. Qed.

Lemma wp_clear : forall w v a,
  i32_ok (w_i32 w) -> v <> [] -> Rep0 (w_fs w) a v -> cfg_fits (w_cfg w) v ->
  wp clear (fun _ a' w' => w' = w /\ Rep (w_fs w) a' (map (fun _ => false) v) /\
     a_fmt a' <> Some FFile /\ a_opt a' = a_opt a /\ a_tofile a' = a_tofile a) a w.
Proof.
  intros w v a Hi Hv R F. unfold clear. wstep. wstep. rewrite (r_len _ _ _ R).
  assert (E : (size v <? 0) = false) by (apply Z.ltb_ge; pose proof (size_nonneg v); lia).
  rewrite E. wstep. wstep. unfold size at 1. rewrite Nat2Z.id.
  rewrite <- as_01_zeros, <- map_const_repeat.
  eapply wp_mono; [apply wp_init_raw|].
  - exact Hi.
  - apply zeros_not_nil, Hv.
  - intros _. unfold cfg_fits, fits_compressed_array in *. rewrite size_zeros. exact F.
  - constructor; left; reflexivity.
  - apply R.
  - intros x a' w' (A & B & C & D & G & H & I). repeat split; auto; apply B.
Qed.

(** ** the invariant of held activations *)
Lemma keeps_saved : forall w v, w_fs w (next_name w) = None -> keeps_files w (saved w v).
Proof. intros w v H p c E. cbn. apply fs_put_keep; assumption. Qed.

Lemma obtained_rep : forall w a v, obtained w a v ->
  i32_ok (w_i32 w) /\ v <> [] /\ fits_compressed_array v /\ Rep (w_fs w) a v.
Proof.
  intros w a v H. induction H.
  - destruct (new_spec w v H H0 src l opt to_file H2 H3 H4)
      as (a0 & w0 & E & B). rewrite E in H5; injection H5 as -> ->.
    destruct B as (-> & R & _). repeat split; auto; try apply R.
    destruct (writes w src to_file); assumption.
  - destruct IHobtained as (Hi & Hv & Hf & R).
    destruct (call_rep w v x a Hi Hv Hf R) as (a0 & E & R' & _). rewrite E in H0.
    injection H0 as <- <- <-. auto.
  - destruct IHobtained as (Hi & Hv & Hf & R). split; [assumption|]. split; [assumption|]. split; [assumption|].
    destruct R as [[] C]. split; [constructor; auto|exact C].
    unfold keeps_own, own_file in H0. unfold stored in *.
    destruct (a_fmt a) as [[]|]; auto. destruct r_stored as (p & E & F). exists p. split; [exact E|].
    rewrite E in H0. rewrite (H0 p eq_refl). exact F.
  - destruct IHobtained as (Hi & Hv & Hf & R).
    pose proof (wp_clear w v a Hi Hv (proj1 R) H0) as C. unfold wp in C. rewrite H1 in C.
    destruct C as (-> & C & _). split; [exact Hi|]. split; [apply zeros_not_nil, Hv|].
    split; [|exact C]. unfold fits_compressed_array. rewrite size_zeros. exact Hf.
  - destruct IHobtained as (Hi & Hv & Hf & R).
    assert (U : undisturbed w v a a' w').
    { destruct x as [s|o]; unfold measure, bind in H1.
      - pose proof (wp_sizeof w v Hi Hv Hf s a R H0) as S. unfold wp in S.
        destruct (sizeof_ s a w) as [[[y|e] a1] w1]; [|contradiction]. injection H1 as _ <- <-. exact S.
      - pose proof (wp_time w v Hi Hv o a R H0) as S. unfold wp in S.
        destruct (time_ o a w) as [[[y|e] a1] w1]; [|contradiction]. injection H1 as _ <- <-. exact S. }
    destruct U as (R' & _ & _ & _ & _ & I). rewrite I. auto.
  - rewrite lazy_new in H. injection H as <- <-.
    destruct (lazy_raw w v p opt H0 H1 H3 H4) as (a1 & w2 & E & R & W). rewrite E in H5.
    injection H5 as _ <- <-. split; [|auto]. subst w2. destruct (STORE_RAW (w_cfg w)); exact H0.
Qed.

Lemma ob_keeps : forall w a v w', obtained w a v -> keeps_files w w' -> int32_cast (w_i32 w') ->
  obtained w' a v.
Proof.
  intros w a v w' O K I. eapply ob_world; [exact O| |exact I].
  destruct (obtained_rep _ _ _ O) as (_ & _ & _ & [[] _]).
  intros p E. unfold own_file in E. unfold stored in r_stored.
  destruct (a_fmt a) as [[]|]; try discriminate. destruct r_stored as (q & D & F).
  rewrite D in E. injection E as <-. rewrite F. apply K, F.
Qed.

Lemma obtained_shows : forall w a v, obtained w a v -> shows w a v.
Proof. intros w a v H. destruct (obtained_rep _ _ _ H) as (? & ? & ? & ?). apply shows_rep; assumption. Qed.
