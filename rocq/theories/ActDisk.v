(** Disk, lazy loading, deletion, profiling (lemmas). *)
From Coq Require Import ZArith QArith Bool String List Lia.
From Verif Require Import Base ActModel ActSpec ActObs ActCodec ActRep ActAccess ActBuild ActProf ActHold ActOps.
Import ListNotations.
Open Scope Z_scope.

(** * No method of a non-lazy activation touches an existing file *)

Definition safe {A} (m : M A) : Prop :=
  forall a w, a_lasy a = false ->
  match m a w with (_, a', w') => a_lasy a' = false /\ keeps_files w w' end.

Lemma keeps_refl : forall w, keeps_files w w.
Proof. intros w p c H; exact H. Qed.
Lemma keeps_trans : forall w1 w2 w3, keeps_files w1 w2 -> keeps_files w2 w3 -> keeps_files w1 w3.
Proof. intros w1 w2 w3 A B p c H. apply B, A, H. Qed.

Lemma safe_bind : forall A B (m : M A) (f : A -> M B), safe m -> (forall x, safe (f x)) -> safe (bind m f).
Proof.
  intros A B m f Hm Hf a w L. unfold bind. specialize (Hm a w L).
  destruct (m a w) as [[[x|e] a'] w']; destruct Hm as [L' K]; [|auto].
  specialize (Hf x a' w' L'). destruct (f x a' w') as [[r a''] w'']. destruct Hf as [L'' K'].
  split; [assumption|eapply keeps_trans; eauto].
Qed.
Lemma safe_ret : forall A (x : A), safe (ret x).
Proof. intros A x a w L; split; [exact L|apply keeps_refl]. Qed.
Lemma safe_throw : forall A e, safe (@throw A e).
Proof. intros A e a w L; split; [exact L|apply keeps_refl]. Qed.
Lemma safe_lift : forall A (r : res A), safe (lift r).
Proof. intros A r a w L; split; [exact L|apply keeps_refl]. Qed.
Lemma safe_get : forall A (f : act -> A), safe (get f).
Proof. intros A f a w L; split; [exact L|apply keeps_refl]. Qed.
Lemma safe_getw : forall A (f : world -> A), safe (getw f).
Proof. intros A f a w L; split; [exact L|apply keeps_refl]. Qed.
Lemma safe_upd : forall f, (forall a, a_lasy (f a) = a_lasy a) -> safe (upd f).
Proof. intros f H a w L; cbn; split; [rewrite H; exact L|apply keeps_refl]. Qed.
Lemma safe_updw : forall f, (forall w, w_fs (f w) = w_fs w) -> safe (updw f).
Proof. intros f H a w L; cbn; split; [exact L|]. intros p c E. rewrite H. exact E. Qed.

Ltac safe1 :=
  match goal with
  | |- safe (bind _ _) => apply safe_bind; [|intros ?]
  | |- safe (ret _) => apply safe_ret
  | |- safe (throw _) => apply safe_throw
  | |- safe (lift _) => apply safe_lift
  | |- safe (get _) => apply safe_get
  | |- safe (getw _) => apply safe_getw
  | |- safe (upd _) => apply safe_upd; reflexivity
  | |- safe (updw _) => apply safe_updw; reflexivity
  | |- safe (match ?x with _ => _ end) => destruct x
  | |- safe (let (_, _) := ?x in _) => destruct x
  | |- safe (if ?x then _ else _) => destruct x
  end.
Ltac safes := repeat (first [safe1 | assumption]).

Lemma safe_rec_size : forall k v, safe (rec_size k v).
Proof. intros. unfold rec_size. safes. Qed.
Lemma safe_rec_unset : forall k v, safe (rec_size_if_unset k v).
Proof. intros. unfold rec_size_if_unset. repeat first [safe1 | apply safe_rec_size]. Qed.
Lemma safe_stamp : forall o, safe (stamp_bump o).
Proof. intros. unfold stamp_bump. safes. Qed.
Ltac safe2 := first [apply safe_rec_size | apply safe_rec_unset | apply safe_stamp | safe1 | assumption].

Lemma safe_read_at : forall p, safe (read_at p).
Proof. intros. unfold read_at. repeat safe2. Qed.
Lemma safe_read_self : safe read_self.
Proof. unfold read_self. repeat first [apply safe_read_at | safe2]. Qed.
Lemma safe_nones_unset : forall xs, safe (nones_if_unset xs).
Proof. intros. unfold nones_if_unset. repeat safe2. Qed.
Ltac safe3 := first [apply safe_read_self | apply safe_read_at | apply safe_nones_unset | safe2].
Lemma safe_int_raw : forall v, safe (integer_to_raw v).
Proof. intros. unfold integer_to_raw. repeat safe3. Qed.
Lemma safe_bits_raw : forall v, safe (bitarray_to_raw v).
Proof. intros. unfold bitarray_to_raw. repeat safe3. Qed.
Lemma safe_decompress : forall v r, safe (decompress v r).
Proof. intros. unfold decompress. repeat safe3. Qed.
Ltac safe4 := first [apply safe_int_raw | apply safe_bits_raw | apply safe_decompress | safe3].
Lemma safe_any_raw : forall v, safe (to_raw_from_any v).
Proof. intros. unfold to_raw_from_any. repeat safe4. Qed.
Lemma safe_div_len : forall x, safe (div_len x).
Proof. intros. unfold div_len. repeat safe4. Qed.

(** The search for a name returns a free one and writes nothing. *)
Lemma find_name_free : forall n ar k a w,
  match find_name n ar k a w with
  | (r, a', w') => a' = a /\ w_fs w' = w_fs w /\ (forall p, r = Ok (Some p) -> w_fs w p = None)
  end.
Proof.
  induction n as [|n IH]; intros ar k a w.
  - cbn. unfold bind, getw. destruct (w_fs w (PTmp k)) eqn:E; cbn; repeat split; intros p H; congruence.
  - cbn [find_name]. unfold bind at 1, getw at 1. destruct (w_fs w (PTmp k)) eqn:E.
    + unfold bind at 1, lift. destruct (list_remove (k + 1) ar) as [ar'|e]; [|cbn; repeat split; intros; congruence].
      unfold bind at 1, randint.
      destruct ar' as [|x [|y [|z t]]]; try (cbn; repeat split; intros; congruence).
      unfold bind at 1 2, getw, updw, ret.
      specialize (IH [x; y] (w_rnd w (w_clk w)) a (tick w)).
      destruct (find_name n [x; y] (w_rnd w (w_clk w)) a (tick w)) as [[r a'] w'].
      destruct IH as (A & B & C). rewrite B. repeat split; auto.
    + cbn. repeat split. intros p H. congruence.
Qed.

Lemma safe_write : forall xs, safe (write xs).
Proof.
  intros xs. unfold write. apply safe_bind; [apply safe_rec_size|intros _].
  apply safe_bind; [safe1|intros _]. apply safe_bind; [safe1|intros _].
  apply safe_bind; [unfold randint; repeat safe2|intros number].
  intros a w L. unfold bind at 1, get at 1. rewrite L. unfold bind at 1.
  pose proof (find_name_free 100 [0; e64] number a w) as F.
  destruct (find_name 100 [0; e64] number a w) as [[[o|e] a'] w'].
  - destruct F as (-> & Fs & Free). destruct o as [p|].
    + specialize (Free p eq_refl).
      set (rest := (z <- getw (fun w => w_fsize w (map ubyte xs));; upd (set_size SFile z)) ;;;
               rec_size SPath (VPath p) ;;; stamp_bump OWrite ;;; ret true).
      assert (S : forall a1 w1, a_lasy a1 = false -> w_fs w1 = fs_put p (map ubyte xs) (w_fs w) ->
        match rest a1 w1 with
        | (_, a2, w2) => a_lasy a2 = false /\ keeps_files w w2 end).
      { intros a1 w1 L1 E1.
        assert (Sf : safe rest) by (unfold rest; repeat safe2).
        specialize (Sf a1 w1 L1). destruct (rest a1 w1) as [[r a2] w2]. destruct Sf as [L2 K].
        split; [exact L2|]. intros q c Hq. apply K. rewrite E1. apply fs_put_keep; assumption. }
      unfold bind at 1, upd at 1. unfold bind at 1, upd at 1. unfold bind at 1, updw at 1.
      apply S; [exact L|]. cbn. rewrite Fs. reflexivity.
    + cbn. split; [exact L|]. intros q c Hq. rewrite Fs. exact Hq.
  - destruct F as (-> & Fs & _). split; [exact L|]. intros q c Hq. rewrite Fs. exact Hq.
Qed.

Ltac safe5 := first [apply safe_write | apply safe_any_raw | apply safe_div_len | safe4].
Lemma safe_size_compressed : forall c, safe (size_compressed c).
Proof. intros. unfold size_compressed. repeat safe5. Qed.
Lemma safe_set_entropies : forall d c, safe (set_entropies d c).
Proof. intros. unfold set_entropies. repeat safe5. Qed.
Ltac safe6 := first [apply safe_size_compressed | apply safe_set_entropies | safe5].
Lemma safe_init_bits : forall b, safe (init_with_bitarray b).
Proof. intros. unfold init_with_bitarray. repeat safe6. Qed.
Lemma safe_init_int : forall n l, safe (init_with_integer n l).
Proof. intros. unfold init_with_integer. repeat safe6. Qed.
Lemma safe_init_str : forall s, safe (init_with_str s).
Proof. intros. unfold init_with_str. repeat safe6. Qed.
Lemma safe_init_carr : forall xs, safe (init_with_compressed_array xs).
Proof. intros. unfold init_with_compressed_array. repeat safe6. Qed.
Lemma safe_init_raw : forall xs, safe (init_with_raw xs).
Proof. intros. unfold init_with_raw. repeat safe6. Qed.
Lemma safe_init_any : forall v l tf, safe (init_with_any v l tf).
Proof.
  intros. unfold init_with_any.
  repeat first [apply safe_init_bits | apply safe_init_int | apply safe_init_str | apply safe_init_carr
               | apply safe_init_raw | safe6].
Qed.
Lemma safe_convert : forall v l, safe (init_convert v l).
Proof. intros. unfold init_convert. repeat safe6. Qed.
Lemma safe_init : forall v l tf, safe (init v l tf false).
Proof.
  intros. unfold init. apply safe_bind; [apply safe_convert|intros [v' l']].
  repeat first [apply safe_init_any | safe6].
Qed.

Lemma new_keeps : forall v opt l tf w r w', new v opt l tf false w = (r, w') -> keeps_files w w'.
Proof.
  intros v opt l tf w r w' E. unfold new in E. pose proof (safe_init v l tf (blank opt) w eq_refl) as S.
  destruct (init v l tf false (blank opt) w) as [[[u|e] a'] w'']; destruct S as [_ K]; injection E as _ <-; exact K.
Qed.

Lemma safe_raw : safe raw.
Proof. unfold raw. repeat first [apply safe_init_any | safe6]. Qed.
Ltac safe7 := first [apply safe_raw | safe6].
Lemma safe_nones : safe nones.
Proof. unfold nones. repeat safe7. Qed.
Lemma safe_entropy : safe entropy.
Proof. unfold entropy. repeat safe7. Qed.
Lemma safe_note : forall e, safe (note_entropy e).
Proof. intros. unfold note_entropy. repeat safe7. Qed.
Ltac safe8 := first [apply safe_nones | apply safe_entropy | apply safe_note | safe7].
Lemma safe_call : forall x, safe (call x).
Proof.
  destruct x; unfold call, ones, coverage, rel_entropy, length_of, as_bitarray, as_integer,
    as_compressed_str, as_compressed_array, set_will_compare; repeat safe8.
Qed.

Lemma copy_keeps : forall a w r w', copy a w = (r, w') -> keeps_files w w'.
Proof. intros a w r w'. unfold copy. destruct (is_fmt FInt a); apply new_keeps. Qed.

Lemma binop_keeps : forall o a1 a2 w r a1' a2' w',
  a_lasy a1 = false -> a_lasy a2 = false ->
  binop o a1 a2 w = (r, a1', a2', w') -> keeps_files w w'.
Proof.
  intros o a1 a2 w r a1' a2' w' L1 L2 E. unfold binop in E.
  destruct (negb _) in E; [injection E as <- <- <- <-; apply keeps_refl|].
  destruct (_ || _) in E.
  - destruct (a_data a1), (a_data a2); try (injection E as <- <- <- <-; apply keeps_refl).
    + destruct (_ =? _) in E; [|injection E as <- <- <- <-; apply keeps_refl].
      destruct (new _ _ _ _ _ _) as [z w1] eqn:N. injection E as <- <- <- <-. eapply new_keeps; eauto.
    + destruct (new _ _ _ _ _ _) as [z w1] eqn:N. injection E as <- <- <- <-. eapply new_keeps; eauto.
  - pose proof (safe_raw a1 w L1) as S1. destruct (raw a1 w) as [[[x1|e] b1] w1]; destruct S1 as [_ K1].
    2:{ injection E as <- <- <- <-. exact K1. }
    pose proof (safe_raw a2 w1 L2) as S2. destruct (raw a2 w1) as [[[x2|e] b2] w2]; destruct S2 as [_ K2].
    2:{ injection E as <- <- <- <-. eapply keeps_trans; eauto. }
    destruct (np_zip _ _ _) in E.
    2:{ injection E as <- <- <- <-. eapply keeps_trans; eauto. }
    destruct (new _ _ _ _ _ _) as [z w3] eqn:N. injection E as <- <- <- <-.
    eapply keeps_trans; [exact K1|]. eapply keeps_trans; [exact K2|]. eapply new_keeps; eauto.
Qed.

(** * A taken name is never retried successfully *)
Lemma write_collision : forall xs a w c, a_lasy a = false -> w_fs w (next_name w) = Some c ->
  exists e a' w', write xs a w = (Err e, a', w') /\ (e = EValue \/ e = EType) /\
    (forall p, w_fs w' p = w_fs w p).
Proof.
  intros xs a w c L N. unfold write.
  unfold rec_size, bind at 1 2, getw at 1, upd at 1. unfold bind at 1, upd at 1. unfold bind at 1, upd at 1.
  unfold randint. unfold bind at 1 2 3, getw at 1, updw at 1, ret at 1.
  unfold bind at 1, get at 1. cbn [a_lasy set_size set_nones set_len]. rewrite L.
  unfold bind at 1.
  remember (set_nones _ _) as a1 eqn:Ea. clear Ea.
  change 100%nat with (S 99). cbn [find_name]. unfold bind at 1, getw at 1. cbn [w_fs tick].
  unfold next_name in N. rewrite N. unfold bind at 1, lift at 1.
  remember (w_rnd w (w_clk w)) as k. cbn [list_remove].
  destruct (k + 1 =? 0); cbn [rbind].
  - unfold bind at 1, randint at 1. eexists _, _, _. split; [reflexivity|]. auto.
  - destruct (k + 1 =? e64); cbn [rbind].
    + unfold bind at 1, randint at 1. eexists _, _, _. split; [reflexivity|]. auto.
    + eexists _, _, _. split; [reflexivity|]. auto.
Qed.

(** * Statistics survive deletion *)
Lemma bind_inv : forall A B (m : M A) (f : A -> M B) a w y a' w',
  bind m f a w = (Ok y, a', w') -> exists x a1 w1, m a w = (Ok x, a1, w1) /\ f x a1 w1 = (Ok y, a', w').
Proof.
  intros A B m f a w y a' w' H. unfold bind in H. destruct (m a w) as [[[x|e] a1] w1]; [|congruence]. eauto.
Qed.

Definition is_stat (x : attr) : Prop :=
  x = ANones \/ x = ACoverage \/ x = AEntropy \/ x = ARelEntropy \/ x = ALen.

Lemma nones_cached : forall w a v, obtained w a v ->
  exists a', nones a w = (Ok (n_ones v), a', w) /\ a_nones a' = Some (n_ones v) /\ a_cov a' <> None /\
    obtained w a' v.
Proof.
  intros w a v O. destruct (obtained_rep _ _ _ O) as (Hi & Hv & Hf & R).
  pose proof (acc_nones w v a Hv R) as H.
  unfold wp in H. destruct (nones a w) as [[[y|e] a'] w'] eqn:E; [|contradiction].
  destruct H as ((-> & -> & R' & G) & C). exists a'. split; [reflexivity|].
  split; [|split; [exact C|]].
  - unfold nones in E. apply bind_inv in E as (n1 & a1 & w1 & _ & E). apply bind_inv in E as (n2 & a2 & w2 & _ & E).
    apply bind_inv in E as (n3 & a3 & w3 & _ & E). apply bind_inv in E as (n4 & a4 & w4 & _ & E).
    apply bind_inv in E as (n5 & a5 & w5 & E1 & E2). unfold get in E1. injection E1 as <- <- <-.
    unfold lift, opt_res in E2. destruct (a_nones a4) as [k|] eqn:En; [|discriminate].
    injection E2 as -> <- _. exact En.
  - assert (Ec : call ANones a w = (Ok (ONum (n_ones v)), a', w)) by (unfold call, bind; rewrite E; reflexivity).
    eapply ob_read; [exact O|exact Ec].
Qed.

Lemma entropy_cached : forall w a v, obtained w a v ->
  exists a', entropy a w = (Ok (n_entropy v), a', w) /\ a_entropy a' = Some (n_entropy v) /\ a_relent a' <> None /\
    obtained w a' v.
Proof.
  intros w a v O. destruct (obtained_rep _ _ _ O) as (Hi & Hv & Hf & R).
  pose proof (acc_entropy w v a Hv R) as H.
  unfold wp in H. destruct (entropy a w) as [[[y|e] a'] w'] eqn:E; [|contradiction].
  destruct H as ((-> & -> & R' & G) & C). exists a'. split; [reflexivity|].
  split; [|split; [exact C|]].
  - unfold entropy in E. apply bind_inv in E as (n1 & a1 & w1 & _ & E). apply bind_inv in E as (n2 & a2 & w2 & _ & E).
    apply bind_inv in E as (n3 & a3 & w3 & E1 & E). unfold get in E1. injection E1 as <- <- <-.
    apply bind_inv in E as (n4 & a4 & w4 & E1 & E). unfold get in E1. injection E1 as <- <- <-.
    apply bind_inv in E as (n5 & a5 & w5 & E1 & E). unfold lift, opt_res in E.
    destruct (a_entropy a2) as [k|] eqn:En; [|discriminate]. injection E as -> <- _.
    destruct (a_relent a2).
    + unfold ret in E1. injection E1 as _ <- _. exact En.
    + apply bind_inv in E1 as (n6 & a6 & w6 & E2 & E1). unfold lift, opt_res in E2. injection E2 as <- <- <-.
      apply bind_inv in E1 as (n7 & a7 & w7 & E2 & E1).
      unfold div_len in E2. apply bind_inv in E2 as (l & a8 & w8 & E3 & E2). unfold get in E3. injection E3 as <- <- <-.
      destruct (a_len a2); [|discriminate]. unfold lift in E2. injection E2 as _ <- _.
      unfold upd in E1. injection E1 as _ <- _. cbn. exact En.
  - assert (Ec : call AEntropy a w = (Ok (ONum (n_entropy v)), a', w)) by (unfold call, bind; rewrite E; reflexivity).
    eapply ob_read; [exact O|exact Ec].
Qed.

Lemma coverage_cached : forall w a v, obtained w a v ->
  exists a', coverage a w = (Ok (fraction (n_ones v) (size v)), a', w) /\
    a_cov a' = Some (fraction (n_ones v) (size v)) /\ obtained w a' v.
Proof.
  intros w a v O. destruct (obtained_rep _ _ _ O) as (Hi & Hv & Hf & R).
  pose proof (acc_cov w v a Hv R) as H.
  unfold wp in H. destruct (coverage a w) as [[[y|e] a'] w'] eqn:E; [|contradiction].
  destruct H as (-> & -> & R' & G). exists a'. split; [reflexivity|]. split.
  - unfold coverage in E. apply bind_inv in E as (n1 & a1 & w1 & _ & E). apply bind_inv in E as (n2 & a2 & w2 & _ & E).
    apply bind_inv in E as (n3 & a3 & w3 & E1 & E). unfold get in E1. injection E1 as <- <- <-.
    unfold lift, opt_res in E. destruct (a_cov a2) as [k|] eqn:En; [|discriminate]. injection E as -> <- _. exact En.
  - assert (Ec : call ACoverage a w = (Ok (OFrac (fraction (n_ones v) (size v))), a', w)) by (unfold call, bind; rewrite E; reflexivity).
    eapply ob_read; [exact O|exact Ec].
Qed.
Lemma relent_cached : forall w a v, obtained w a v ->
  exists a', rel_entropy a w = (Ok (fraction (n_entropy v) (size v)), a', w) /\
    a_relent a' = Some (fraction (n_entropy v) (size v)) /\ obtained w a' v.
Proof.
  intros w a v O. destruct (obtained_rep _ _ _ O) as (Hi & Hv & Hf & R).
  pose proof (acc_relent w v a Hv R) as H.
  unfold wp in H. destruct (rel_entropy a w) as [[[y|e] a'] w'] eqn:E; [|contradiction].
  destruct H as (-> & -> & R' & G). exists a'. split; [reflexivity|]. split.
  - unfold rel_entropy in E. apply bind_inv in E as (n1 & a1 & w1 & _ & E). apply bind_inv in E as (n2 & a2 & w2 & _ & E).
    apply bind_inv in E as (n3 & a3 & w3 & E1 & E). unfold get in E1. injection E1 as <- <- <-.
    unfold lift, opt_res in E. destruct (a_relent a2) as [k|] eqn:En; [|discriminate]. injection E as -> <- _. exact En.
  - assert (Ec : call ARelEntropy a w = (Ok (OFrac (fraction (n_entropy v) (size v))), a', w)) by (unfold call, bind; rewrite E; reflexivity).
    eapply ob_read; [exact O|exact Ec].
Qed.

Lemma nones_hit : forall a w n, a_nones a = Some n -> a_cov a <> None -> nones a w = (Ok n, a, w).
Proof.
  intros a w n H1 H2. unfold nones, bind, get. rewrite H1. destruct (a_cov a) eqn:E; [|congruence].
  unfold ret. rewrite E. cbn. rewrite H1. reflexivity.
Qed.
Lemma cov_hit : forall a w q, a_cov a = Some q -> coverage a w = (Ok q, a, w).
Proof. intros a w q H. unfold coverage, bind, get. rewrite H. unfold ret. rewrite H. reflexivity. Qed.
Lemma entropy_hit : forall a w n, a_entropy a = Some n -> a_relent a <> None -> entropy a w = (Ok n, a, w).
Proof.
  intros a w n H1 H2. unfold entropy, bind, get. rewrite H1. destruct (a_relent a) eqn:E; [|congruence].
  unfold ret. rewrite E. cbn. rewrite H1. reflexivity.
Qed.
Lemma relent_hit : forall a w q, a_relent a = Some q -> rel_entropy a w = (Ok q, a, w).
Proof. intros a w q H. unfold rel_entropy, bind, get. rewrite H. unfold ret. rewrite H. reflexivity. Qed.
Lemma len_hit : forall a w n, a_len a = Some n -> length_of a w = (Ok n, a, w).
Proof. intros a w q H. unfold length_of, bind, get. rewrite H. reflexivity. Qed.

Lemma stat_after_delete : forall x w a v, is_stat x -> obtained w a v ->
  exists a1 a2 w2, call x a w = (Ok (view x v), a1, w) /\ delete a1 w = (Ok tt, a2, w2) /\
    call x a2 w2 = (Ok (view x v), a2, w2).
Proof.
  intros x w a v H O.
  assert (En : n_entropy v = Z.of_nat (List.length (switches v)) + 2) by (unfold n_entropy, len; lia).
  destruct H as [->|[->|[->|[->| -> ]]]]; cbn [call view].
  - destruct (nones_cached _ _ _ O) as (a1 & E & C1 & C2 & O1).
    destruct (delete_held _ _ _ O1) as (a2 & Ed & D1 & D2 & _).
    exists a1, a2. eexists. split; [unfold bind; rewrite E; reflexivity|]. split; [exact Ed|].
    unfold bind. rewrite (nones_hit a2 _ (n_ones v)) by congruence. reflexivity.
  - destruct (coverage_cached _ _ _ O) as (a1 & E & C1 & O1).
    destruct (delete_held _ _ _ O1) as (a2 & Ed & D1 & D2 & _).
    exists a1, a2. eexists. split; [unfold bind; rewrite E; reflexivity|]. split; [exact Ed|].
    unfold bind. erewrite (cov_hit a2) by (rewrite D2; exact C1). reflexivity.
  - rewrite <- En. destruct (entropy_cached _ _ _ O) as (a1 & E & C1 & C2 & O1).
    destruct (delete_held _ _ _ O1) as (a2 & Ed & D1 & D2 & D3 & D4 & _).
    exists a1, a2. eexists. split; [unfold bind; rewrite E; reflexivity|]. split; [exact Ed|].
    unfold bind. rewrite (entropy_hit a2 _ (n_entropy v)) by congruence. reflexivity.
  - rewrite <- En. destruct (relent_cached _ _ _ O) as (a1 & E & C1 & O1).
    destruct (delete_held _ _ _ O1) as (a2 & Ed & D1 & D2 & D3 & D4 & _).
    exists a1, a2. eexists. split; [unfold bind; rewrite E; reflexivity|]. split; [exact Ed|].
    unfold bind. erewrite (relent_hit a2) by (rewrite D4; exact C1). reflexivity.
  - destruct (delete_held _ _ _ O) as (a2 & Ed & D1 & D2 & D3 & D4 & D5 & _).
    pose proof (obtained_len _ _ _ O) as L.
    exists a, a2. eexists. split; [unfold bind; erewrite len_hit by exact L; reflexivity|].
    split; [exact Ed|]. unfold bind; erewrite len_hit by (rewrite D5; exact L); reflexivity.
Qed.

(** After deletion the data cannot be read any more, the file is gone and no
    other file is touched. *)
Lemma delete_ok : forall w a v, obtained w a v ->
  exists a' w', delete a w = (Ok tt, a', w') /\
    (exists e, fst (fst (raw a' w')) = Err e) /\
    (forall p, a_fmt a = Some FFile -> a_data a = VPath p -> w_fs w' p = None) /\
    (forall p, (a_fmt a = Some FFile -> a_data a <> VPath p) -> w_fs w' p = w_fs w p).
Proof.
  intros w a v O. destruct (delete_held _ _ _ O) as (a' & E & _ & _ & _ & _ & _ & DF & DD & DL).
  destruct (obtained_rep _ _ _ O) as (_ & _ & _ & [R _]).
  pose proof (r_stored _ _ _ R) as S. pose proof (r_loaded _ _ _ R) as L.
  eexists a', _. split; [exact E|].
  unfold is_fmt in *. destruct (a_fmt a) as [f|] eqn:F; [|contradiction].
  assert (Kd : f <> FFile -> match a_data a with
    | VPath p => if fmt_eqb (Some f) (Some FFile) then set_fs (fs_del p (w_fs w)) w else w
    | _ => w end = w).
  { intros H. destruct (a_data a); try reflexivity. destruct f; try reflexivity; congruence. }
  destruct (fmt_eqb (Some f) (Some FFile)) eqn:Ff.
  - assert (f = FFile) by (destruct f; try discriminate; reflexivity). subst f.
    destruct S as (p & Ep & Hp). rewrite Ep in *. split; [|split].
    + exists EFileNotFound. rewrite raw_loaded by congruence.
      unfold bind, get. rewrite DF. unfold read_self, bind, get. rewrite DF, DD.
      unfold read_at, bind, getw. cbn [w_fs set_fs]. unfold fs_del. rewrite path_eqb_refl. reflexivity.
    + intros q _ Eq. injection Eq as <-. cbn. unfold fs_del. rewrite path_eqb_refl. reflexivity.
    + intros q Hq. cbn. unfold fs_del. destruct (path_eqb q p) eqn:Eq; [|reflexivity].
      apply path_eqb_true in Eq. subst. exfalso. apply Hq; reflexivity.
  - assert (Nf : f <> FFile) by (intros ->; discriminate).
    rewrite Kd by exact Nf. split; [|split].
    + exists EType. rewrite raw_loaded by congruence. unfold bind at 1, get at 1. rewrite DF.
      destruct f; try congruence;
        unfold bitarray_to_raw, integer_to_raw, decompress, bind, get; rewrite ?DF, ?DD; reflexivity.
    + intros p H. congruence.
    + reflexivity.
Qed.

