(** Conversions between the formats: to_raw_from_any and the static codecs. *)
From Coq Require Import ZArith QArith Bool String Decimal DecimalString DecimalZ Lia List.
From Verif Require Import Base ActModel ActSpec ActObs ActCodec ActRep ActBuild.
Import ListNotations.
Open Scope Z_scope.

Lemma bret A B (x : A) (f : A -> M B) a w : bind (ret x) f a w = f x a w. Proof. auto. Qed.
Lemma blift A B (x : A) (f : A -> M B) a w : bind (lift (Ok x)) f a w = f x a w. Proof. auto. Qed.
Lemma berr A B e (f : A -> M B) a w : bind (lift (Err e)) f a w = (Err e, a, w). Proof. auto. Qed.
Lemma bget A B (g : act -> A) (f : A -> M B) a w : bind (get g) f a w = f (g a) a w. Proof. auto. Qed.
Lemma bstamp B o (f : M B) a w : (stamp_bump o ;;; f) a w = f (bump o (stamp o a)) w. Proof. auto. Qed.
Lemma bsize B k v (f : M B) a w : (rec_size k v ;;; f) a w = f (set_size k (w_size w v) a) w. Proof. auto. Qed.

Lemma size_unset k v (B : Type) (f : M B) a w : exists a', a_len a' = a_len a /\ a_nones a' = a_nones a /\ (rec_size_if_unset k v ;;; f) a w = f a' w.
Proof.
  unfold rec_size_if_unset, bind, get. destruct (a_size a k); cbn; [exists a; auto|]. exists (set_size k (w_size w v) a). auto.
Qed.

Lemma nones_unset xs (B : Type) (f : M B) a w : exists a', (nones_if_unset xs ;;; f) a w = f a' w.
Proof. unfold nones_if_unset, bind, get. destruct (a_nones a); cbn; eauto. Qed.

Ltac sz := match goal with |- context [bind (rec_size_if_unset ?k ?v) (fun _ => ?f) ?a ?w] =>
  let a1 := fresh "a" in destruct (size_unset k v _ f a w) as (a1 & _ & _ & ->) end.
Ltac nn := match goal with |- context [bind (nones_if_unset ?xs) (fun _ => ?f) ?a ?w] =>
  let a1 := fresh "a" in destruct (nones_unset xs _ f a w) as (a1 & ->) end.

Lemma any_bits v a w : fst (fst (to_raw_from_any (VBits v) a w)) = Ok (as_01 v).
Proof.
  unfold to_raw_from_any, bitarray_to_raw. rewrite bret. cbv zeta.
  sz. sz.
  reflexivity.
Qed.

Lemma any_integer v a w : v <> [] -> a_len a = Some (size v) -> fst (fst (to_raw_from_any (VInt (binary v)) a w)) = Ok (as_01 v).
Proof.
  intros V L. destruct (bin_digits_binary v V) as (s & E & _). pose proof (pad_bits_binary v s V E) as P. unfold to_raw_from_any, integer_to_raw.
  rewrite bret. rewrite E, blift, bsize, bget. change (a_len (set_size SInt (w_size w (VInt (binary v))) a)) with (a_len a). rewrite L.
  assert (LP : len s <= size v).
  { unfold pad_bits in P. destruct (len s =? size v) eqn:Q; [apply Z.eqb_eq in Q; lia|].
    assert (H : size (repeat false (Z.to_nat (size v - len s)) ++ s) = size v) by (rewrite P; auto).
    unfold size in H at 1. rewrite app_length, repeat_length in H. unfold len in *. lia. }
  replace (size v <? len s) with false by (symmetry; apply Z.ltb_ge; lia).
  assert (Q : repeat 0 (Z.to_nat (size v - len s)) ++ map bit s = as_01 v).
  { change (as_01 v) with (map bit v). transitivity (map bit (pad_bits (size v) s)); [|rewrite P; auto]. unfold pad_bits. destruct (len s =? size v) eqn:H.
    - apply Z.eqb_eq in H. replace (size v - len s) with 0 by lia. auto.
    - rewrite map_app. f_equal. clear. induction (Z.to_nat (size v - len s)); cbn; congruence. }
  cbv zeta. rewrite Q, bsize, bstamp. nn. auto.
Qed.

Lemma expand_runs v a w : v <> [] ->
  fst (fst ((s <- lift (decompress_list (run_lengths v));; rec_size_if_unset SRaw (VArr s) ;;; stamp_bump OC2R ;;; nones_if_unset s ;;; ret (VArr s)) a w)) =
  Ok (VArr (as_01 v)).
Proof.
  intros V. rewrite decompress_run_lengths, blift by auto.
  sz. rewrite bstamp.
  nn. auto.
Qed.

Lemma out_bind A B (m : M A) (f : A -> M B) a w x : fst (fst (m a w)) = Ok x -> exists a1 w1, bind m f a w = f x a1 w1.
Proof. unfold bind. destruct (m a w) as [[o a1] w1]. cbn. intros ->. eauto. Qed.

Lemma any_text v a w : v <> [] -> fst (fst (to_raw_from_any (VStr (run_text v)) a w)) = Ok (as_01 v).
Proof.
  intros V. unfold to_raw_from_any.
  assert (D : fst (fst (decompress (Some (VStr (run_text v))) true a w)) = Ok (VArr (as_01 v))).
  { unfold decompress. rewrite bret. cbv zeta. destruct (run_text v) eqn:R; [destruct (run_text_not_nil v R)|]. rewrite <- R, literal_seq_run_text, blift, bsize. apply expand_runs; auto. }
  destruct (out_bind _ _ _ (fun r => match r with VArr xs => ret xs | _ => throw EType end) _ _ _ D) as (a1 & w1 & ->). auto.
Qed.

Lemma any_array v a w : 2 <= size v -> fst (fst (to_raw_from_any (VArr (run_lengths v)) a w)) = Ok (as_01 v).
Proof.
  intros V. assert (V0 : v <> []) by (intros ->; cbn in V; lia). unfold to_raw_from_any.
  assert (D : fst (fst (decompress (Some (VArr (run_lengths v))) true a w)) = Ok (VArr (as_01 v))).
  { unfold decompress. rewrite bret. cbv zeta. pose proof (last_run_lengths v 0) as LR.
    destruct (run_lengths v) as [|c0 c] eqn:R; [destruct (run_lengths_not_nil v R)|].
    assert (LB : looks_raw (c0 :: c) = false).
    { unfold looks_raw, last_not_bit. rewrite LR. destruct (size v =? 0) eqn:Q1; [apply Z.eqb_eq in Q1; lia|]. destruct (size v =? 1) eqn:Q2; [apply Z.eqb_eq in Q2; lia|auto]. }
    rewrite LB, <- R. rewrite bsize. apply expand_runs; auto. }
  destruct (out_bind _ _ _ (fun r => match r with VArr xs => ret xs | _ => throw EType end) _ _ _ D) as (a1 & w1 & ->). auto.
Qed.

Lemma any_raw v a w : fst (fst (to_raw_from_any (VArr (as_01 v)) a w)) = Ok (as_01 v).
Proof.
  unfold to_raw_from_any.
  assert (D : fst (fst (decompress (Some (VArr (as_01 v))) true a w)) = Ok (VArr (as_01 v))).
  { unfold decompress. rewrite bret. cbv zeta. pose proof (looks_raw_as_01 v) as LR. pose proof (ubyte_as_01 v) as U. destruct (as_01 v) as [|x xs].
    - rewrite bsize. nn. auto.
    - rewrite LR, U. rewrite bsize. nn. auto. }
  destruct (out_bind _ _ _ (fun r => match r with VArr xs => ret xs | _ => throw EType end) _ _ _ D) as (a1 & w1 & ->). auto.
Qed.

Lemma any_refused a w : (forall n, a_len a = None -> fst (fst (to_raw_from_any (VInt n) a w)) = Err (if n <? 0 then EValue else EType)) /\
  (forall n l, n < 0 \/ 2 ^ l <= n -> 0 < l -> a_len a = Some l -> fst (fst (to_raw_from_any (VInt n) a w)) = Err EValue) /\
  (forall n, fst (fst (to_raw_from_any (VStr (NilZero.string_of_int (Z.to_int n))) a w)) = Err EType) /\
  (forall p, fst (fst (to_raw_from_any (VPath p) a w)) = Err EType) /\ fst (fst (to_raw_from_any VNone a w)) = Err EType.
Proof.
  assert (I : forall n, fst (fst (to_raw_from_any (VInt n) a w)) =
    match bin_digits n with Err e => Err e | Ok s => match a_len a with None => Err EType | Some l => if l <? len s then Err EValue else
      Ok (repeat 0 (Z.to_nat (l - len s)) ++ map bit s) end end).
  { intros n. unfold to_raw_from_any, integer_to_raw. rewrite bret. destruct (bin_digits n) as [s|e]; [rewrite blift|auto]. rewrite bsize, bget. change (a_len (set_size SInt (w_size w (VInt n)) a)) with (a_len a). destruct (a_len a) as [l|]; auto.
    destruct (l <? len s); auto. cbv zeta. rewrite bsize, bstamp. nn. auto. }
  split; [|split; [|split; [|split; auto]]].
  - intros n L. rewrite I, L. destruct n; auto.
  - intros n l H H0 L. rewrite I, L. destruct n as [|p|p]; cbn [bin_digits]; auto.
    + destruct H as [H|H]; [lia|]. pose proof (Z.pow_pos_nonneg 2 l). lia.
    + destruct H as [H|H]; [lia|]. assert (B : Z.pos p < 2 ^ len (pos_bits p)).
      { clear. induction p; cbn [pos_bits].
        - rewrite len_app. change (len [true]) with 1. rewrite Z.pow_add_r, Z.pow_1_r by (unfold len; lia). lia.
        - rewrite len_app. change (len [false]) with 1. rewrite Z.pow_add_r, Z.pow_1_r by (unfold len; lia). lia.
        - reflexivity. }
      assert (Q : l < len (pos_bits p)) by (apply (Z.pow_lt_mono_r_iff 2); [lia|unfold len; lia|lia]). apply Z.ltb_lt in Q. rewrite Q. auto.
  - intros n. unfold to_raw_from_any. change (NilZero.string_of_int (Z.to_int n)) with (string_of_Z n).
    assert (Q : literal_seq (string_of_Z n) = Err EType).
    { unfold literal_seq, literal_eval. change (string_of_Z n) with (join_ints [n]). rewrite parse_join by discriminate. auto. }
    pose proof (string_of_Z_not_nil n) as N. unfold decompress. unfold bind at 1. rewrite bret. cbv zeta.
    destruct (string_of_Z n); [congruence|]. rewrite Q, berr. auto.
Qed.

(** ** Static codecs *)

Lemma compress_other i32 d : (forall n, compress i32 (VInt n) d = Err EType) /\ (forall v, compress i32 (VBits v) d = Err EType) /\
  (forall s, compress i32 (VStr s) DStr = Ok (VStr s)) /\
  (forall xs, 2 <= last xs 0 -> compress i32 (VArr xs) d = Ok (VArr xs)) /\
  compress i32 (VArr []) d = Ok (VArr []).
Proof.
  split; [auto|]. split; [auto|]. split; [auto|]. split; auto. intros xs L. unfold compress.
  assert (B : last_not_bit xs = true).
  { unfold last_not_bit. destruct xs as [|x t]; [cbn in L; lia|]. destruct (last (x :: t) 0 =? 0) eqn:Q1; [apply Z.eqb_eq in Q1; lia|].
    destruct (last (x :: t) 0 =? 1) eqn:Q2; [apply Z.eqb_eq in Q2; lia|auto]. }
  rewrite B. auto.
Qed.

Lemma base2_digits ds : forall acc n, int_base2 acc ds = Ok n -> Forall (fun d => d = 0 \/ d = 1) ds.
Proof.
  induction ds as [|d t IH]; intros acc n H; auto. cbn in H. destruct ((d =? 0) || (d =? 1)) eqn:B; [|discriminate H].
  apply orb_true_iff in B as [B|B]; apply Z.eqb_eq in B; constructor; eauto.
Qed.

Lemma base2_error ds : forall acc e, int_base2 acc ds = Err e -> e = EValue.
Proof. induction ds as [|d t IH]; intros acc e H; [discriminate H|]. cbn in H. destruct ((d =? 0) || (d =? 1)); [eauto|congruence]. Qed.

Lemma integer_other :
  (forall n, raw_to_integer (VInt n) = Ok n) /\ (forall v, raw_to_integer (VBits v) = Err EType) /\ (forall s, raw_to_integer (VStr s) = Err EType) /\
  (forall xs, 2 <= last xs 0 -> raw_to_integer (VArr xs) = Err EType) /\
  raw_to_integer (VArr []) = Err EValue /\
  (forall xs x, (last xs 0 = 0 \/ last xs 0 = 1) -> In x xs -> 2 <= x <= 9 -> raw_to_integer (VArr xs) = Err EValue).
Proof.
  split; [auto|]. split; [auto|]. split; [auto|]. split.
  { intros xs L. unfold raw_to_integer. assert (B : last_not_bit xs = true).
    { unfold last_not_bit. destruct xs as [|x t]; [cbn in L; lia|]. destruct (last (x :: t) 0 =? 0) eqn:Q1; [apply Z.eqb_eq in Q1; lia|].
      destruct (last (x :: t) 0 =? 1) eqn:Q2; [apply Z.eqb_eq in Q2; lia|auto]. }
    rewrite B. auto. }
  split; [auto|]. intros xs x L I H. unfold raw_to_integer.
  assert (B : last_not_bit xs = false) by (unfold last_not_bit; destruct xs; auto; destruct L as [->| ->]; auto).
  rewrite B. assert (J : In x (flat_map (fun x => ubyte_digits (ubyte x)) xs)).
  { apply in_flat_map. exists x. split; auto. unfold ubyte. rewrite Z.mod_small by lia. unfold ubyte_digits.
    replace (x <? 10) with true by (symmetry; apply Z.ltb_lt; lia). left. auto. }
  unfold int_of_digits2. destruct (flat_map _ xs) as [|d t]; [destruct J|].
  destruct (int_base2 0 (d :: t)) as [n|e] eqn:E; [|rewrite (base2_error _ _ _ E); auto].
  pose proof (proj1 (Forall_forall _ _) (base2_digits _ _ _ E) x J) as Q. cbn beta in Q. lia.
Qed.

Lemma bits_other :
  (forall v, raw_to_bitarray (VBits v) = Ok v) /\ (forall n, raw_to_bitarray (VInt n) = Err EType) /\ (forall s, raw_to_bitarray (VStr s) = Err EType) /\
  (forall xs, 2 <= last xs 0 -> raw_to_bitarray (VArr xs) = Err EType) /\
  (forall xs x, (last xs 0 = 0 \/ last xs 0 = 1) -> In x xs -> x <> 0 -> x <> 1 -> raw_to_bitarray (VArr xs) = Err EValue).
Proof.
  split; [auto|]. split; [auto|]. split; [auto|]. split.
  { intros xs L. unfold raw_to_bitarray. assert (B : last_not_bit xs = true).
    { unfold last_not_bit. destruct xs as [|x t]; [cbn in L; lia|]. destruct (last (x :: t) 0 =? 0) eqn:Q1; [apply Z.eqb_eq in Q1; lia|].
      destruct (last (x :: t) 0 =? 1) eqn:Q2; [apply Z.eqb_eq in Q2; lia|auto]. }
    rewrite B. auto. }
  intros xs x L I H H0. unfold raw_to_bitarray.
  assert (B : last_not_bit xs = false) by (unfold last_not_bit; destruct xs; auto; destruct L as [->| ->]; auto).
  rewrite B. clear L B. induction xs as [|y t IH]; [destruct I|]. cbn. destruct I as [->|I].
  - apply Z.eqb_neq in H, H0. rewrite H, H0. auto.
  - rewrite IH by auto. destruct (y =? 0); auto. destruct (y =? 1); auto.
Qed.

Lemma one_point : exists v a w, v <> [] /\ fst (fst (to_raw_from_any (VArr (run_lengths v)) a w)) = Ok [0; 1] /\ as_01 v = [0].
Proof.
  exists [false], (blank true), (mkWorld (mkCfg DStr false false false 1) (fun _ => None) 0 (fun _ => 0) (fun _ => 0) (fun _ => false) (fun _ => 0) (fun _ => 0) (fun z => Some z)).
  split; [discriminate|]. split; vm_compute; reflexivity.
Qed.
