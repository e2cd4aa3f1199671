(** Correctness of the codecs of activation.py (lemmas). *)
From Coq Require Import Decimal DecimalString DecimalZ ZArith QArith Bool String Ascii List Lia.
From Verif Require Import Base ActModel ActSpec.
Import ListNotations.
Open Scope Z_scope.

Lemma len_size : forall v : vec, len v = size v.
Proof. reflexivity. Qed.
Lemma len_nonneg : forall A (l : list A), 0 <= len l.
Proof. intros; unfold len; lia. Qed.
Lemma len_app : forall A (l m : list A), len (l ++ m) = len l + len m.
Proof. intros; unfold len; rewrite app_length; lia. Qed.
Lemma len_cons : forall A (x : A) l, len (x :: l) = 1 + len l.
Proof. intros; unfold len; cbn [List.length]; lia. Qed.
Lemma len_nil : forall A, len (@nil A) = 0.
Proof. reflexivity. Qed.
Lemma len_map : forall A B (f : A -> B) l, len (map f l) = len l.
Proof. intros; unfold len; rewrite map_length; reflexivity. Qed.
Lemma len_repeat : forall A (x : A) n, len (repeat x n) = Z.of_nat n.
Proof. intros; unfold len; rewrite repeat_length; reflexivity. Qed.
Lemma len_as_01 : forall v, len (as_01 v) = size v.
Proof. intros; unfold as_01; apply len_map. Qed.
Lemma as_01_bit : forall v, as_01 v = map bit v.
Proof. reflexivity. Qed.
Lemma size_nonneg : forall v, 0 <= size v.
Proof. intros; unfold size; lia. Qed.
Lemma size_pos : forall v, v <> [] -> 0 < size v.
Proof. destruct v; [congruence|]; intros; unfold size; cbn; lia. Qed.
Lemma size_cons : forall b v, size (b :: v) = 1 + size v.
Proof. intros; unfold size; cbn [List.length]; lia. Qed.

(** ** bytes *)
Lemma ubyte_as_01 : forall v, map ubyte (as_01 v) = as_01 v.
Proof.
  unfold as_01; induction v as [|b t IH]; cbn [map]; [reflexivity|].
  rewrite IH; destruct b; reflexivity.
Qed.
Lemma sbyte_as_01 : forall v, map sbyte (as_01 v) = as_01 v.
Proof.
  unfold as_01; induction v as [|b t IH]; cbn [map]; [reflexivity|].
  rewrite IH; destruct b; reflexivity.
Qed.

Lemma last_as_01 : forall v, last (as_01 v) 0 = 0 \/ last (as_01 v) 0 = 1.
Proof.
  induction v as [|b t IH]; [left; reflexivity|].
  destruct t as [|c u]; [destruct b; cbn; auto|]. exact IH.
Qed.
Lemma last_not_bit_as_01 : forall v, last_not_bit (as_01 v) = false.
Proof.
  intros v; unfold last_not_bit. destruct (as_01 v) eqn:E; [reflexivity|].
  rewrite <- E. destruct (last_as_01 v) as [H|H]; rewrite H; reflexivity.
Qed.
Lemma looks_raw_as_01 : forall v, looks_raw (as_01 v) = true.
Proof. intros; unfold looks_raw; rewrite last_not_bit_as_01; reflexivity. Qed.

(** ** counting and positions *)
Lemma n_ones_cons : forall b v, n_ones (b :: v) = bit b + n_ones v.
Proof.
  intros b v. unfold n_ones. cbn [count_occ].
  destruct (bool_dec b true) as [->|Hb]; [cbn [bit]; lia|].
  destruct b; [congruence|]. reflexivity.
Qed.
Lemma count_ones_as_01 : forall v, count_ones (as_01 v) = n_ones v.
Proof.
  unfold count_ones, as_01.
  induction v as [|b t IH]; [reflexivity|].
  rewrite n_ones_cons, <- IH. cbn [map filter].
  destruct b; cbn [Z.eqb Pos.eqb bit]; [rewrite len_cons|]; reflexivity.
Qed.
Lemma count_filter_id : forall v : vec, len (filter (fun b => b) v) = n_ones v.
Proof.
  induction v as [|b t IH]; [reflexivity|].
  rewrite n_ones_cons, <- IH. cbn [filter].
  destruct b; cbn [bit]; [rewrite len_cons|]; reflexivity.
Qed.
Lemma n_ones_bounds : forall v, 0 <= n_ones v <= size v.
Proof.
  intros; unfold n_ones, size; split; [lia|].
  pose proof (count_occ_bound bool_dec true v); lia.
Qed.

Lemma filter_seq_shift : forall (P : nat -> bool) a n,
  filter P (seq (S a) n) = map S (filter (fun i => P (S i)) (seq a n)).
Proof.
  intros P a n. rewrite <- seq_shift. induction (seq a n) as [|x l IH]; [reflexivity|].
  cbn [map filter]. destruct (P (S x)); cbn [map]; rewrite IH; reflexivity.
Qed.

Lemma where_one_positions_gen : forall v k,
  where_one (Z.of_nat k) (as_01 v) =
  map Z.of_nat (map (fun i => (k + i)%nat) (filter (fun i => nth i v false) (seq 0 (List.length v)))).
Proof.
  induction v as [|b t IH]; intros k; [reflexivity|].
  cbn [as_01 map where_one List.length seq filter nth].
  replace (Z.of_nat k + 1) with (Z.of_nat (S k)) by lia.
  fold (as_01 t). rewrite (IH (S k)).
  rewrite (filter_seq_shift (fun i => nth i (b :: t) false) 0).
  cbn [nth].
  destruct b; cbn [Z.eqb Pos.eqb map]; rewrite ?Nat.add_0_r; [f_equal|];
    rewrite !map_map; apply map_ext; intros; f_equal; lia.
Qed.
Lemma where_one_positions : forall v, where_one 0 (as_01 v) = positions v.
Proof.
  intros v. change 0 with (Z.of_nat 0). rewrite where_one_positions_gen. unfold positions.
  rewrite map_map. reflexivity.
Qed.

(** ** switches *)

(** Recursive form of the switches, [k] is the index of the head of [t]. *)
Fixpoint sw (k : Z) (prev : bool) (t : vec) : list Z :=
  match t with
  | [] => []
  | b :: t' => if Bool.eqb prev b then sw (k + 1) b t' else k :: sw (k + 1) b t'
  end.

Lemma sw_switches_gen : forall t prev k,
  sw (Z.of_nat k) prev t =
  map Z.of_nat (map (fun i => (k + (i - 1))%nat)
    (filter (fun i => xorb (nth (i - 1) (prev :: t) false) (nth i (prev :: t) false))
       (seq 1 (List.length t)))).
Proof.
  induction t as [|b t IH]; intros prev k; [reflexivity|].
  cbn [sw List.length seq].
  cbn [filter]. change (nth (1 - 1) (prev :: b :: t) false) with prev.
  change (nth 1 (prev :: b :: t) false) with b.
  replace (Z.of_nat k + 1) with (Z.of_nat (S k)) by lia.
  rewrite (filter_seq_shift _ 1).
  rewrite IH.
  assert (E : filter (fun i => xorb (nth (S i - 1) (prev :: b :: t) false) (nth (S i) (prev :: b :: t) false)) (seq 1 (List.length t))
            = filter (fun i => xorb (nth (i - 1) (b :: t) false) (nth i (b :: t) false)) (seq 1 (List.length t))).
  { apply filter_ext_in. intros i Hi. apply in_seq in Hi.
    replace (S i - 1)%nat with i by lia.
    destruct i as [|i]; [lia|].
    cbn [nth]. replace (S i - 1)%nat with i by lia. reflexivity. }
  rewrite E.
  assert (M : forall l, (forall x, In x l -> (1 <= x)%nat) ->
     map Z.of_nat (map (fun i => (S k + (i - 1))%nat) l) =
     map Z.of_nat (map (fun i => (k + (i - 1))%nat) (map S l))).
  { intros l Hl. rewrite !map_map. apply map_ext_in. intros x Hx. specialize (Hl x Hx). f_equal. lia. }
  assert (L : forall x, In x (filter (fun i => xorb (nth (i - 1) (b :: t) false) (nth i (b :: t) false)) (seq 1 (List.length t))) -> (1 <= x)%nat).
  { intros x Hx. apply filter_In in Hx. destruct Hx as [Hx _]. apply in_seq in Hx. lia. }
  rewrite (M _ L).
  destruct prev, b; cbn [Bool.eqb xorb map]; try reflexivity;
    f_equal; f_equal; lia.
Qed.

Lemma sw_switches : forall b t, sw 1 b t = switches (b :: t).
Proof.
  intros b t. change 1 with (Z.of_nat 1). rewrite sw_switches_gen.
  unfold switches. cbn [List.length]. rewrite Nat.sub_succ, Nat.sub_0_r.
  rewrite !map_map. apply map_ext_in. intros i Hi.
  apply filter_In in Hi. destruct Hi as [Hi _]. apply in_seq in Hi. f_equal. lia.
Qed.

Lemma run_lengths_cons : forall b t,
  run_lengths (b :: t) = bit b :: sw 1 b t ++ [size (b :: t)].
Proof. intros. unfold run_lengths. rewrite sw_switches. reflexivity. Qed.

Lemma where_abs_diff : forall t b k,
  where_one k (abs_diff (as_01 (b :: t))) = sw k b t.
Proof.
  induction t as [|c t IH]; intros b k; [reflexivity|].
  cbn [sw]. rewrite <- IH.
  destruct b, c; cbn; reflexivity.
Qed.

Lemma compress_list_runs : forall v, v <> [] -> compress_list (as_01 v) = run_lengths v.
Proof.
  intros [|b t] H; [congruence|].
  unfold compress_list. rewrite sbyte_as_01, where_abs_diff, run_lengths_cons, len_as_01.
  reflexivity.
Qed.

Lemma last_app_one : forall A (l : list A) x d, last (l ++ [x]) d = x.
Proof. intros; apply last_last. Qed.

Lemma last_run_lengths : forall v d, last (run_lengths v) d = size v.
Proof. intros. unfold run_lengths. rewrite app_comm_cons. apply last_last. Qed.

Lemma len_run_lengths : forall v, len (run_lengths v) = 2 + len (switches v).
Proof. intros. unfold run_lengths. rewrite len_cons, len_app, len_cons, len_nil. lia. Qed.

Lemma sw_range : forall t b k x, In x (sw k b t) -> k <= x < k + size t.
Proof.
  induction t as [|c t IH]; intros b k x; cbn [sw]; [intros []|].
  rewrite size_cons. pose proof (size_nonneg t).
  destruct (Bool.eqb b c); intros H0; [|destruct H0 as [->|H0]; [lia|]];
  apply IH in H0; lia.
Qed.

Lemma run_lengths_range : forall v x, v <> [] -> In x (run_lengths v) -> 0 <= x <= size v.
Proof.
  intros [|b t] x H; [congruence|]. rewrite run_lengths_cons.
  pose proof (size_nonneg t). rewrite size_cons.
  intros [<-|Hin]; [destruct b; cbn [bit]; lia|].
  apply in_app_or in Hin. destruct Hin as [Hin|[<-|[]]]; [|lia].
  apply sw_range in Hin. lia.
Qed.

Lemma run_lengths_not_nil : forall v, run_lengths v <> [].
Proof. intros v; unfold run_lengths; discriminate. Qed.

(** ** decompression *)
Lemma firstn_app_exact : forall A (l m : list A) n, List.length l = n -> firstn n (l ++ m) = l.
Proof. intros; subst. rewrite firstn_app, Nat.sub_diag, firstn_all, firstn_O, app_nil_r; reflexivity. Qed.
Lemma skipn_app_exact : forall A (l m : list A) n, List.length l = n -> skipn n (l ++ m) = m.
Proof. intros; subst. rewrite skipn_app, Nat.sub_diag, skipn_all; reflexivity. Qed.

Lemma assign_ones_spec : forall s a b,
  0 <= a -> a <= b -> b <= len s ->
  assign_ones s a b =
  Ok (firstn (Z.to_nat a) s ++ repeat 1 (Z.to_nat (b - a)) ++ skipn (Z.to_nat b) s).
Proof.
  intros s a b H1 H2 H3. unfold assign_ones.
  destruct (b - a <? 0) eqn:E; [apply Z.ltb_lt in E; lia|].
  unfold norm_index.
  destruct (a <? 0) eqn:Ea; [apply Z.ltb_lt in Ea; lia|].
  destruct (b <? 0) eqn:Eb; [apply Z.ltb_lt in Eb; lia|].
  rewrite (Z.min_l a) by lia. rewrite (Z.min_l b) by lia.
  rewrite Z.max_r by lia. rewrite Z.eqb_refl. cbn [orb].
  replace (a + (b - a)) with b by lia. reflexivity.
Qed.

Lemma repeat_S_end : forall A (x : A) n, repeat x n ++ [x] = repeat x (S n).
Proof. intros; symmetry; apply (repeat_cons n x). Qed.

Lemma skipn_S_tl : forall A (s : list A) k, skipn (S k) s = tl (skipn k s).
Proof.
  induction s as [|x s IH]; intros [|k]; try reflexivity.
  rewrite skipn_cons, IH. reflexivity.
Qed.

Lemma skipn_S_zeros : forall (s : list Z) k m,
  skipn k s = repeat 0 (S m) -> skipn (S k) s = repeat 0 m.
Proof.
  intros s k m H. rewrite skipn_S_tl, H. reflexivity.
Qed.

Lemma firstn_skipn_zeros : forall (s : list Z) i k,
  (i <= k)%nat -> (k <= List.length s)%nat ->
  skipn i s = repeat 0 (List.length s - i) ->
  firstn k s = firstn i s ++ repeat 0 (k - i).
Proof.
  intros s i k H1 H2 H3.
  rewrite <- (firstn_skipn i s) at 1. rewrite firstn_app.
  rewrite firstn_length_le by lia.
  rewrite firstn_firstn, Nat.min_r by lia. f_equal.
  rewrite H3. clear H3.
  replace (List.length s - i)%nat with ((k - i) + (List.length s - k))%nat by lia.
  rewrite repeat_app. apply firstn_app_exact. apply repeat_length.
Qed.

Lemma decompress_loop_spec : forall t (k i : nat) (pv : bool) s,
  (i <= k)%nat ->
  List.length s = (k + List.length t)%nat ->
  skipn k s = repeat 0 (List.length t) ->
  (pv = false -> skipn i s = repeat 0 (List.length s - i)) ->
  decompress_loop pv (Z.of_nat i) s (sw (Z.of_nat k) pv t ++ [Z.of_nat (k + List.length t)]) =
  Ok (firstn i s ++ repeat (bit pv) (k - i) ++ as_01 t).
Proof.
  induction t as [|b t IH]; intros k i pv s Hik Hlen Hz Hf.
  - cbn [sw app List.length] in *. rewrite Nat.add_0_r in *. cbn [decompress_loop].
    destruct pv.
    + rewrite assign_ones_spec by (unfold len; lia). cbn [rbind].
      rewrite Nat2Z.id. replace (Z.to_nat (Z.of_nat k - Z.of_nat i)) with (k - i)%nat by lia.
      rewrite Nat2Z.id. rewrite Hz. reflexivity.
    + rewrite <- (firstn_all2 (n:=k) s) at 1 by lia.
      rewrite (firstn_skipn_zeros s i k) by (auto; lia). cbn [as_01 map bit].
      rewrite app_nil_r. reflexivity.
  - cbn [List.length] in *.
    replace (k + S (List.length t))%nat with (S k + List.length t)%nat in * by lia.
    cbn [sw]. replace (Z.of_nat k + 1) with (Z.of_nat (S k)) by lia.
    destruct (Bool.eqb pv b) eqn:Eb.
    + apply Bool.eqb_prop in Eb. subst b.
      rewrite (IH (S k) i pv s) by (auto; try lia; apply skipn_S_zeros; exact Hz).
      f_equal. f_equal. replace (S k - i)%nat with (S (k - i)) by lia.
      rewrite <- repeat_S_end, <- app_assoc. reflexivity.
    + cbn [app decompress_loop]. destruct pv.
      * destruct b; [discriminate|].
        rewrite assign_ones_spec by (unfold len; lia). cbn [rbind].
        rewrite !Nat2Z.id. replace (Z.to_nat (Z.of_nat k - Z.of_nat i)) with (k - i)%nat by lia.
        rewrite Hz.
        set (s' := firstn i s ++ repeat 1 (k - i) ++ repeat 0 (S (List.length t))).
        assert (Hpre : List.length (firstn i s ++ repeat 1 (k - i)) = k).
        { rewrite app_length, firstn_length_le, repeat_length by lia. lia. }
        assert (Es' : s' = (firstn i s ++ repeat 1 (k - i)) ++ repeat 0 (S (List.length t))).
        { unfold s'. rewrite app_assoc. reflexivity. }
        assert (Ls' : List.length s' = (S k + List.length t)%nat).
        { rewrite Es', app_length, Hpre, repeat_length. lia. }
        assert (Zs' : skipn k s' = repeat 0 (S (List.length t))).
        { rewrite Es'. apply skipn_app_exact. exact Hpre. }
        rewrite (IH (S k) k false s').
        -- rewrite Es' at 1. rewrite (firstn_app_exact _ _ _ k Hpre).
           replace (S k - k)%nat with 1%nat by lia. cbn [repeat bit app as_01 map].
           rewrite <- app_assoc. reflexivity.
        -- lia.
        -- exact Ls'.
        -- apply skipn_S_zeros. exact Zs'.
        -- intros _. rewrite Zs'. f_equal. lia.
      * destruct b; [|discriminate].
        rewrite (IH (S k) k true s).
        -- rewrite (firstn_skipn_zeros s i k) by (auto; lia).
           replace (S k - k)%nat with 1%nat by lia. cbn [repeat bit app as_01 map].
           rewrite <- app_assoc. reflexivity.
        -- lia.
        -- lia.
        -- apply skipn_S_zeros. exact Hz.
        -- discriminate.
Qed.

Lemma sw_nil_const : forall t b k, sw k b t = [] -> as_01 t = repeat (bit b) (List.length t).
Proof.
  induction t as [|c t IH]; intros b k; [reflexivity|].
  cbn [sw]. destruct (Bool.eqb b c) eqn:E; [|discriminate].
  apply Bool.eqb_prop in E; subst c. intros H.
  cbn [as_01 map repeat List.length]. f_equal. exact (IH _ _ H).
Qed.

Lemma decompress_run_lengths : forall v, v <> [] -> decompress_list (run_lengths v) = Ok (as_01 v).
Proof.
  intros [|b t] H; [congruence|]. unfold decompress_list.
  rewrite run_lengths_cons at 1. rewrite last_run_lengths.
  pose proof (size_nonneg (b :: t)) as Hn.
  destruct (size (b :: t) <? 0) eqn:E; [apply Z.ltb_lt in E; lia|]. clear E Hn.
  assert (En : Z.to_nat (size (b :: t)) = S (List.length t)) by (unfold size; rewrite Nat2Z.id; reflexivity).
  rewrite !En.
  assert (Hs : (if bit b =? 1 then set_first (repeat 0 (S (List.length t))) else Ok (repeat 0 (S (List.length t))))
               = Ok (bit b :: repeat 0 (List.length t))) by (destruct b; reflexivity).
  rewrite Hs. cbn [rbind].
  destruct (sw 1 b t ++ [size (b :: t)]) as [|x [|y r]] eqn:Er.
  - destruct (sw 1 b t); discriminate.
  - assert (Hsw : sw 1 b t = []).
    { destruct (sw 1 b t) as [|z [|? ?]]; cbn in Er; try discriminate; reflexivity. }
    apply sw_nil_const in Hsw. cbn [as_01 map]. fold (as_01 t). rewrite Hsw.
    destruct b; reflexivity.
  - rewrite <- Er.
    replace (bit b =? 1) with b by (destruct b; reflexivity).
    pose proof (decompress_loop_spec t 1 0 b (bit b :: repeat 0 (List.length t))) as L.
    cbn [skipn List.length firstn app Nat.sub repeat] in L.
    change (Z.of_nat 0) with 0 in L. change (Z.of_nat 1) with 1 in L.
    replace (Z.of_nat (1 + List.length t)) with (size (b :: t)) in L by reflexivity.
    rewrite L.
    + reflexivity.
    + lia.
    + rewrite repeat_length. reflexivity.
    + reflexivity.
    + intros ->. rewrite repeat_length. reflexivity.
Qed.

Lemma as_01_inj : forall v1 v2, as_01 v1 = as_01 v2 -> v1 = v2.
Proof.
  unfold as_01; induction v1 as [|b t IH]; intros [|c u] H; cbn in H; try discriminate; [reflexivity|].
  injection H as H1 H2. f_equal; [destruct b, c; congruence | auto].
Qed.

Lemma run_lengths_inj : forall v1 v2, v1 <> [] -> v2 <> [] -> run_lengths v1 = run_lengths v2 -> v1 = v2.
Proof.
  intros v1 v2 H1 H2 H. apply as_01_inj.
  pose proof (decompress_run_lengths v1 H1) as D1. pose proof (decompress_run_lengths v2 H2) as D2.
  rewrite H in D1. congruence.
Qed.

(** ** text *)
Fixpoint no_comma (s : string) : Prop :=
  match s with EmptyString => True | String c t => c <> ","%char /\ no_comma t end.

Lemma no_comma_uint : forall d, no_comma (NilEmpty.string_of_uint d).
Proof. induction d; cbn; try split; auto; discriminate. Qed.
Lemma no_comma_string_of_Z : forall z, no_comma (string_of_Z z).
Proof.
  intros z. unfold string_of_Z, NilZero.string_of_int.
  destruct (Z.to_int z) as [d|d]; cbn; [|split; [discriminate|]];
  destruct d; cbn; try (split; [discriminate|]); auto using no_comma_uint.
Qed.
Lemma string_of_Z_not_nil : forall z, string_of_Z z <> EmptyString.
Proof.
  intros z. unfold string_of_Z, NilZero.string_of_int.
  destruct (Z.to_int z) as [d|d]; cbn; [|discriminate]; destruct d; discriminate.
Qed.

Lemma Z_of_string_of_Z : forall z, Z_of_string (string_of_Z z) = Some z.
Proof.
  intros z. unfold Z_of_string, string_of_Z.
  rewrite NilZero.isi; cbn [option_map].
  - f_equal. apply DecimalZ.of_to.
  - destruct z; cbn; try discriminate; intros H; injection H as H;
    apply (DecimalPos.Unsigned.to_uint_nonnil p); exact H.
  - destruct z; cbn; try discriminate; intros H; injection H as H;
    apply (DecimalPos.Unsigned.to_uint_nonnil p); exact H.
Qed.

Lemma append_nil_r : forall s, (s ++ EmptyString)%string = s.
Proof. induction s as [|c s IH]; cbn; [reflexivity|]. rewrite IH; reflexivity. Qed.
Lemma append_assoc : forall a b c : string, ((a ++ b) ++ c)%string = (a ++ (b ++ c))%string.
Proof. induction a as [|x a IH]; intros; cbn; [reflexivity|]. rewrite IH; reflexivity. Qed.

Lemma split_comma_aux_app : forall s cur rest, no_comma s ->
  split_comma_aux cur (s ++ String "," rest)%string = (cur ++ s)%string :: split_comma_aux EmptyString rest.
Proof.
  induction s as [|c s IH]; intros cur rest H; cbn.
  - rewrite append_nil_r. reflexivity.
  - destruct H as [Hc Hs]. apply Ascii.eqb_neq in Hc. rewrite Hc.
    rewrite IH by exact Hs. f_equal. rewrite append_assoc. reflexivity.
Qed.
Lemma split_comma_aux_end : forall s cur, no_comma s -> split_comma_aux cur s = [(cur ++ s)%string].
Proof.
  induction s as [|c s IH]; intros cur H; cbn.
  - rewrite append_nil_r. reflexivity.
  - destruct H as [Hc Hs]. apply Ascii.eqb_neq in Hc. rewrite Hc.
    rewrite IH by exact Hs. rewrite append_assoc. reflexivity.
Qed.

Lemma split_join : forall xs, xs <> [] -> split_comma (join_ints xs) = map string_of_Z xs.
Proof.
  unfold split_comma. induction xs as [|x [|y t] IH]; intros H; [congruence| |].
  - cbn [join_ints map]. rewrite split_comma_aux_end by apply no_comma_string_of_Z. reflexivity.
  - change (join_ints (x :: y :: t)) with (string_of_Z x ++ String "," (join_ints (y :: t)))%string.
    rewrite split_comma_aux_app by apply no_comma_string_of_Z.
    rewrite IH by discriminate. reflexivity.
Qed.
Lemma parse_ints_map : forall xs, parse_ints (map string_of_Z xs) = Some xs.
Proof.
  induction xs as [|x t IH]; [reflexivity|]. cbn [map parse_ints].
  rewrite Z_of_string_of_Z, IH. reflexivity.
Qed.
Lemma parse_join : forall xs, xs <> [] -> parse_ints (split_comma (join_ints xs)) = Some xs.
Proof. intros. rewrite split_join by assumption. apply parse_ints_map. Qed.
Lemma literal_eval_join : forall x y t,
  literal_eval (join_ints (x :: y :: t)) = Ok (LTuple (x :: y :: t)).
Proof. intros. unfold literal_eval. rewrite parse_join by discriminate. reflexivity. Qed.
Lemma literal_seq_join : forall x y t, literal_seq (join_ints (x :: y :: t)) = Ok (x :: y :: t).
Proof. intros. unfold literal_seq. rewrite literal_eval_join. reflexivity. Qed.

Lemma join_ints_concat : forall xs,
  join_ints xs = String.concat "," (map (fun z => NilZero.string_of_int (Z.to_int z)) xs).
Proof.
  induction xs as [|x [|y t] IH]; [reflexivity|reflexivity|].
  change (join_ints (x :: y :: t)) with (string_of_Z x ++ String "," (join_ints (y :: t)))%string.
  rewrite IH. reflexivity.
Qed.
Lemma join_run_lengths : forall v, join_ints (run_lengths v) = run_text v.
Proof. intros. apply join_ints_concat. Qed.

Lemma run_lengths_two : forall v, exists x y t, run_lengths v = x :: y :: t.
Proof.
  intros v. unfold run_lengths. destruct (switches v ++ [size v]) as [|y t] eqn:E.
  - destruct (switches v); discriminate.
  - do 3 eexists. reflexivity.
Qed.
Lemma literal_seq_run_text : forall v, literal_seq (run_text v) = Ok (run_lengths v).
Proof.
  intros v. rewrite <- join_run_lengths. destruct (run_lengths_two v) as (x & y & t & E).
  rewrite E. apply literal_seq_join.
Qed.
Lemma literal_eval_run_text : forall v, literal_eval (run_text v) = Ok (LTuple (run_lengths v)).
Proof.
  intros v. rewrite <- join_run_lengths. destruct (run_lengths_two v) as (x & y & t & E).
  rewrite E. apply literal_eval_join.
Qed.
Lemma run_text_not_nil : forall v, run_text v <> EmptyString.
Proof.
  intros v H. pose proof (literal_seq_run_text v) as L. rewrite H in L. discriminate.
Qed.
Lemma run_text_inj : forall v1 v2, v1 <> [] -> v2 <> [] -> run_text v1 = run_text v2 -> v1 = v2.
Proof.
  intros v1 v2 H1 H2 H. apply run_lengths_inj; [assumption..|].
  pose proof (literal_seq_run_text v1) as L1. pose proof (literal_seq_run_text v2) as L2.
  rewrite H in L1. congruence.
Qed.

(** ** int32 *)
Definition i32_ok (i32 : Z -> option Z) : Prop :=
  forall z, - 2 ^ 31 <= z < 2 ^ 31 -> i32 z = Some z.

Lemma cast_i32_id : forall i32 xs, i32_ok i32 ->
  (forall x, In x xs -> - 2 ^ 31 <= x < 2 ^ 31) -> cast_i32 i32 xs = Ok xs.
Proof.
  intros i32 xs H. induction xs as [|x t IH]; intros Hr; [reflexivity|].
  cbn [cast_i32]. rewrite H by (apply Hr; left; reflexivity).
  rewrite IH by (intros; apply Hr; right; assumption). reflexivity.
Qed.

Lemma compress_str : forall i32 v, v <> [] ->
  compress i32 (VArr (as_01 v)) DStr = Ok (VStr (run_text v)).
Proof.
  intros i32 v H. unfold compress. rewrite last_not_bit_as_01.
  destruct (as_01 v) eqn:E; [destruct v; [congruence|discriminate]|]. rewrite <- E.
  rewrite compress_list_runs, join_run_lengths by assumption. reflexivity.
Qed.
Lemma compress_arr : forall i32 v, i32_ok i32 -> v <> [] -> fits_compressed_array v ->
  compress i32 (VArr (as_01 v)) DArr = Ok (VArr (run_lengths v)).
Proof.
  intros i32 v Hi H F. unfold compress. rewrite last_not_bit_as_01.
  destruct (as_01 v) eqn:E; [destruct v; [congruence|discriminate]|]. rewrite <- E.
  rewrite compress_list_runs, last_run_lengths by assumption.
  destruct (size v <? MAX_INT_32) eqn:L; [|reflexivity].
  apply Z.ltb_lt in L. unfold MAX_INT_32 in L.
  destruct F as [F|F]; [|lia].
  rewrite cast_i32_id; [reflexivity|exact Hi|].
  intros x Hx. apply run_lengths_range in Hx; [|assumption]. lia.
Qed.

(** ** integers *)
Lemma bits_of_list_01 : forall v, bits_of_list (as_01 v) = Ok v.
Proof.
  unfold as_01; induction v as [|b t IH]; [reflexivity|].
  destruct b; cbn [map bits_of_list Z.eqb]; rewrite IH; reflexivity.
Qed.
Lemma raw_to_bitarray_01 : forall v, raw_to_bitarray (VArr (as_01 v)) = Ok v.
Proof. intros. unfold raw_to_bitarray. rewrite last_not_bit_as_01. apply bits_of_list_01. Qed.

Lemma int_base2_acc : forall v acc, int_base2 acc (map bit v) = Ok (acc * 2 ^ size v + binary v).
Proof.
  induction v as [|b t IH]; intros acc.
  - cbn. f_equal. unfold size; cbn. lia.
  - cbn [map int_base2].
    replace ((bit b =? 0) || (bit b =? 1)) with true by (destruct b; reflexivity).
    rewrite IH. f_equal. cbn [binary]. rewrite size_cons.
    rewrite Z.pow_add_r by (pose proof (size_nonneg t); lia).
    destruct b; cbn [bit]; ring.
Qed.
Lemma bits_to_int_spec : forall v, v <> [] -> bits_to_int v = Ok (binary v).
Proof.
  intros v H. unfold bits_to_int, int_of_digits2.
  destruct (map bit v) eqn:E; [destruct v; [congruence|discriminate]|]. rewrite <- E.
  rewrite int_base2_acc. f_equal.
Qed.
Lemma flat_digits : forall v, flat_map (fun x => ubyte_digits (ubyte x)) (as_01 v) = map bit v.
Proof.
  unfold as_01; induction v as [|b t IH]; [reflexivity|].
  cbn [map flat_map]. rewrite IH. destruct b; reflexivity.
Qed.
Lemma raw_to_integer_01 : forall v, v <> [] -> raw_to_integer (VArr (as_01 v)) = Ok (binary v).
Proof.
  intros v H. unfold raw_to_integer. rewrite last_not_bit_as_01, flat_digits.
  exact (bits_to_int_spec v H).
Qed.

Lemma binary_bounds : forall v, 0 <= binary v < 2 ^ size v.
Proof.
  induction v as [|b t IH]; cbn [binary]; [unfold size; cbn; lia|].
  rewrite size_cons, Z.pow_add_r by (pose proof (size_nonneg t); lia).
  destruct b; lia.
Qed.
Lemma binary_inj : forall v1 v2, size v1 = size v2 -> binary v1 = binary v2 -> v1 = v2.
Proof.
  induction v1 as [|b t IH]; intros [|c u] Hs Hb.
  - reflexivity.
  - unfold size in Hs; cbn [List.length] in Hs; lia.
  - unfold size in Hs; cbn [List.length] in Hs; lia.
  - rewrite !size_cons in Hs. assert (Hs' : size t = size u) by lia.
    cbn [binary] in Hb. rewrite Hs' in Hb.
    pose proof (binary_bounds t) as B1. pose proof (binary_bounds u) as B2. rewrite Hs' in B1.
    destruct b, c; (f_equal; apply IH; [assumption|lia]) || (exfalso; lia).
Qed.
Lemma binary_app : forall v1 v2, binary (v1 ++ v2) = binary v1 * 2 ^ size v2 + binary v2.
Proof.
  induction v1 as [|b t IH]; intros v2; [cbn; lia|].
  cbn [app binary]. rewrite IH.
  assert (E : size (t ++ v2) = size t + size v2) by (unfold size; rewrite app_length; lia).
  rewrite E, Z.pow_add_r by apply size_nonneg. destruct b; ring.
Qed.
Lemma binary_zeros : forall n, binary (repeat false n) = 0.
Proof. induction n; cbn; lia. Qed.

Lemma pos_bits_binary : forall p, binary (pos_bits p) = Zpos p.
Proof.
  induction p as [p IH|p IH|]; cbn [pos_bits]; rewrite ?binary_app, ?IH.
  - cbn. lia.
  - cbn. lia.
  - reflexivity.
Qed.
Lemma pos_bits_head : forall p, exists t, pos_bits p = true :: t.
Proof.
  induction p as [p [t IH]|p [t IH]|]; cbn [pos_bits]; rewrite ?IH; eexists; reflexivity.
Qed.

Lemma bin_digits_spec : forall n, 0 <= n ->
  exists s, bin_digits n = Ok s /\ binary s = n /\ s <> [] /\
    (forall k, 1 <= k -> n < 2 ^ k -> size s <= k) /\
    (forall k, 0 <= k -> 0 < n -> 2 ^ k <= n -> k < size s).
Proof.
  intros [|p|p] H; [| |lia].
  - exists [false]. repeat split; try discriminate; try lia.
    intros k Hk _. exact Hk.
  - exists (pos_bits p). destruct (pos_bits_head p) as [t E].
    repeat split.
    + apply pos_bits_binary.
    + rewrite E; discriminate.
    + intros k Hk Hlt. pose proof (pos_bits_binary p) as B. rewrite E in B. cbn [binary] in B.
      pose proof (binary_bounds t). rewrite E, size_cons.
      assert (2 ^ size t < 2 ^ k) by lia.
      apply Z.pow_lt_mono_r_iff in H1; lia.
    + intros k Hk _ Hle. pose proof (binary_bounds (pos_bits p)) as B. rewrite pos_bits_binary in B.
      assert (2 ^ k < 2 ^ size (pos_bits p)) by lia.
      apply Z.pow_lt_mono_r_iff in H0; lia || apply size_nonneg.
Qed.

Lemma padded_unique : forall v s, v <> [] -> size s <= size v -> binary s = binary v ->
  repeat false (Z.to_nat (size v - size s)) ++ s = v.
Proof.
  intros v s H Hs Hb. apply binary_inj.
  - unfold size at 1. rewrite app_length, repeat_length. fold (size s).
    unfold size in *. lia.
  - rewrite binary_app, binary_zeros. lia.
Qed.

Lemma bin_digits_binary : forall v, v <> [] ->
  exists s, bin_digits (binary v) = Ok s /\ size s <= size v /\
    repeat false (Z.to_nat (size v - size s)) ++ s = v.
Proof.
  intros v H. destruct (binary_bounds v) as [B1 B2].
  destruct (bin_digits_spec (binary v) B1) as (s & E & Hb & _ & Hs & _).
  pose proof (size_pos v H).
  specialize (Hs (size v) ltac:(lia) B2).
  exists s; repeat split; auto. apply padded_unique; assumption.
Qed.

Lemma pad_bits_binary : forall v s, v <> [] -> bin_digits (binary v) = Ok s -> pad_bits (size v) s = v.
Proof.
  intros v s H E. destruct (bin_digits_binary v H) as (s' & E' & Hs & P).
  assert (s' = s) by congruence; subst s'.
  unfold pad_bits. rewrite len_size. destruct (size s =? size v) eqn:Q.
  - apply Z.eqb_eq in Q. rewrite Q, Z.sub_diag in P. exact P.
  - exact P.
Qed.

(** ** pointwise operations *)
Lemma zipw_pointwise : forall f v1 v2, zipw f v1 v2 = pointwise f v1 v2.
Proof.
  intros f. unfold pointwise. induction v1 as [|b t IH]; intros [|c u]; try reflexivity.
  cbn. f_equal. apply IH.
Qed.
Lemma zipw_as_01 : forall o v1 v2,
  zipw (lop_ubyte o) (as_01 v1) (as_01 v2) = as_01 (pointwise (lop_bool o) v1 v2).
Proof.
  intros o v1 v2. rewrite <- zipw_pointwise. revert v2. unfold as_01.
  induction v1 as [|b t IH]; intros [|c u]; try reflexivity.
  cbn [map zipw]. rewrite IH. f_equal. destruct o, b, c; reflexivity.
Qed.
Lemma size_pointwise : forall f v1 v2, size v1 = size v2 -> size (pointwise f v1 v2) = size v1.
Proof.
  intros f v1 v2 H. unfold pointwise, size in *. rewrite map_length, combine_length. lia.
Qed.
