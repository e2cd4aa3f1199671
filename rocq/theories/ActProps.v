(** Properties C01-C16, C61-C69, C78 and C191 of activation.py. *)
From Coq Require Import ZArith QArith Bool String List.
From Verif Require Import Base ActModel ActSpec ActObs ActCodec ActRep ActBuild ActKept ActProf ActHold
  ActOps ActMulti ActDisk ActMore ThreadModel ThreadLemmas ActWit ActClean.
Import ListNotations.
Open Scope Z_scope.

(** * C01 *)
Theorem C01_round_trip : forall w v opt l to_file,
  int32_cast (w_i32 w) -> v <> [] -> cfg_fits (w_cfg w) v ->
  (to_file = true -> STORE_RAW (w_cfg w) = false -> w_fs w (next_name w) = None) ->
  exists a w1, new (VArr (as_01 v)) opt l to_file false w = (Ok a, w1) /\
    fst (fst (raw a w1)) = Ok (as_01 v) /\
    length_of a w1 = (Ok (size v), a, w1).
Proof. exact round_trip. Qed.
Print Assumptions C01_round_trip.

Example C01_example :
  int32_cast (w_i32 (demo plain even)) /\ va <> [] /\ cfg_fits (w_cfg (demo plain even)) va /\
  w_fs (demo plain even) (next_name (demo plain even)) = None.
Proof. repeat split; discriminate. Qed.

(** * C02 *)
Theorem C02_views : forall w a v x, obtained w a v ->
  exists a', call x a w = (Ok (view x v), a', w) /\ obtained w a' v.
Proof. exact call_ok. Qed.
Print Assumptions C02_views.

Example C02_example : obtained (demo plain small_text) (fst (make va false (demo plain small_text))) va.
Proof. apply demo_in_memory; [reflexivity|discriminate|reflexivity]. Qed.

(** * C03 *)
Theorem C03_sources : forall w v src l opt to_file,
  int32_cast (w_i32 w) -> v <> [] -> fits_compressed_array v ->
  denotes w v src l -> cfg_fits (w_cfg w) v ->
  (writes w src to_file = true -> w_fs w (next_name w) = None) ->
  exists a w', new src opt l to_file false w = (Ok a, w') /\ obtained w' a v.
Proof. exact sources_ok. Qed.
Print Assumptions C03_sources.

Example C03_example : denotes (demo plain even) va (VStr "1,1,2,4") None /\
  denotes (demo plain even) va (VInt 11) (Some 4) /\ denotes (demo plain even) va (VArr [1; 1; 2; 4]) None.
Proof.
  split; [apply (den_text _ va)|]. split; [apply (den_int _ va)|]. apply (den_runs _ va). discriminate.
Qed.

Theorem C03_lazy : forall w v p opt l to_file,
  int32_cast (w_i32 w) -> v <> [] -> fits_compressed_array v ->
  w_fs w p = Some (as_01 v) ->
  (STORE_RAW (w_cfg w) = false -> w_fs w (next_name w) = None) ->
  exists a a' w', new (VPath p) opt l to_file true w = (Ok a, w) /\
    raw a w = (Ok (as_01 v), a', w') /\ obtained w' a' v.
Proof. exact lazy_ok. Qed.
Print Assumptions C03_lazy.

Example C03_lazy_example : w_fs two_files (PUser "mine") = Some (as_01 [false; true]) /\
  fits_compressed_array [false; true].
Proof. split; [reflexivity|left; reflexivity]. Qed.

(** * C04 *)
Theorem C04_reading : forall w a v, obtained w a v -> shows w a v.
Proof. exact obtained_shows. Qed.
Print Assumptions C04_reading.

Example C04_example : exists w a, obtained w a va /\ a_fmt a = Some FFile.
Proof.
  exists (snd (make va true (demo plain even))), (fst (make va true (demo plain even))).
  split; [|vm_compute; reflexivity].
  apply make_obtained; [apply demo_wide; reflexivity|discriminate|reflexivity|reflexivity].
Qed.

(** * C05 *)
Theorem C05_operators : forall o w a1 a2 v1 v2,
  obtained w a1 v1 -> obtained w a2 v2 -> size v1 = size v2 ->
  ~ (a_fmt a1 = Some FInt /\ a_fmt a2 = Some FInt) ->
  cfg_fits (w_cfg w) v1 ->
  (both_files w a1 a2 = true -> w_fs w (next_name w) = None) ->
  exists r a1' a2' w', binop o a1 a2 w = (Ok r, a1', a2', w') /\
    obtained w' r (pointwise match o with LAnd => andb | LOr => orb | LXor => xorb end v1 v2) /\
    obtained w' a1' v1 /\ obtained w' a2' v2.
Proof. exact operators_ok. Qed.
Print Assumptions C05_operators.

Theorem C05_minus : forall w a1 a2 v1 v2,
  obtained w a1 v1 -> obtained w a2 v2 -> size v1 = size v2 ->
  sub_safe w a1 a2 ->
  cfg_fits (w_cfg w) v1 ->
  (both_files w a1 a2 = true -> fresh_names 2 w) ->
  exists r a1' a2' w', sub a1 a2 w = (Ok r, a1', a2', w') /\
    obtained w' r (pointwise (fun x y => x && negb y) v1 v2) /\
    obtained w' a1' v1 /\ obtained w' a2' v2 /\ keeps_files w w' /\
    (both_files w a1 a2 = false -> w' = w).
Proof. exact sub_ok. Qed.
Print Assumptions C05_minus.

Theorem C05_mismatch : forall o w a1 a2 v1 v2,
  obtained w a1 v1 -> obtained w a2 v2 -> size v1 <> size v2 ->
  binop o a1 a2 w = (Err EValue, a1, a2, w).
Proof. exact binop_mismatch. Qed.
Print Assumptions C05_mismatch.

(** A bitarray and a compressed text. *)
Example C05_example : exists w a1 a2, obtained w a1 va /\ obtained w a2 vb /\
  a_fmt a1 = Some FBits /\ a_fmt a2 = Some FCStr /\ both_files w a1 a2 = false /\ sub_safe w a1 a2.
Proof. exact mixed_pair. Qed.

(** * C06 *)
Theorem C06_and_or : forall o w acs vs, held w acs vs -> vs <> [] -> same_size vs ->
  cfg_fits (w_cfg w) (hd [] vs) ->
  (all_files acs = true -> STORE_RAW (w_cfg w) = false -> name_free_after 2 w) ->
  ~ memory_exhausted w ->
  exists r acs' w', multi_logical o acs w = (Ok r, acs', w') /\
    obtained w' r (match o with MAll => every vs | MAny => some vs end) /\ held w' acs' vs /\ keeps_files w w'.
Proof. exact multi_ok. Qed.
Print Assumptions C06_and_or.

Theorem C06_xor : forall w acs vs, held w acs vs -> (2 <= List.length vs)%nat -> same_size vs ->
  cfg_fits (w_cfg w) (hd [] vs) ->
  (all_files acs = true -> STORE_RAW (w_cfg w) = false -> name_free_after 4 w) ->
  ~ memory_exhausted w -> ~ memory_exhausted (tick (tick w)) ->
  exists r acs' w', multi_logical_xor acs w = (Ok r, acs', w') /\
    obtained w' r (differ vs) /\ held w' acs' vs /\ keeps_files w w'.
Proof. exact multi_xor_ok. Qed.
Print Assumptions C06_xor.

Theorem C06_xor_two : forall v1 v2, List.length v1 = List.length v2 ->
  differ [v1; v2] = pointwise xorb v1 v2.
Proof. exact differ_two. Qed.
Print Assumptions C06_xor_two.

Theorem C06_xor_one : forall w a v, obtained w a v ->
  cfg_fits (w_cfg w) v ->
  (a_fmt a = Some FFile -> STORE_RAW (w_cfg w) = false -> w_fs w (next_name w) = None) ->
  exists r a' w', multi_logical_xor [a] w = (Ok r, [a'], w') /\ obtained w' r v /\ obtained w' a' v /\
    keeps_files w w'.
Proof. exact multi_xor_single. Qed.
Print Assumptions C06_xor_one.

Theorem C06_exhausted : forall o w acs vs, held w acs vs -> vs <> [] -> memory_exhausted w ->
  exists acs' w', multi_array o acs w = (Err EMemory, acs', w').
Proof. exact multi_array_exhausted. Qed.
Print Assumptions C06_exhausted.

Example C06_example : exists w acs, held w acs [va; vb; va] /\ same_size [va; vb; va] /\
  ~ memory_exhausted w /\ ~ memory_exhausted (tick (tick w)) /\ every [va; vb; va] = [true; false; false; true] /\
  differ [va; vb; va] = [false; true; true; false].
Proof. exact three_held. Qed.

(** * C07 *)
Theorem C07_plus_first : forall w a1 a2 v1, obtained w a1 v1 -> add a1 a2 = Ok a1.
Proof. exact add_first. Qed.
Print Assumptions C07_plus_first.

Theorem C07_plus_refuted : exists w a1 a2 v1 v2 r,
  obtained w a1 v1 /\ obtained w a2 v2 /\ size v1 = size v2 /\
  add a1 a2 = Ok r /\ fst (fst (raw r w)) = Ok (as_01 v1) /\ v1 <> pointwise orb v1 v2.
Proof. exact add_refuted. Qed.
Print Assumptions C07_plus_refuted.

(** * C08 *)
Theorem C08_text : forall i32 v, v <> [] ->
  compress i32 (VArr (as_01 v)) DStr = Ok (VStr (run_text v)) /\
  rbind (literal_seq (run_text v)) decompress_list = Ok (as_01 v).
Proof. exact text_codec. Qed.
Print Assumptions C08_text.

Theorem C08_array : forall i32 v, int32_cast i32 -> v <> [] -> fits_compressed_array v ->
  compress i32 (VArr (as_01 v)) DArr = Ok (VArr (run_lengths v)) /\
  decompress_list (run_lengths v) = Ok (as_01 v).
Proof. exact array_codec. Qed.
Print Assumptions C08_array.

Theorem C08_injective : forall v1 v2, v1 <> [] -> v2 <> [] ->
  (run_lengths v1 = run_lengths v2 -> v1 = v2) /\ (run_text v1 = run_text v2 -> v1 = v2).
Proof. exact codec_injective. Qed.
Print Assumptions C08_injective.

Example C08_example : run_text va = "1,1,2,4"%string /\ run_lengths vb = [1; 2; 3; 4] /\ fits_compressed_array vb.
Proof. repeat split; left; reflexivity. Qed.

(** * C09 *)
Theorem C09_integer : forall v, v <> [] ->
  raw_to_integer (VArr (as_01 v)) = Ok (binary v) /\ bits_to_int v = Ok (binary v) /\
  exists s, bin_digits (binary v) = Ok s /\ pad_bits (size v) s = v.
Proof. exact integer_codec. Qed.
Print Assumptions C09_integer.

Theorem C09_injective : forall v1 v2, size v1 = size v2 -> binary v1 = binary v2 -> v1 = v2.
Proof. exact binary_inj. Qed.
Print Assumptions C09_injective.

Theorem C09_no_length : forall w n opt to_file,
  exists w', new (VInt n) opt None to_file false w = (Err EValue, w').
Proof. exact no_length. Qed.
Print Assumptions C09_no_length.

Example C09_example : binary va = 11 /\ WILL_COMPARE (w_cfg (demo comparing even)) = true /\ 2 ^ 3 <= 9.
Proof. repeat split; discriminate. Qed.

(** * C10 *)
Theorem C10_copy : forall w a v,
  obtained w a v -> cfg_fits (w_cfg w) v ->
  (a_fmt a = Some FFile -> STORE_RAW (w_cfg w) = false -> w_fs w (next_name w) = None) ->
  exists b w', copy a w = (Ok b, w') /\ obtained w' b v /\ obtained w' a v /\ keeps_files w w' /\
    (exists b' w'', delete b w' = (Ok tt, b', w'') /\ obtained w'' a v) /\
    (exists a' w'', delete a w' = (Ok tt, a', w'') /\ obtained w'' b v).
Proof. exact copy_independent. Qed.
Print Assumptions C10_copy.

Example C10_example : exists w a, obtained w a va /\ a_fmt a = Some FFile /\ w_fs w (next_name w) = None /\
  STORE_RAW (w_cfg w) = false.
Proof. exact on_disk. Qed.

(** * C11 *)
Theorem C11_clear : forall w a v, obtained w a v -> cfg_fits (w_cfg w) v ->
  exists a', clear a w = (Ok tt, a', w) /\ obtained w a' (map (fun _ => false) v).
Proof. exact clear_ok. Qed.
Print Assumptions C11_clear.

Theorem C11_statistics_survive : forall x w a v,
  (x = ANones \/ x = ACoverage \/ x = AEntropy \/ x = ARelEntropy \/ x = ALen) -> obtained w a v ->
  exists a1 a2 w2, call x a w = (Ok (view x v), a1, w) /\ delete a1 w = (Ok tt, a2, w2) /\
    call x a2 w2 = (Ok (view x v), a2, w2).
Proof. exact stat_after_delete. Qed.
Print Assumptions C11_statistics_survive.

Theorem C11_delete : forall w a v, obtained w a v ->
  exists a' w', delete a w = (Ok tt, a', w') /\
    (exists e, fst (fst (raw a' w')) = Err e) /\
    (forall p, a_fmt a = Some FFile -> a_data a = VPath p -> w_fs w' p = None) /\
    (forall p, (a_fmt a = Some FFile -> a_data a <> VPath p) -> w_fs w' p = w_fs w p).
Proof. exact delete_ok. Qed.
Print Assumptions C11_delete.

Example C11_example : exists w a, obtained w a va /\ a_fmt a = Some FFile /\ w_fs w (next_name w) = None /\
  STORE_RAW (w_cfg w) = false.
Proof. exact on_disk. Qed.

(** * C12 *)
Theorem C12_constructor : forall v opt l tf w r w',
  new v opt l tf false w = (r, w') -> keeps_files w w'.
Proof. exact new_keeps. Qed.
Print Assumptions C12_constructor.

Theorem C12_copy : forall a w r w', copy a w = (r, w') -> keeps_files w w'.
Proof. exact copy_keeps. Qed.
Print Assumptions C12_copy.

Theorem C12_operators : forall o a1 a2 w r a1' a2' w',
  a_lasy a1 = false -> a_lasy a2 = false ->
  binop o a1 a2 w = (r, a1', a2', w') -> keeps_files w w'.
Proof. exact binop_keeps. Qed.
Print Assumptions C12_operators.

Theorem C12_reading : forall x a w r a' w', a_lasy a = false ->
  call x a w = (r, a', w') -> a_lasy a' = false /\ keeps_files w w'.
Proof. exact reading_keeps. Qed.
Print Assumptions C12_reading.

Example C12_example : w_fs one_taken (next_name one_taken) = Some [1; 1] /\ STORE_RAW (w_cfg one_taken) = false /\
  fst (new (VArr (as_01 va)) true None true false (demo plain even)) <> Err EValue.
Proof. split; [reflexivity|]. split; [reflexivity|]. vm_compute. discriminate. Qed.

(** * C13 *)
Theorem C13_in_partial : forall w a1 a2 v1 v2,
  obtained w a1 v1 -> obtained w a2 v2 -> size v1 = size v2 ->
  ~ (a_fmt a1 = Some FInt /\ a_fmt a2 = Some FInt) ->
  cfg_fits (w_cfg w) v1 ->
  (both_files w a1 a2 = true -> w_fs w (next_name w) = None) ->
  exists b a1' a2' w', contains a1 a2 w = (Ok b, a1', a2', w') /\
    (b = true <-> subset v1 v2 \/ subset v2 v1) /\
    obtained w' a1' v1 /\ obtained w' a2' v2 /\ (forall p, w_fs w' p = w_fs w p) /\ w_cfg w' = w_cfg w.
Proof. exact contains_ok. Qed.
Print Assumptions C13_in_partial.

Theorem C13_in_refuted : exists w a1 a2 v1 v2,
  obtained w a1 v1 /\ obtained w a2 v2 /\ size v1 = size v2 /\
  fst (fst (fst (contains a1 a2 w))) = Ok true /\ ~ subset v2 v1.
Proof. exact contains_refuted. Qed.
Print Assumptions C13_in_refuted.

Example C13_example : exists w a1 a2, obtained w a1 va /\ obtained w a2 vb /\
  a_fmt a1 = Some FBits /\ a_fmt a2 = Some FCStr /\ both_files w a1 a2 = false /\ sub_safe w a1 a2.
Proof. exact mixed_pair. Qed.

(** * C14 *)
Theorem C14_correlation : forall w a1 a2 v1 v2,
  obtained w a1 v1 -> obtained w a2 v2 -> size v1 = size v2 ->
  exists a1' a2', get_correlation a1 a2 w = (Ok (fraction (agreements v1 v2) (size v1)), a1', a2', w) /\
    obtained w a1' v1 /\ obtained w a2' v2.
Proof. exact correlation_ok. Qed.
Print Assumptions C14_correlation.

Theorem C14_range : forall v1 v2, v1 <> [] -> size v1 = size v2 ->
  let c := fraction (agreements v1 v2) (size v1) in
  (0 <= c <= 1)%Q /\ ((c == 1)%Q <-> v1 = v2) /\ c = fraction (agreements v2 v1) (size v2).
Proof. exact correlation_facts. Qed.
Print Assumptions C14_range.

Theorem C14_mismatch : forall w a1 a2 v1 v2,
  obtained w a1 v1 -> obtained w a2 v2 -> size v1 <> size v2 ->
  get_correlation a1 a2 w = (Err EValue, a1, a2, w).
Proof. exact correlation_mismatch. Qed.
Print Assumptions C14_mismatch.

Example C14_example : agreements va vb = 2 /\ size va = 4 /\ (exists w a1 a2, obtained w a1 va /\ obtained w a2 vb /\
  a_fmt a1 = Some FBits /\ a_fmt a2 = Some FCStr /\ both_files w a1 a2 = false /\ sub_safe w a1 a2).
Proof. split; [reflexivity|]. split; [reflexivity|]. exact mixed_pair. Qed.

(** * C15 *)
Theorem C15_sequential : forall w a v x, obtained w a v ->
  exists a', call x a w = (Ok (view x v), a', w) /\ obtained w a' v.
Proof. exact call_ok. Qed.
Print Assumptions C15_sequential.

Theorem C15_threads : forall w b ts vs sched ts' w',
  flag w = b -> Forall2 (ready w b) ts vs -> run_threads sched ts w = (ts', w') ->
  w' = w /\
  Forall2 (fun t v => forall r, t_pc t = PDone r -> r = wanted b v) ts' vs /\
  (forall j t, (4 <= count_occ Nat.eq_dec sched j)%nat -> nth_error ts' j = Some t -> finished t).
Proof. exact threads_agree. Qed.
Print Assumptions C15_threads.

Example C15_example : exists w t, flag w = false /\ Forall2 (ready w false) [t; t] [va; va].
Proof. exact two_readers. Qed.

(** * C16 *)
Theorem C16_profiling : forall w a v x, obtained w a v -> w_fs w (next_name w) = None ->
  exists a' w', measure x a w = (Ok tt, a', w') /\ obtained w' a' v /\
    a_data a' = a_data a /\ a_fmt a' = a_fmt a /\
    (forall p, w_fs w' p = w_fs w p) /\ w_cfg w' = w_cfg w.
Proof. exact measure_ok. Qed.
Print Assumptions C16_profiling.

Example C16_example : exists w a, obtained w a va /\ a_fmt a = Some FFile /\ w_fs w (next_name w) = None /\
  STORE_RAW (w_cfg w) = false.
Proof. exact on_disk. Qed.

(** * C61 *)
Theorem C61_storage : forall w v, int32_cast (w_i32 w) -> v <> [] ->
  forall src l opt to_file a w',
  denotes w v src l -> cfg_fits (w_cfg w) v -> writes w src to_file = false ->
  new src opt l to_file false w = (Ok a, w') ->
  a_fmt a = Some (fst (chosen w v src opt)) /\ a_data a = snd (chosen w v src opt).
Proof. exact new_kept. Qed.
Print Assumptions C61_storage.

Example C61_example : denotes (demo plain small_text) va (VBits va) None /\
  chosen (demo plain small_text) va (VBits va) true = (FCStr, VStr "1,1,2,4") /\
  chosen (demo plain even) va (VArr (as_01 va)) true = (FBits, VBits va).
Proof. split; [constructor; left; reflexivity|]. split; reflexivity. Qed.

(** * C62 *)
Theorem C62_empty_refuted : forall w opt l,
  (STORE_RAW (w_cfg w) = false -> exists e, fst (new (VArr (as_01 [])) opt l false false w) = Err e) /\
  (STORE_RAW (w_cfg w) = true -> exists a, new (VArr (as_01 [])) opt l false false w = (Ok a, w) /\
     fst (fst (coverage a w)) = Err EZeroDiv).
Proof. exact empty_refuted. Qed.
Print Assumptions C62_empty_refuted.

Theorem C62_one_point_refuted : exists w v a w', size v = 1 /\
  new (VArr (as_01 v)) true None false false w = (Ok a, w') /\
  fst (fst (raw a w')) = Ok [1; 1] /\ as_01 v = [1].
Proof. exact one_point_refuted. Qed.
Print Assumptions C62_one_point_refuted.

Theorem C62_int32_refuted : exists v : vec, v <> [] /\ forall i32, int32_values i32 ->
  compress i32 (VArr (as_01 v)) DArr <> Ok (VArr (run_lengths v)).
Proof. exact int32_refuted. Qed.
Print Assumptions C62_int32_refuted.

(** * C63 *)
Theorem C63_lazy_refuted : exists w p a w', w_fs w p = Some (as_01 [false; true]) /\
  new (VPath p) true None false true w = (Ok a, w') /\
  (forall x, In x [ALen; AEntropy; ARelEntropy; ACStr; ACArr] -> fst (fst (call x a w')) = Err EType) /\
  (exists b a2 w2 r a3 w3, call ABits a w' = (Ok b, a2, w2) /\ call ARaw a2 w2 = (Ok r, a3, w3) /\
     forall x, In x [ALen; AEntropy; ARelEntropy; ACStr; ACArr; ANones; ACoverage] ->
       fst (fst (call x a3 w3)) = Err EType).
Proof. exact lazy_refuted. Qed.
Print Assumptions C63_lazy_refuted.

(** * C64 *)
Theorem C64_integers_raise : forall o w a1 a2 v1 v2,
  obtained w a1 v1 -> obtained w a2 v2 ->
  a_fmt a1 = Some FInt -> a_fmt a2 = Some FInt ->
  binop o a1 a2 w = (Err EValue, a1, a2, w).
Proof. exact binop_ints. Qed.
Print Assumptions C64_integers_raise.

Theorem C64_integers_refuted : exists w a1 a2 v1 v2,
  obtained w a1 v1 /\ obtained w a2 v2 /\ size v1 = size v2 /\ cfg_fits (w_cfg w) v1 /\
  forall o, fst (fst (fst (binop o a1 a2 w))) = Err EValue.
Proof. exact ints_refuted. Qed.
Print Assumptions C64_integers_refuted.

(** * C65 *)
Theorem C65_overlong_partial : forall w n k to_file,
  WILL_COMPARE (w_cfg w) = true -> 0 <= k -> 0 < n -> 2 ^ k <= n ->
  new (VInt n) true (Some k) to_file false w = (Err EValue, w).
Proof. exact overlong_checked. Qed.
Print Assumptions C65_overlong_partial.

Theorem C65_overlong_refuted : exists w n k a w',
  2 ^ k <= n /\ new (VInt n) true (Some k) false false w = (Ok a, w') /\
  fst (fst (raw a w')) = Ok [1; 0; 1] /\ k = 2.
Proof. exact overlong_refuted. Qed.
Print Assumptions C65_overlong_refuted.

Theorem C65_unreadable_refuted : exists w n k a w',
  2 ^ k <= n /\ new (VInt n) false (Some k) false false w = (Ok a, w') /\
  fst (fst (raw a w')) = Err EValue.
Proof. exact overlong_unreadable_refuted. Qed.
Print Assumptions C65_unreadable_refuted.

(** * C66 *)
Theorem C66_taken_name : forall w v opt l c,
  v <> [] -> STORE_RAW (w_cfg w) = false -> w_fs w (next_name w) = Some c ->
  exists e w', new (VArr (as_01 v)) opt l true false w = (Err e, w') /\ forall p, w_fs w' p = w_fs w p.
Proof. exact taken_name. Qed.
Print Assumptions C66_taken_name.

Theorem C66_retry_refuted : exists w v, v <> [] /\ w_fs w (PTmp (w_rnd w (S (w_clk w)))) = None /\
  w_fs w (next_name w) <> None /\
  fst (new (VArr (as_01 v)) true None true false w) = Err EValue.
Proof. exact retry_refuted. Qed.
Print Assumptions C66_retry_refuted.

(** * C67 *)
Theorem C67_lazy_refuted : exists w p a w1 r a' w',
  new (VPath p) true None false true w = (Ok a, w1) /\ raw a w1 = (Ok r, a', w') /\
  ~ keeps_files w w'.
Proof. exact lazy_overwrites_refuted. Qed.
Print Assumptions C67_lazy_refuted.

(** * C68 *)
Theorem C68_exception_refuted : exists w a v a' w' a'' w'',
  obtained w a v /\ delete a w = (Ok tt, a', w') /\
  as_bitarray a' w' = (Err EType, a'', w'') /\
  WILL_COMPARE (w_cfg w') = true /\ WILL_COMPARE (w_cfg w'') = false.
Proof. exact flag_refuted. Qed.
Print Assumptions C68_exception_refuted.

Theorem C68_threads_refuted : exists w a v sched ts' w',
  obtained w a v /\ compressed a /\
  run_threads sched [mkThread true a PStart; mkThread false a PStart] w = (ts', w') /\
  map t_pc ts' = [PDone (VBits v); PDone (VBits v)] /\
  flag w = false /\ flag w' = true.
Proof. exact threads_refuted. Qed.
Print Assumptions C68_threads_refuted.

(** * C69 *)
Theorem C69_xor_parity_refuted : exists w acs vs r acs' w' xs,
  held w acs vs /\ same_size vs /\ ~ memory_exhausted w /\
  multi_logical_xor acs w = (Ok r, acs', w') /\ fst (fst (raw r w')) = Ok xs /\ xs <> as_01 (parity vs).
Proof. exact xor3_refuted. Qed.
Print Assumptions C69_xor_parity_refuted.

(** * C78 *)
Theorem C78_bad_text : forall w s opt l to_file,
  (forall z, s = join_ints [z] -> new (VStr s) opt l to_file false w = (Err EType, w)) /\
  (parse_ints (split_comma s) = None -> new (VStr s) opt l to_file false w = (Err ESyntax, w)).
Proof. exact bad_text. Qed.
Print Assumptions C78_bad_text.

Example C78_example : parse_ints (split_comma "0,x,3") = None /\ parse_ints (split_comma "0,,3") = None /\
  join_ints [12] = "12"%string.
Proof. repeat split; reflexivity. Qed.

(** * C191 *)
Theorem C191_disk : forall (matches : string -> bool) (w : world),
  clean_files false matches w = w /\
  (forall n, w_fs (clean_files true matches w) (PTmp n) = None) /\
  (forall s, matches s = true -> w_fs (clean_files true matches w) (PUser s) = None) /\
  (forall s, matches s = false -> w_fs (clean_files true matches w) (PUser s) = w_fs w (PUser s)) /\
  w_cfg (clean_files true matches w) = w_cfg w.
Proof. exact clean_files_disk. Qed.
Print Assumptions C191_disk.

Example C191_disk_example : w_fs one_taken (next_name one_taken) = Some [1; 1] /\
  w_fs (clean_files true (fun _ => false) one_taken) (next_name one_taken) = None.
Proof. split; [vm_compute; reflexivity|]. apply (C191_disk (fun _ => false) one_taken). Qed.

Theorem C191_spares : forall (dir : bool) (matches : string -> bool) (w : world) (a : act) (v : vec),
  obtained w a v -> dir = false \/ spared matches a -> obtained (clean_files dir matches w) a v.
Proof. exact clean_files_spares. Qed.
Print Assumptions C191_spares.

Example C191_spares_example : exists w a, obtained w a va /\ a_fmt a <> Some FFile /\
  obtained (clean_files true (fun _ => true) w) a va.
Proof.
  exists (snd (make va false (demo plain even))), (fst (make va false (demo plain even))).
  assert (O : obtained (snd (make va false (demo plain even))) (fst (make va false (demo plain even))) va).
  { apply make_obtained; [apply demo_wide; reflexivity|discriminate|reflexivity|reflexivity]. }
  split; [exact O|]. assert (N : a_fmt (fst (make va false (demo plain even))) <> Some FFile) by (vm_compute; discriminate).
  split; [exact N|]. apply (C191_spares true _ _ _ _ O). right. intros F. contradiction.
Qed.

Theorem C191_lost : forall (matches : string -> bool) (w : world) (a : act) (v : vec) (n : Z),
  obtained w a v -> a_fmt a = Some FFile -> a_data a = VPath (PTmp n) ->
  raw a (clean_files true matches w) = (Err EFileNotFound, a, clean_files true matches w) /\
  ones a (clean_files true matches w) = (Err EFileNotFound, a, clean_files true matches w).
Proof. exact clean_files_lost. Qed.
Print Assumptions C191_lost.

Example C191_lost_example : exists w a n, obtained w a va /\ a_data a = VPath (PTmp n) /\
  fst (fst (raw a w)) = Ok (as_01 va) /\ fst (fst (raw a (clean_files true (fun _ => false) w))) = Err EFileNotFound.
Proof.
  exists (snd (make va true (demo plain even))), (fst (make va true (demo plain even))). eexists.
  assert (O : obtained (snd (make va true (demo plain even))) (fst (make va true (demo plain even))) va).
  { apply make_obtained; [apply demo_wide; reflexivity|discriminate|reflexivity|reflexivity]. }
  split; [exact O|]. split; [vm_compute; reflexivity|]. split; vm_compute; reflexivity.
Qed.

Theorem C191_statistics : forall (x : attr) (dir : bool) (matches : string -> bool) (w : world) (a : act) (v : vec),
  (x = ANones \/ x = ACoverage \/ x = AEntropy \/ x = ARelEntropy \/ x = ALen) -> obtained w a v ->
  exists a', call x a w = (Ok (view x v), a', w) /\
    call x a' (clean_files dir matches w) = (Ok (view x v), a', clean_files dir matches w).
Proof. exact clean_files_statistics. Qed.
Print Assumptions C191_statistics.

Example C191_statistics_example : exists w a a', obtained w a va /\ a_fmt a = Some FFile /\
  call ACoverage a w = (Ok (view ACoverage va), a', w) /\
  fst (fst (call ACoverage a' (clean_files true (fun _ => true) w))) = Ok (view ACoverage va).
Proof.
  destruct on_disk as (w & a & O & F & _).
  destruct (C191_statistics ACoverage true (fun _ => true) w a va (or_intror (or_introl eq_refl)) O) as (a' & A & B).
  exists w, a, a'. split; [exact O|]. split; [exact F|]. split; [exact A|]. rewrite B. reflexivity.
Qed.

Theorem C191_names : forall (matches : string -> bool) (w : world) (k : nat),
  w_fs (clean_files true matches w) (next_name (clean_files true matches w)) = None /\
  name_free_after k (clean_files true matches w).
Proof. exact clean_files_names. Qed.
Print Assumptions C191_names.

Example C191_names_example : w_fs one_taken (next_name one_taken) <> None /\
  w_fs (clean_files true (fun _ => false) one_taken) (next_name (clean_files true (fun _ => false) one_taken)) = None.
Proof. split; [vm_compute; discriminate|]. apply (C191_names (fun _ => false) one_taken 0). Qed.
