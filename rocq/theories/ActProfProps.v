(** Properties of the profile of an activation: counters, times and sizes. *)
From Coq Require Import ZArith QArith Bool String List Lia.
From Verif Require Import Base ActModel ActSpec ActObs ActWit ActCountSpec ActTrackHold ActProfWit.
Import ListNotations.
Open Scope Z_scope.

(** ** C159 *)

Theorem C159_new : forall w v src l optimize to_file a w',
  int32_cast (w_i32 w) -> v <> [] -> denotes w v src l -> cfg_fits (w_cfg w) v ->
  (writes w src to_file = true -> w_fs w (next_name w) = None) ->
  new src optimize l to_file false w = (Ok a, w') ->
  forall o, a_cnt a o = count_occ op_eq_dec (constructed w src optimize to_file) o.
Proof. exact new_counts. Qed.
Print Assumptions C159_new.

Example C159_new_ex : constructed bench (VArr (as_01 va)) true false = [OR2C; OR2B] /\
  exists a w', new (VArr (as_01 va)) true None false false bench = (Ok a, w') /\ a_cnt a OR2C = 1%nat.
Proof.
  split; [reflexivity|]. exists bits_kept, bench. split; [vm_compute; reflexivity|].
  rewrite (C159_new bench va (VArr (as_01 va)) None true false bits_kept bench).
  - vm_compute. reflexivity.
  - intros z _. reflexivity.
  - discriminate.
  - constructor.
  - intros K. discriminate K.
  - intros K. discriminate K.
  - vm_compute. reflexivity.
Qed.

Theorem C159_read : forall w a v f x r a' w', obtained w a v -> a_fmt a = Some f ->
  call x a w = (r, a', w') -> counts (conversions f a x) a a'.
Proof. exact read_counts. Qed.
Print Assumptions C159_read.

Example C159_read_ex : a_fmt bits_kept = Some FBits /\ conversions FBits bits_kept ACStr = [OB2R; OR2C; OB2C] /\
  a_cnt (snd (fst (call ACStr bits_kept bench))) OR2C = 2%nat.
Proof.
  split; [vm_compute; reflexivity|]. split; [reflexivity|].
  rewrite (C159_read bench bits_kept va FBits ACStr (Ok (OVal (VStr (run_text va)))) _ bench bits_held).
  - vm_compute. reflexivity.
  - vm_compute. reflexivity.
  - vm_compute. reflexivity.
Qed.

Theorem C159_clear : forall w a v r a' w', obtained w a v -> cfg_fits (w_cfg w) v ->
  clear a w = (r, a', w') ->
  forall o, a_cnt a' o = count_occ op_eq_dec (stored_raw w false) o.
Proof. exact clear_counts. Qed.
Print Assumptions C159_clear.

Example C159_clear_ex : a_cnt (snd (fst (call ABits bits_kept bench))) OR2C = 1%nat /\
  a_cnt (snd (fst (clear bits_kept bench))) OR2B = 1%nat.
Proof.
  split; [vm_compute; reflexivity|].
  rewrite (C159_clear bench bits_kept va (Ok tt) _ bench bits_held).
  - vm_compute. reflexivity.
  - intros K. discriminate K.
  - vm_compute. reflexivity.
Qed.

Theorem C159_lazy : forall w0 w v p optimize l to_file a w1 r a' w',
  new (VPath p) optimize l to_file true w0 = (Ok a, w1) ->
  int32_cast (w_i32 w) -> v <> [] -> w_fs w p = Some (as_01 v) ->
  (STORE_RAW (w_cfg w) = false -> w_fs w (next_name w) = None) ->
  raw a w = (r, a', w') ->
  (forall o, a_cnt a o = O) /\
  forall o, a_cnt a' o =
    count_occ op_eq_dec (if STORE_RAW (w_cfg w) then [ORead] else [ORead; OWrite; ORead]) o.
Proof. exact lazy_counts. Qed.
Print Assumptions C159_lazy.

Example C159_lazy_ex : a_cnt (snd (fst (raw lazy_in filed))) ORead = 2%nat.
Proof.
  destruct (C159_lazy filed filed va (PUser "mine") true None false lazy_in filed (Ok (as_01 va))
    (snd (fst (raw lazy_in filed))) (snd (raw lazy_in filed))) as (_ & A).
  - vm_compute. reflexivity.
  - intros z _. reflexivity.
  - intros V. discriminate V.
  - vm_compute. reflexivity.
  - intros _. vm_compute. reflexivity.
  - apply split3. vm_compute. reflexivity.
  - rewrite A. vm_compute. reflexivity.
Qed.

Theorem C159_time : forall w a v f o r a' w', obtained w a v -> a_fmt a = Some f ->
  w_fs w (next_name w) = None -> time_ o a w = (r, a', w') ->
  r = Ok (a_time a' o) /\
  counts (if FORCE_STAT (w_cfg w) then if a_time a o then [] else measured f o else []) a a'.
Proof. exact time_counts. Qed.
Print Assumptions C159_time.

Example C159_time_ex : measured FBits OI2B = [OB2I; OI2B] /\ a_time bits_kept OI2B = false /\
  a_cnt (snd (fst (time_ OI2B bits_kept bench))) OB2I = 1%nat.
Proof.
  split; [reflexivity|]. split; [vm_compute; reflexivity|].
  destruct (C159_time bench bits_kept va FBits OI2B (Ok true) (snd (fst (time_ OI2B bits_kept bench))) (snd (time_ OI2B bits_kept bench)) bits_held)
    as (_ & A).
  - vm_compute. reflexivity.
  - vm_compute. reflexivity.
  - apply split3. vm_compute. reflexivity.
  - rewrite (A OB2I). vm_compute. reflexivity.
Qed.

Theorem C159_size : forall w a v f k r a' w', obtained w a v -> a_fmt a = Some f ->
  w_fs w (next_name w) = None -> sizeof_ k a w = (r, a', w') ->
  r = Ok (a_size a' k) /\
  counts (if FORCE_STAT (w_cfg w) then unless (a_size a k) (sized_by f k) else []) a a'.
Proof. exact size_counts. Qed.
Print Assumptions C159_size.

Example C159_size_ex : sized_by FBits SFile = [OB2R; OWrite] /\ a_size bits_kept SFile = None /\
  a_cnt (snd (fst (sizeof_ SFile bits_kept bench))) OWrite = 1%nat.
Proof.
  split; [reflexivity|]. split; [vm_compute; reflexivity|].
  destruct (C159_size bench bits_kept va FBits SFile (Ok (Some 1)) (snd (fst (sizeof_ SFile bits_kept bench))) (snd (sizeof_ SFile bits_kept bench)) bits_held)
    as (_ & A).
  - vm_compute. reflexivity.
  - vm_compute. reflexivity.
  - apply split3. vm_compute. reflexivity.
  - rewrite (A OWrite). vm_compute. reflexivity.
Qed.

(** ** C160 *)

Theorem C160_timed : forall w a v, obtained w a v -> timed a.
Proof. exact held_timed. Qed.
Print Assumptions C160_timed.

Example C160_timed_ex : timed file_kept /\ a_cnt file_kept OWrite = 1%nat /\ a_cnt file_kept OB2I = 0%nat.
Proof. split; [exact (C160_timed _ _ _ file_held)|]. split; vm_compute; reflexivity. Qed.

Theorem C160_forced : forall w a v o, obtained w a v -> FORCE_STAT (w_cfg w) = true ->
  w_fs w (next_name w) = None -> exists a' w', time_ o a w = (Ok true, a', w') /\ (0 < a_cnt a' o)%nat.
Proof. exact time_forced. Qed.
Print Assumptions C160_forced.

Example C160_forced_ex : a_time file_kept OC2I = false /\ fst (fst (time_ OC2I file_kept file_bench)) = Ok true.
Proof.
  split; [vm_compute; reflexivity|].
  destruct (C160_forced file_bench file_kept va OC2I file_held) as (a' & w' & E & _); [vm_compute; reflexivity..|].
  rewrite E. reflexivity.
Qed.

(** ** C161 *)

Theorem C161_own : forall w a v, obtained w a v -> formed a.
Proof. exact held_formed. Qed.
Print Assumptions C161_own.

Example C161_own_ex : a_fmt file_kept = Some FFile /\ a_size file_kept SFile <> None.
Proof.
  assert (F : a_fmt file_kept = Some FFile) by (vm_compute; reflexivity).
  split; [exact F|exact (C161_own _ _ _ file_held FFile F)].
Qed.

Theorem C161_forced : forall w a v f k, obtained w a v -> FORCE_STAT (w_cfg w) = true ->
  w_fs w (next_name w) = None -> a_fmt a = Some f -> ~ unrecorded f k ->
  exists z a' w', sizeof_ k a w = (Ok (Some z), a', w') /\ a_size a' k = Some z.
Proof. exact size_forced. Qed.
Print Assumptions C161_forced.

Example C161_forced_ex : a_size bits_kept SPath = None /\ exists z, fst (fst (sizeof_ SPath bits_kept bench)) = Ok (Some z).
Proof.
  split; [vm_compute; reflexivity|].
  destruct (C161_forced bench bits_kept va FBits SPath bits_held) as (z & a' & w' & E & _);
    [vm_compute; reflexivity..|intros (U & _); discriminate U|].
  exists z. rewrite E. reflexivity.
Qed.

Theorem C161_new : forall w v src l optimize to_file a w',
  int32_cast (w_i32 w) -> v <> [] -> denotes w v src l -> cfg_fits (w_cfg w) v ->
  (writes w src to_file = true -> w_fs w (next_name w) = None) ->
  new src optimize l to_file false w = (Ok a, w') ->
  forall k, In k (made w src optimize to_file) -> a_size a k <> None.
Proof. exact new_made. Qed.
Print Assumptions C161_new.

Example C161_new_ex : made bench (VArr (as_01 va)) true false = [SRaw; SCStr; SBits] /\ a_size bits_kept SCStr <> None.
Proof.
  split; [reflexivity|]. apply (C161_new bench va (VArr (as_01 va)) None true false bits_kept bench).
  - intros x _. reflexivity.
  - intros V. discriminate V.
  - constructor.
  - intros K. discriminate K.
  - intros K. discriminate K.
  - vm_compute. reflexivity.
  - right. left. reflexivity.
Qed.

Theorem C161_clear : forall w a v r a' w', obtained w a v -> cfg_fits (w_cfg w) v ->
  clear a w = (r, a', w') -> forall k, In k (made_raw w false) -> a_size a' k <> None.
Proof. exact clear_made. Qed.
Print Assumptions C161_clear.

Example C161_clear_ex : a_size (snd (fst (clear bits_kept bench))) SRaw <> None.
Proof.
  apply (C161_clear bench bits_kept va (Ok tt) _ bench bits_held).
  - intros K. discriminate K.
  - vm_compute. reflexivity.
  - left. reflexivity.
Qed.

Theorem C161_read : forall w a v f x k r a' w', obtained w a v -> a_fmt a = Some f ->
  call x a w = (r, a', w') -> form x = Some k -> ~ unrecorded f k -> a_size a' k <> None.
Proof. exact read_made. Qed.
Print Assumptions C161_read.

Example C161_read_ex : a_size bits_kept SInt = None /\ a_size (snd (fst (call AInt bits_kept bench))) SInt <> None.
Proof.
  split; [vm_compute; reflexivity|].
  apply (C161_read bench bits_kept va FBits AInt SInt (Ok (OVal (VInt (binary va)))) _ bench bits_held).
  - vm_compute. reflexivity.
  - vm_compute. reflexivity.
  - reflexivity.
  - intros (U & _). discriminate U.
Qed.

(** ** C162 *)

Theorem C162_unforced : forall k o a w, FORCE_STAT (w_cfg w) = false ->
  sizeof_ k a w = (Ok (a_size a k), a, w) /\ time_ o a w = (Ok (a_time a o), a, w).
Proof. exact unforced. Qed.
Print Assumptions C162_unforced.

Example C162_unforced_ex : FORCE_STAT (w_cfg (demo plain even)) = false /\
  sizeof_ SPath bits_kept (demo plain even) = (Ok None, bits_kept, demo plain even).
Proof.
  split; [reflexivity|].
  rewrite (proj1 (C162_unforced SPath OWrite bits_kept (demo plain even) eq_refl)).
  replace (a_size bits_kept SPath) with (@None Z); [reflexivity|vm_compute; reflexivity].
Qed.

(** ** C163 *)

Theorem C163_new : forall w v src l optimize to_file a w',
  int32_cast (w_i32 w) -> v <> [] -> denotes w v src l -> cfg_fits (w_cfg w) v ->
  (writes w src to_file = true -> w_fs w (next_name w) = None) ->
  new src optimize l to_file false w = (Ok a, w') ->
  forall k z, a_size a k = Some z ->
    right_size w v k z \/
    k = SPath /\ z = w_size w VNone /\ (exists p, src = VPath p) /\ writes w src to_file = false.
Proof. exact new_sizes. Qed.
Print Assumptions C163_new.

Example C163_new_ex : forall z, a_size bits_kept SBits = Some z -> z = w_size bench (VBits va).
Proof.
  intros z E. destruct (C163_new bench va (VArr (as_01 va)) None true false bits_kept bench) with (k := SBits) (z := z) as [A|A].
  - intros x _. reflexivity.
  - intros V. discriminate V.
  - constructor.
  - intros K. discriminate K.
  - intros K. discriminate K.
  - vm_compute. reflexivity.
  - exact E.
  - exact A.
  - destruct A as (A & _). discriminate A.
Qed.

Theorem C163_read : forall w a v x r a' w', obtained w a v -> call x a w = (r, a', w') -> records w v a a'.
Proof. exact read_sizes. Qed.
Print Assumptions C163_read.

Example C163_read_ex : records bench va bits_kept (snd (fst (call AInt bits_kept bench))) /\
  a_size bits_kept SInt = None /\ a_size (snd (fst (call AInt bits_kept bench))) SInt = Some 28.
Proof.
  split; [|split; vm_compute; reflexivity].
  apply (C163_read bench bits_kept va AInt (Ok (OVal (VInt (binary va)))) _ bench bits_held). vm_compute. reflexivity.
Qed.

Theorem C163_measure : forall w a v x r a' w', obtained w a v -> w_fs w (next_name w) = None ->
  measure x a w = (r, a', w') -> records w v a a'.
Proof. exact measure_sizes. Qed.
Print Assumptions C163_measure.

Example C163_measure_ex : records bench va bits_kept (snd (fst (measure (PTime OI2C) bits_kept bench))).
Proof.
  apply (C163_measure bench bits_kept va (PTime OI2C) (Ok tt) _ (snd (measure (PTime OI2C) bits_kept bench)) bits_held).
  - reflexivity.
  - apply split3. vm_compute. reflexivity.
Qed.

Theorem C163_stay : forall w v a a', right_sizes w v a -> records w v a a' -> right_sizes w v a'.
Proof. exact records_right. Qed.
Print Assumptions C163_stay.

Example C163_stay_ex : right_sizes bench va bits_kept -> right_sizes bench va (snd (fst (call AInt bits_kept bench))).
Proof.
  intros R. apply (C163_stay bench va bits_kept); [exact R|].
  apply (C163_read bench bits_kept va AInt (Ok (OVal (VInt (binary va)))) _ bench bits_held). vm_compute. reflexivity.
Qed.

Theorem C163_clear : forall w a v r a' w', obtained w a v -> cfg_fits (w_cfg w) v ->
  clear a w = (r, a', w') -> right_sizes w (map (fun _ => false) v) a'.
Proof. exact clear_sizes. Qed.
Print Assumptions C163_clear.

Example C163_clear_ex : right_sizes bench [false; false; false; false] (snd (fst (clear bits_kept bench))).
Proof.
  apply (C163_clear bench bits_kept va (Ok tt) _ bench bits_held); [intros K; discriminate K|].
  vm_compute. reflexivity.
Qed.

Theorem C163_lazy : forall w0 w v p optimize l to_file a w1 r a' w',
  new (VPath p) optimize l to_file true w0 = (Ok a, w1) ->
  int32_cast (w_i32 w) -> v <> [] -> w_fs w p = Some (as_01 v) ->
  (STORE_RAW (w_cfg w) = false -> w_fs w (next_name w) = None) ->
  raw a w = (r, a', w') -> right_sizes w v a'.
Proof. exact lazy_sizes. Qed.
Print Assumptions C163_lazy.

Example C163_lazy_ex : right_sizes filed va (snd (fst (raw lazy_in filed))).
Proof.
  apply (C163_lazy filed filed va (PUser "mine") true None false lazy_in filed (Ok (as_01 va)) _ (snd (raw lazy_in filed))).
  - vm_compute. reflexivity.
  - intros z _. reflexivity.
  - intros V. discriminate V.
  - vm_compute. reflexivity.
  - intros _. vm_compute. reflexivity.
  - apply split3. vm_compute. reflexivity.
Qed.

(** ** C164 *)

Theorem C164_forced_refuted : exists w a v k,
  obtained w a v /\ FORCE_STAT (w_cfg w) = true /\ w_fs w (next_name w) = None /\
  fst (fst (sizeof_ k a w)) = Ok None.
Proof. exact forced_size_refuted. Qed.
Print Assumptions C164_forced_refuted.

Theorem C164_never : forall w a v k, obtained w a v -> a_fmt a = Some FFile -> k = SCStr \/ k = SCArr ->
  w_fs w (next_name w) = None -> a_size a k = None ->
  exists a' w', sizeof_ k a w = (Ok None, a', w').
Proof. exact file_unsized. Qed.
Print Assumptions C164_never.

Example C164_never_ex : exists a' w', sizeof_ SCArr file_kept file_bench = (Ok None, a', w').
Proof. apply (C164_never file_bench file_kept va SCArr file_held); [vm_compute; reflexivity|right; reflexivity|vm_compute; reflexivity..]. Qed.

(** ** C165 *)

Theorem C165_path_refuted : exists w v p a,
  obtained w a v /\ new (VPath p) true None false false w = (Ok a, w) /\ w_fs w p = Some (as_01 v) /\
  ~ right_sizes w v a.
Proof. exact path_size_refuted. Qed.
Print Assumptions C165_path_refuted.

