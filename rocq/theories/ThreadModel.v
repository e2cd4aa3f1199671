(** Several threads reading compressed activations as bitarrays or integers,
    activation.py:1282-1287 (as_bitarray) and 1323-1328 (as_integer).  The
    class attribute WILL_COMPARE is shared.

    The four statements of the branch are the atomic steps.  Simplified:
    _decompress is one step (it reads WILL_COMPARE once, activation.py:1027);
    each thread reads its own instance. *)
From Coq Require Import List ZArith Bool.
From Verif Require Import Base ActModel.
Import ListNotations.

(** Program counter of a conversion, with the local variables [wc], [to_ret]. *)
Inductive pc :=
| PStart                            (* before: wc = Activation.WILL_COMPARE *)
| PSaved (wc : bool)                (* before: Activation.WILL_COMPARE = ... *)
| PSet (wc : bool)                  (* before: to_ret = self._decompress(...) *)
| PGot (wc : bool) (r : pyval)      (* before: Activation.WILL_COMPARE = wc *)
| PDone (r : pyval)
| PFail (e : exn).

(** [t_int]: the thread runs as_integer (true) or as_bitarray (false). *)
Record thread := mkThread { t_int : bool; t_act : act; t_pc : pc }.

Definition flag (w : world) : bool := WILL_COMPARE (w_cfg w).
Definition put_flag (b : bool) (w : world) : world :=
  set_cfg (mkCfg (DTYPE (w_cfg w)) (FORCE_STAT (w_cfg w)) b (STORE_RAW (w_cfg w)) (NCPUS (w_cfg w))) w.

Definition step_thread (t : thread) (w : world) : thread * world :=
  match t_pc t with
  | PStart => (mkThread (t_int t) (t_act t) (PSaved (flag w)), w)
  | PSaved wc => (mkThread (t_int t) (t_act t) (PSet wc), put_flag (t_int t) w)
  | PSet wc =>
      match decompress None false (t_act t) w with
      | (Ok r, a', w') => (mkThread (t_int t) a' (PGot wc r), w')
      | (Err e, a', w') => (mkThread (t_int t) a' (PFail e), w')
      end
  | PGot wc r => (mkThread (t_int t) (t_act t) (PDone r), put_flag wc w)
  | PDone _ | PFail _ => (t, w)
  end.

(** One step of thread [i], if there is one. *)
Fixpoint step_nth (i : nat) (ts : list thread) (w : world) : list thread * world :=
  match ts, i with
  | [], _ => ([], w)
  | t :: ts', O => let (t', w') := step_thread t w in (t' :: ts', w')
  | t :: ts', S i' => let (r, w') := step_nth i' ts' w in (t :: r, w')
  end.

(** A schedule is the list of the threads that move. *)
Fixpoint run_threads (sched : list nat) (ts : list thread) (w : world) : list thread * world :=
  match sched with
  | [] => (ts, w)
  | i :: s => let (ts', w') := step_nth i ts w in run_threads s ts' w'
  end.
