(** Concrete thresholds for the examples. *)
From Coq Require Import List ZArith QArith Qabs Bool String Lia.
From Coq Require Import List.
From Verif Require Import Base Num Arith CondModel CondSpec ThrModel ThrSpec ThrProofs.
Import ListNotations.
Open Scope Z_scope.
Open Scope string_scope.

Definition ex_lib : library :=
  mkLib (fun x => Ok x) (fun _ => Ok PInf) (fun _ => Err EValue) (fun _ => "text") (fun _ => Ok 4).

Definition ex_rows : list (string * row) :=
  [("std", [("min", XNum (Fin (1 # 2))); ("max", XText "prediction"); ("arg", XText "abs")]);
   ("coverage", [("max", XNum (Fin (9 # 10)))]);
   ("sign", [("equal", XNum (Fin 1)); ("different", XNum (Fin 2))]);
   ("criterion", [("min", XText "bad_because")]);
   ("zscore", [("min", XNum (Fin 0)); ("arg", XText "cosine")]);
   ("name", [("max", XNum (Fin 0)); ("arg", XText "str")])].

Definition ex_thr : thresholds := load (Some ex_rows).

Definition ex_rule (k : string) : res val :=
  if str_eqb k "std" then Ok (XNum (Fin (-1 # 1)))
  else if str_eqb k "prediction" then Ok (XNum (Fin 3))
  else if str_eqb k "coverage" then Ok (XNum (Fin (1 # 100)))
  else if str_eqb k "sign" then Ok (XText "+")
  else if str_eqb k "criterion" then Ok (XInt 7)
  else if str_eqb k "bad_because" then Ok XNone
  else if str_eqb k "zscore" then Ok (XNum (Fin 1))
  else if str_eqb k "name" then Ok (XInt 3)
  else Err EAttr.

Ltac distinct := repeat constructor; cbn; intuition discriminate.

Lemma ex_rows_nodup : NoDup (map fst ex_rows) /\ forall k r, In (k, r) ex_rows -> NoDup (map fst r).
Proof.
  split.
  - distinct.
  - intros k r H. cbn in H. repeat destruct H as [H|H]; try contradiction; injection H as <- <-; distinct.
Qed.

Lemma ex_thr_wf : well_formed ex_thr.
Proof. apply load_file; apply ex_rows_nodup. Qed.

Lemma ex_limits k r : k <> "coverage" -> In (k, r) ex_rows -> limits_of ex_thr k r.
Proof. intros N I. apply (proj2 (load_file ex_rows (proj1 ex_rows_nodup) (proj2 ex_rows_nodup))); auto. Qed.

Definition ex_std_row : row :=
  [("min", XNum (Fin (1 # 2))); ("max", XText "prediction"); ("arg", XText "abs")].

Lemma ex_std_numbers : all_numbers ex_rule ex_std_row.
Proof.
  intros k l H N. cbn in H. destruct H as [H|[H|[H|[]]]]; injection H as <- <-.
  - exists (Fin (1 # 2)). left. cbn; auto.
  - exists (Fin 3). right. exists "prediction". cbn; auto.
  - congruence.
Qed.

Lemma ex_std_measured : measured ex_lib ex_std_row (XNum (Fin (-1 # 1))) (Fin 1).
Proof. apply (m_abs_fin _ _ _ (-1 # 1)); [cbn; auto|left; auto]. Qed.

Lemma ex_std_meets : meets ex_rule ex_std_row (Fin 1).
Proof.
  destruct (check_number ex_lib ex_thr "std" ex_rule ex_std_row (XNum (Fin (-1 # 1))) (Fin 1))
    as (b & E & M).
  - apply ex_thr_wf.
  - apply ex_limits; [discriminate|cbn; auto].
  - reflexivity.
  - split; discriminate.
  - apply ex_std_measured.
  - apply ex_std_numbers.
  - apply M. assert (X : fst (call ex_lib ex_thr "std" ex_rule) = Ok true) by (vm_compute; reflexivity). congruence.
Qed.

Lemma ex_coverage : limits_of ex_thr "coverage" [("max", XNum (Fin (9 # 10))); ("min", XNum (Fin (1 # 20)))].
Proof.
  apply (proj2 (load_file ex_rows (proj1 ex_rows_nodup) (proj2 ex_rows_nodup))).
  apply (cov_no_min ex_rows [("max", XNum (Fin (9 # 10)))]); [cbn; auto|].
  intros l [H|[]]. discriminate.
Qed.
