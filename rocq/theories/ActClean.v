(** What clean_files does to the disk and to activations (lemmas). *)
From Coq Require Import Decimal DecimalString DecimalZ ZArith QArith Bool String Ascii List Lia.
From Verif Require Import Base ActModel ActSpec ActObs ActCodec ActRep ActAccess ActBuild ActProf ActHold ActOps ActDisk ActWit.
Import ListNotations.
Open Scope Z_scope.

Lemma clean_files_disk : forall (matches : string -> bool) (w : world),
  clean_files false matches w = w /\
  (forall n, w_fs (clean_files true matches w) (PTmp n) = None) /\
  (forall s, matches s = true -> w_fs (clean_files true matches w) (PUser s) = None) /\
  (forall s, matches s = false -> w_fs (clean_files true matches w) (PUser s) = w_fs w (PUser s)) /\
  w_cfg (clean_files true matches w) = w_cfg w.
Proof.
  intros m w. repeat split; intros; cbn; try reflexivity; rewrite H; reflexivity.
Qed.

Lemma clean_files_spares : forall (dir : bool) (matches : string -> bool) (w : world) (a : act) (v : vec),
  obtained w a v -> dir = false \/ spared matches a -> obtained (clean_files dir matches w) a v.
Proof.
  intros dir m w a v O S. destruct dir; [|exact O].
  destruct S as [S|S]; [discriminate|].
  eapply ob_world; [exact O| |].
  - unfold keeps_own, own_file. intros p E. cbn [clean_files w_fs set_fs].
    destruct (a_fmt a) as [[]|] eqn:F; try discriminate.
    destruct (S F) as (s & D & M). rewrite D in E. injection E as <-. unfold clean_files; cbn. rewrite M. reflexivity.
  - cbn. destruct (obtained_rep _ _ _ O) as (I & _). exact I.
Qed.

Lemma clean_files_lost : forall (matches : string -> bool) (w : world) (a : act) (v : vec) (n : Z),
  obtained w a v -> a_fmt a = Some FFile -> a_data a = VPath (PTmp n) ->
  raw a (clean_files true matches w) = (Err EFileNotFound, a, clean_files true matches w) /\
  ones a (clean_files true matches w) = (Err EFileNotFound, a, clean_files true matches w).
Proof.
  intros m w a v n O F D. destruct (obtained_rep _ _ _ O) as (_ & _ & _ & [R _]).
  pose proof (r_loaded _ _ _ R) as L.
  assert (E : raw a (clean_files true m w) = (Err EFileNotFound, a, clean_files true m w)).
  { rewrite raw_loaded by congruence. unfold bind, get. rewrite F. unfold read_self, bind, get. rewrite F, D.
    unfold read_at, bind, getw. reflexivity. }
  split; [exact E|]. unfold ones, bind. rewrite E. reflexivity.
Qed.

Lemma clean_files_statistics : forall (x : attr) (dir : bool) (matches : string -> bool) (w : world) (a : act) (v : vec),
  (x = ANones \/ x = ACoverage \/ x = AEntropy \/ x = ARelEntropy \/ x = ALen) -> obtained w a v ->
  exists a', call x a w = (Ok (view x v), a', w) /\
    call x a' (clean_files dir matches w) = (Ok (view x v), a', clean_files dir matches w).
Proof.
  intros x dir m w a v H O.
  assert (En : n_entropy v = Z.of_nat (List.length (switches v)) + 2) by (unfold n_entropy, len; lia).
  destruct H as [->|[->|[->|[->| -> ]]]]; cbn [call view].
  - destruct (nones_cached _ _ _ O) as (a1 & E & C1 & C2 & O1). exists a1.
    split; [unfold bind; rewrite E; reflexivity|]. unfold bind. rewrite (nones_hit a1 _ (n_ones v)) by congruence. reflexivity.
  - destruct (coverage_cached _ _ _ O) as (a1 & E & C1 & O1). exists a1.
    split; [unfold bind; rewrite E; reflexivity|]. unfold bind. erewrite (cov_hit a1) by exact C1. reflexivity.
  - rewrite <- En. destruct (entropy_cached _ _ _ O) as (a1 & E & C1 & C2 & O1). exists a1.
    split; [unfold bind; rewrite E; reflexivity|]. unfold bind. rewrite (entropy_hit a1 _ (n_entropy v)) by congruence. reflexivity.
  - rewrite <- En. destruct (relent_cached _ _ _ O) as (a1 & E & C1 & O1). exists a1.
    split; [unfold bind; rewrite E; reflexivity|]. unfold bind. erewrite (relent_hit a1) by exact C1. reflexivity.
  - pose proof (obtained_len _ _ _ O) as L. exists a.
    split; unfold bind; erewrite len_hit by exact L; reflexivity.
Qed.

(** The names that are drawn afterwards are free. *)
Lemma clean_files_names : forall (matches : string -> bool) (w : world) (k : nat),
  w_fs (clean_files true matches w) (next_name (clean_files true matches w)) = None /\
  name_free_after k (clean_files true matches w).
Proof. intros m w k. split; reflexivity. Qed.
