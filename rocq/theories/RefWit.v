(** Witnesses for the properties about the lists of conditions as objects. *)
From Coq Require Import List ZArith QArith Bool String Lia.
From Coq Require Import List.
From Verif Require Import Base Num CondModel RuleModel PredModel SetModel TreeModel TreeWit RefModel RefSpec RefProofs RefAnd RefMore RefTree RefLaws.
Import ListNotations.
Open Scope string_scope.
Open Scope list_scope.
Open Scope Z_scope.

Definition two_nums (a b : Z) : list num := [numz a; numz b].

(** The lists of a user: one feature at 0 to 3, two features at 4 to 7 *)
Definition lab : heap := mkHeap
  (fun a => match a with O => [0] | 4%nat => [1; 0] | _ => [] end)
  (fun a => match a with 1%nat => [numz 1] | 2%nat => [numz 5] | 5%nat => two_nums 2 3 | 6%nat => two_nums 8 9 | _ => [] end)
  (fun a => match a with 3%nat => ["a"] | 7%nat => ["b"; "a"] | _ => [] end)
  (fun _ => mkRobj None None None None false) 8.

Definition after {A} (m : prog A) (H : heap) : heap := snd (m H).

(** [HyperrectangleCondition(l0, l1, l2, l3)] and with the lists of two features *)
Definition narrow : prog nat := r_build "index" (Some 0%nat) (Some 1%nat) (Some 2%nat) (Some 3%nat) false true.
Definition wide (srt : bool) : prog nat := r_build "index" (Some 4%nat) (Some 5%nat) (Some 6%nat) (Some 7%nat) false srt.

(** Both *)
Definition both : prog (nat * nat) := c <- narrow; d <- wide true; ret (c, d).

Lemma args_there : there lab (Some 0%nat) /\ there lab (Some 1%nat) /\ there lab (Some 2%nat) /\ there lab (Some 3%nat) /\
  there lab (Some 4%nat) /\ there lab (Some 5%nat) /\ there lab (Some 6%nat) /\ there lab (Some 7%nat).
Proof. repeat split; intros a E; injection E as <-; cbn; lia. Qed.

Lemma both_exist : fst (both lab) = Ok (8%nat, 9%nat) /\ exists_in (after both lab) 8 /\ exists_in (after both lab) 9.
Proof.
  split; [reflexivity|]. split; (split; [cbn; lia|]); intros a A; cbn in A; apply holds_mk in A; destruct A as [A|[A|[A|A]]]; injection A as <-; cbn; lia.
Qed.

(** The row of one feature with value 3 *)
Definition three_row : table := TArray 1 [[numz 3]].

(** The caller goes on using the list of bounds. *)
Lemma copies_refuted : exists H idx mins maxs names srt c H' a l,
  there H idx /\ there H mins /\ there H maxs /\ there H names /\ mins = Some a /\
  r_build "index" idx mins maxs names false srt H = (Ok c, H') /\
  evaluate (view H' c) three_row = Ok [1] /\ evaluate (view (put_nums a l H') c) three_row = Ok [0].
Proof.
  exists lab, (Some 0%nat), (Some 1%nat), (Some 2%nat), (Some 3%nat), true. exists 8%nat, (after narrow lab), 1%nat, [numz 4].
  destruct args_there as (A & B & C & D & _). do 5 (split; [auto|]). split; [reflexivity|]. split; reflexivity.
Qed.

(** Two conditions with one list: a change of the bounds of one changes the other. *)
Lemma assigned_refuted : exists H c d a l H1 H2, exists_in H c /\ exists_in H d /\ (a < h_next H)%nat /\ c <> d /\
  r_set_bmaxs (SList a) c H = (Ok tt, H1) /\ r_set_bmaxs (SList a) d H1 = (Ok tt, H2) /\
  evaluate (view H2 d) three_row = Ok [1] /\ holds (h_conds H2 c) a /\ evaluate (view (put_nums a l H2) d) three_row = Ok [0].
Proof.
  set (H := after (c <- narrow; narrow) lab). exists H, 8%nat, 9%nat, 2%nat, [numz 2].
  exists (after (r_set_bmaxs (SList 2%nat) 8) H), (after (r_set_bmaxs (SList 2%nat) 9) (after (r_set_bmaxs (SList 2%nat) 8) H)).
  split; [split; [cbn; lia|]; intros a A; cbn in A; apply holds_mk in A; destruct A as [A|[A|[A|A]]]; injection A as <-; cbn; lia|].
  split; [split; [cbn; lia|]; intros a A; cbn in A; apply holds_mk in A; destruct A as [A|[A|[A|A]]]; injection A as <-; cbn; lia|].
  split; [cbn; lia|]. split; [discriminate|]. split; [reflexivity|]. split; [reflexivity|]. split; [reflexivity|].
  split; [right; left; constructor 2; reflexivity|]. reflexivity.
Qed.

(** The flag: bounds crossed in place are not flagged, bounds put right in place
    stay flagged and no row is activated. *)
Lemma flag_refuted :
  (exists H c a l lows highs, exists_in H c /\ holds (h_conds H c) a /\
     c_min (view (put_nums a l H) c) = Some lows /\ c_max (view (put_nums a l H) c) = Some highs /\
     (exists lo hi, nth_error lows 0 = Some lo /\ nth_error highs 0 = Some hi /\ nltb hi lo = true) /\
     c_imp (view (put_nums a l H) c) = false) /\
  (exists H c a l, exists_in H c /\ holds (h_conds H c) a /\
     c_min (view (put_nums a l H) c) = Some [numz 1] /\ c_max (view (put_nums a l H) c) = Some [numz 5] /\
     evaluate (view (put_nums a l H) c) three_row = Ok [0]).
Proof.
  split.
  - exists (after narrow lab), 8%nat, 1%nat, [numz 7], [numz 7], [numz 5].
    split; [split; [cbn; lia|]; intros a A; cbn in A; apply holds_mk in A; destruct A as [A|[A|[A|A]]]; injection A as <-; cbn; lia|].
    split; [right; left; constructor; reflexivity|]. split; [reflexivity|]. split; [reflexivity|].
    split; [exists (numz 7), (numz 5); repeat split|]. reflexivity.
  - exists (after narrow (put_nums 1 [numz 7] lab)), 8%nat, 1%nat, [numz 1].
    split; [split; [cbn; lia|]; intros a A; cbn in A; apply holds_mk in A; destruct A as [A|[A|[A|A]]]; injection A as <-; cbn; lia|].
    split; [right; left; constructor; reflexivity|]. split; [reflexivity|]. split; reflexivity.
Qed.

(** A condition without names, on either side *)
Definition nameless : cond := mkCond (Some [0]) (Some [numz 1]) (Some [numz 5]) None false.
Definition partner : cond := mkCond (Some [1]) (Some [numz 2]) (Some [numz 8]) (Some ["b"]) false.

Lemma sides_refuted : exists sett a b c e, band sett a b = Ok c /\ band sett b a = Err e.
Proof. exists "index", nameless, partner. eexists. eexists. split; vm_compute; reflexivity. Qed.
