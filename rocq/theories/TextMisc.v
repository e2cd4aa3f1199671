(** The accessors of a ruleset. *)
From Coq Require Import List ZArith QArith Bool String Ascii Lia.
From Coq Require Import List.
From Verif Require Import Base Num CondModel CondSpec ThrModel MetModel ThrProofs RuleModel RuleSpec RuleProofs RuleRoute PredModel PredSpec PredReg PredStack
  SetModel SetSpec SetBase SetStack FitModel FitVal TreeProofs TextModel TextSpec.
Import ListNotations.
Open Scope string_scope.
Open Scope list_scope.
Open Scope Z_scope.

(** ** Iteration *)

Lemma iteration (s : ruleset) : set_len s = Z.of_nat (List.length (set_iter s)) /\
  (forall i r, nth_error (set_iter s) i = Some r <-> getitem_int (Z.of_nat i) s = Ok r) /\
  (forall i, (i < List.length (set_iter s))%nat -> getitem_int (Z.of_nat i - set_len s) s = getitem_int (Z.of_nat i) s) /\
  forall z, set_len s <= z \/ z < - set_len s -> getitem_int z s = Err EIndex.
Proof.
  unfold set_len, set_iter, getitem_int. split; [reflexivity|]. split.
  - intros i r. rewrite py_index_nth by lia. rewrite Nat2Z.id. reflexivity.
  - split.
    + intros i H. unfold py_index.
      destruct (Z.leb_spec 0 (Z.of_nat i - Z.of_nat (List.length (s_rules s)))); [lia|]. cbn [andb].
      destruct (Z.leb_spec (- Z.of_nat (List.length (s_rules s))) (Z.of_nat i - Z.of_nat (List.length (s_rules s)))); [|lia].
      destruct (Z.ltb_spec (Z.of_nat i - Z.of_nat (List.length (s_rules s))) 0); [|lia].
      destruct (Z.leb_spec 0 (Z.of_nat i)); [|lia].
      destruct (Z.ltb_spec (Z.of_nat i) (Z.of_nat (List.length (s_rules s)))); [|lia]. cbn [andb]. f_equal. lia.
    + intros z H. unfold py_index.
      destruct (Z.leb_spec 0 z); destruct (Z.ltb_spec z (Z.of_nat (List.length (s_rules s)))); try lia; cbn [andb];
      destruct (Z.leb_spec (- Z.of_nat (List.length (s_rules s))) z); destruct (Z.ltb_spec z 0); try lia; reflexivity.
Qed.

(** ** The type of the rules *)

Lemma type_set (k : kind) (s : ruleset) : fst (set_rule_type (ARule k) s) = Ok tt /\
  rule_type (snd (set_rule_type (ARule k) s)) = Ok k /\ same_but_type s (snd (set_rule_type (ARule k) s)).
Proof. destruct s. repeat split. Qed.

Lemma type_refused (c : class) (s : ruleset) : (forall k, c <> ARule k) -> set_rule_type c s = (Err EType, s).
Proof. destruct c; intros H; auto. destruct (H k). reflexivity. Qed.

Lemma type_read (s : ruleset) : (rule_type s = Err EValue <-> s_type s = None) /\ forall k, rule_type s = Ok k <-> s_type s = Some k.
Proof. unfold rule_type. destruct (s_type s); split; try (intros k'); split; congruence. Qed.

(** ** The activation through the ruleset *)

Lemma set_reads (s : ruleset) (a : activation) (w : list bool) : s_act s = Some a -> v_bits a = ActSpec.as_01 w ->
  set_delegated s "nones" = Ok (integer (ActSpec.n_ones w)) /\
  set_delegated s "length" = Ok (integer (ActSpec.size w)) /\
  (w <> [] -> v_coverage a = XNone ->
     set_delegated s "coverage" = Ok (number (Fin (ActSpec.fraction (ActSpec.n_ones w) (ActSpec.size w))))) /\
  (w <> [] -> set_delegated s "entropy" = Ok (integer (Z.of_nat (List.length (ActSpec.switches w)) + 2))) /\
  (w <> [] -> set_delegated s "rel_entropy" =
     Ok (number (Fin (ActSpec.fraction (Z.of_nat (List.length (ActSpec.switches w)) + 2) (ActSpec.size w))))) /\
  (v_here a = true -> set_delegated s "raw" = Ok (OInts (ActSpec.as_01 w)) /\
     set_delegated s "ones" = Ok (OInts (ActSpec.positions w))) /\
  (v_here a = false -> set_delegated s "raw" = Err EFileNotFound /\ set_delegated s "ones" = Err EFileNotFound).
Proof.
  intros A B. pose (r := mkRule KRule None (s_act s) None true None false false []).
  assert (X : forall n, dget n (properties KRule) = None -> dget n (fields r) = None -> dget n (constants KRule) = None -> set_delegated s n = getattr r n).
  { intros n P F C. rewrite delegated_read; auto. }
  destruct (read_activation r a w A B) as (R1 & R2 & R3 & R4 & R5 & R6); [intros; cbn; tauto|].
  rewrite !X by reflexivity. split; [exact R1|]. split; [exact R2|]. split; [|auto].
  intros N C. pose proof (read_coverage r a w A B N C) as K. rewrite getattr_measure in K by (left; reflexivity).
  assert (Y : set_delegated s "coverage" = rmap OVal (act_coverage a)).
  { unfold set_delegated, find_attribute. rewrite A.
    change (dget "coverage" activation_attributes) with (Some (fun a => rmap OVal (act_coverage a))). cbv beta iota.
    unfold act_coverage. rewrite C. destruct (alen a =? 0); reflexivity. }
  rewrite Y. unfold measure_read, coverage in K. cbn [r_act r] in K. rewrite A in K. exact K.
Qed.

Lemma set_reads_none (s : ruleset) (name : string) : s_act s = None -> set_delegated s name = Err EAttr.
Proof. intros A. unfold set_delegated. rewrite A. reflexivity. Qed.

Lemma set_reads_unknown (s : ruleset) (name : string) : ~ In name (map fst activation_attributes) -> set_delegated s name = Err EAttr.
Proof.
  intros N. unfold set_delegated, find_attribute. destruct (s_act s); auto.
  assert (D : dget name activation_attributes = None); [|rewrite D; reflexivity].
  apply dget_none. intros v K. apply N. apply (in_map fst) in K. exact K.
Qed.

Lemma set_coverage_reads (s : ruleset) : set_available s = true -> set_delegated s "coverage" = ruleset_coverage s.
Proof.
  intros H. unfold set_available in H. unfold set_delegated, find_attribute, ruleset_coverage, set_available.
  destruct (s_act s) as [a|]; [|discriminate]. destruct (alen a =? 0) eqn:Z; [discriminate|]. rewrite H.
  change (dget "coverage" activation_attributes) with (Some (fun a => rmap OVal (act_coverage a))).
  cbv beta iota. unfold act_coverage. destruct (v_coverage a); cbn [rmap]; auto. rewrite Z. reflexivity.
Qed.

(** ** The stacked activations *)

Lemma stacked_said (s : ruleset) :
  (stacked_activations_available s = Err EAttr <-> s_act s = None) /\
  forall b, stacked_activations_available s = Ok b <-> exists a, s_act s = Some a /\ (b = true <-> v_bits a <> []).
Proof.
  unfold stacked_activations_available, alen. destruct (s_act s) as [a|].
  - split; [split; discriminate|]. intros b. split.
    + intros H. injection H as <-. exists a. split; auto. destruct (v_bits a); cbn; split; congruence.
    + intros (a' & A & H). injection A as <-. f_equal. destruct (v_bits a); cbn; destruct b; auto; exfalso.
      * apply H; auto.
      * assert (X : false = true) by (apply H; discriminate). discriminate.
  - split; [split; auto|]. intros b. split; [discriminate|]. intros (a & A & _). discriminate.
Qed.

(** ** Sizes *)

Lemma sizes_told (E : env) (rules : list rule) (y : target label) (ys : list label) (names : list string) :
  y = YVector ys \/ y = YColumn ys -> Forall2 (called E) rules names ->
  exists l, test_sizes E rules y = Ok l /\
    forall s v, In (s, v) l <-> In s names /\ v = integer (Z.of_nat (List.length ys)).
Proof.
  intros Y C.
  assert (T : target_len y = Ok (Z.of_nat (List.length ys))) by (destruct Y as [-> | ->]; reflexivity).
  unfold test_sizes. rewrite T. cbn [rbind].
  assert (X : exists l, by_name E (fun _ => Ok (integer (Z.of_nat (List.length ys)))) rules = Ok l).
  { unfold by_name. assert (K : exists m, rseq (map (fun r => rbind (rule_name E r) (fun s => rmap (pair s) (Ok (integer (Z.of_nat (List.length ys)))))) rules) = Ok m).
    { clear T Y. induction C as [|r n rules names H _ (m & IH)]; [exists []; reflexivity|]. cbn [map rseq].
      rewrite (called_name _ _ _ H), IH. eexists. reflexivity. }
    destruct K as (m & ->). eexists. reflexivity. }
  destruct X as (l & X). exists l. split; [exact X|]. destruct (by_name_any _ _ _ _ X) as (A & B).
  destruct (forall2_in _ _ _ C) as (C1 & C2). intros s v. split.
  - intros I. destruct (A _ _ I) as (r & R & N & V). split; [|congruence].
    destruct (C1 _ R) as (n & I' & N'). apply called_name in N'. congruence.
  - intros (I & ->). destruct (C2 _ I) as (r & R & N). apply called_name in N. destruct (B _ R) as (n & N' & K).
    assert (n = s) as -> by congruence. apply in_map_iff in K as ((s', v) & S & K). cbn in S. subst s'.
    destruct (A _ _ K) as (r' & _ & _ & V). injection V as <-. exact K.
Qed.
