(** Concrete rulesets with common rules: witnesses and instances for the examples
    of PoolProps.v. *)
From Coq Require Import List ZArith QArith Bool String Ascii Lia.
From Coq Require Import List.
From Verif Require Import Base Num CondModel CondWit ThrModel MetModel MetWit RuleModel RuleWit PredModel PredWit SetModel SetSpec SetWit FitModel FitWit
  SerialModel SerialWit PoolModel PoolSpec PoolProofs PoolMore PoolView PoolLater.
From Verif Require EdgeWit.
Import ListNotations.
Open Scope string_scope.
Open Scope list_scope.
Open Scope Z_scope.

(** The rules a, b and c, then a on and on *)
Definition shelf (l : nat) : rule := nth l three (nth 0 three (on KRule "x" 0)).

Definition after (cs : list command) : pool := exec_all loose ink cs (blank shelf).

Definition nobody : handle := mkHandle [] None (empty_set false).
Definition handle_at (p : pool) (i : nat) : handle := nth i (p_sets p) nobody.

Lemma handle_there p i : (i < List.length (p_sets p))%nat -> ruleset_at p i (handle_at p i).
Proof. intros L. unfold ruleset_at, handle_at. rewrite (nth_error_nth' _ nobody L). auto. Qed.

Definition columns_of (s : ruleset) : option (list string) := option_map (fun f => map fst (f_columns f)) (s_stacked s).

(** [a = RuleSet(stack_activation=True); b = RuleSet([r0, r1], stack_activation=True); a += b] *)
Definition joined : list command := [Empty true; Init [0; 1]%nat true true; AddSet 0 1].
Definition common : pool := after joined.

(** Before [a += b] *)
Definition apart : pool := after [Empty true; Init [0; 1]%nat true true].

(** Rulesets without common rules *)
Definition disjoint : pool := after [Init [0]%nat true false; Init [1; 2]%nat true false].

(** Two rulesets with the same two rules *)
Definition twice : pool := after [Init [0; 1]%nat true false; Init [0; 1]%nat true false].

Definition column : table := TArray 1 [[numz 3]; [numz 9]].

Lemma ran (G : setup) (X : texts) (c : command) (p : pool) (o : res unit) : fst (exec G X c p) = o -> exec G X c p = (o, snd (exec G X c p)).
Proof. intros <-. apply surjective_pairing. Qed.

Lemma own_activation l f s : s_act (with_rules l (with_stacked f s)) = s_act s.
Proof. reflexivity. Qed.

Definition grown : pool := snd (exec loose ink (AddRule 0 2) common).
Definition worked : pool := snd (exec loose ink (Calc 0 column) twice).

Definition frame_or (s : ruleset) : frame Z := match s_stacked s with Some f => f | None => mkFrame 0 [] end.
Definition activation_or (s : ruleset) : activation := match s_act s with Some a => a | None => new_activation [] end.

(** [a += r2] gives b the column of r2. *)
Lemma frame_changes : exists (G : setup) (X : texts) (rules : nat -> rule) (cs : list command) (i j l : nat) (h : handle) (f f' : frame Z) (p' : pool),
  let p := exec_all G X cs (blank rules) in
  g_indexes G = [] /\ i <> j /\ ruleset_at p j h /\ exec G X (AddRule i l) p = (Ok tt, p') /\ ruleset_at p' j h /\
  ~ In l (b_rules h) /\ s_rules (view p' h) = s_rules (view p h) /\
  s_stacked (view p h) = Some f /\ List.length (f_columns f) = List.length (s_rules (view p h)) /\
  s_stacked (view p' h) = Some f' /\ List.length (f_columns f') = S (List.length (s_rules (view p' h))).
Proof.
  exists loose, ink, shelf, joined, 0%nat, 1%nat, 2%nat, (handle_at common 1), (frame_or (view common (handle_at common 1))),
    (frame_or (view grown (handle_at common 1))), grown. cbv zeta.
  split; [reflexivity|]. split; [discriminate|]. split; [vm_compute; reflexivity|].
  split; [apply ran; vm_compute; reflexivity|]. split; [vm_compute; reflexivity|].
  split; [vm_compute; intros [E|[E|[]]]; discriminate E|].
  split; [vm_compute; reflexivity|]. split; [vm_compute; reflexivity|]. split; [vm_compute; reflexivity|].
  split; vm_compute; reflexivity.
Qed.

(** calc_activation of one ruleset changes the rules of the other, whose own
    activation stays. *)
Lemma rules_change : exists (G : setup) (X : texts) (rules : nat -> rule) (cs : list command) (i j : nat) (xs : table) (h : handle) (p' : pool) (a : activation),
  let p := exec_all G X cs (blank rules) in
  i <> j /\ ruleset_at p j h /\ exec G X (Calc i xs) p = (Ok tt, p') /\ ruleset_at p' j h /\
  s_act (view p' h) = Some a /\ raw a = Ok [1; 1; 0; 1] /\ s_act (view p h) = Some a /\
  map activation_vector (s_rules (view p h)) = [Ok (Some [1; 1; 0; 0]); Ok (Some [1; 0; 0; 1])] /\
  map activation_vector (s_rules (view p' h)) = [Ok (Some [1; 0]); Ok (Some [1; 0])].
Proof.
  exists loose, ink, shelf, [Init [0; 1]%nat true false; Init [0; 1]%nat true false], 0%nat, 1%nat, column, (handle_at twice 1), worked,
    (activation_or (view twice (handle_at twice 1))).
  cbv zeta.
  split; [discriminate|]. split; [vm_compute; reflexivity|].
  split; [apply ran; vm_compute; reflexivity|]. split; [vm_compute; reflexivity|].
  split; [vm_compute; reflexivity|]. split; [vm_compute; reflexivity|]. split; [vm_compute; reflexivity|].
  split; vm_compute; reflexivity.
Qed.

(** Regression rules on x, y and z *)
Definition goods (l : nat) : rule := nth l [on KRegression "x" 0; on KRegression "y" 1; on KRegression "z" 2] (on KRegression "x" 0).

Definition other_prices : MetModel.target label := YVector (map (fun z => LNum (numz z)) [5; 6; 7; 8]).

(** a has x and y, b has y and z; a is fitted *)
Definition shops : list command :=
  [Init [0; 1]%nat false false; Init [1; 2]%nat false false; Fit 0 target_prices false (Some market) false options].
Definition street : pool := exec_all loose ink shops (blank goods).
Definition refitted : pool := snd (exec loose ink (Fit 1 other_prices false (Some market) false options) street).

(** [b.fit] changes what a predicts on the same data. *)
Lemma fit_elsewhere : exists (G : setup) (X : texts) (rules : nat -> rule) (cs : list command) (i j : nat) (y : MetModel.target label) (xs : table)
    (h : handle) (p' : pool) (a b : list num),
  let p := exec_all G X cs (blank rules) in
  g_indexes G = [] /\ i <> j /\ ruleset_at p j h /\ exec G X (Fit i y false (Some xs) false options) p = (Ok tt, p') /\ ruleset_at p' j h /\
  fst (set_predict G (Some xs) None (view p h)) = Ok (Numbers a) /\
  fst (set_predict G (Some xs) None (view p' h)) = Ok (Numbers b) /\
  nth_error a 1 = Some (Fin (10 # 2)) /\ nth_error b 1 = Some (Fin (13 # 2)).
Proof.
  exists loose, ink, goods, shops, 1%nat, 0%nat, other_prices, market, (handle_at street 0), refitted,
    [Fin (18 # 6); Fin (10 # 2); Fin (48 # 12); Fin (18 # 6)], [Fin (18 # 6); Fin (13 # 2); Fin (57 # 12); Fin (18 # 6)]. cbv zeta.
  split; [reflexivity|]. split; [discriminate|]. split; [vm_compute; reflexivity|].
  split; [apply ran; vm_compute; reflexivity|]. split; [vm_compute; reflexivity|].
  split; [vm_compute; reflexivity|]. split; [vm_compute; reflexivity|]. split; reflexivity.
Qed.

(** With activations stored as raw arrays, [b.predict()] changes the activation of a
    rule of a. *)
Definition voters (l : nat) : rule := nth l two (nth 0 two (on KRegression "x" 0)).
Definition ballots : list command := [Init [0; 1]%nat false false; Init [0]%nat false false].
Definition polled : pool := exec_all EdgeWit.raw_arrays ink ballots (blank voters).
Definition counted : pool := snd (exec EdgeWit.raw_arrays ink (Predict 0 None None) polled).

Lemma predict_elsewhere : exists (G : setup) (X : texts) (rules : nat -> rule) (cs : list command) (i j : nat) (h : handle) (p' : pool),
  let p := exec_all G X cs (blank rules) in
  g_shared G = true /\ i <> j /\ ruleset_at p j h /\ exec G X (Predict i None None) p = (Ok tt, p') /\ ruleset_at p' j h /\
  map activation_vector (s_rules (view p h)) = [Ok (Some [1; 1; 0])] /\
  map activation_vector (s_rules (view p' h)) = [Ok (Some [2; 1; 1])].
Proof.
  exists EdgeWit.raw_arrays, ink, voters, ballots, 0%nat, 1%nat, (handle_at polled 1), counted. cbv zeta.
  split; [reflexivity|]. split; [discriminate|]. split; [vm_compute; reflexivity|].
  split; [apply ran; vm_compute; reflexivity|]. split; [vm_compute; reflexivity|].
  split; vm_compute; reflexivity.
Qed.

(** b has stacked activations *)
Definition stalls : pool := exec_all loose ink [Init [0; 1]%nat false false; Init [1; 2]%nat true true; Calc 1 market] (blank goods).

(** all_features_indexes *)
Definition listed : setup := mkSetup free binary quoted false false [("x", 5); ("y", 6); ("z", 7)] false.

(** b is fitted. *)
Definition priced : pool := snd (exec loose ink (Fit 1 target_prices false None false options) stalls).

Lemma priced_use : in_use priced.
Proof.
  destruct (exec loose ink (Fit 1 target_prices false None false options) stalls) as [o p] eqn:E.
  assert (priced = p) as -> by (unfold priced; rewrite E; reflexivity). eapply in_use_step; [exact E|]. apply from_blank.
Qed.
