(** Properties of several rulesets with common rules. *)
From Coq Require Import List ZArith QArith Bool String Ascii Lia.
From Coq Require Import List.
From Verif Require Import Base Num CondModel ThrModel MetModel MetWit RuleModel RuleWit PredModel PredWit SetModel SetWit FitModel FitWit SerialModel SerialWit.
From Verif Require Import PoolModel PoolSpec PoolProofs PoolMore PoolView PoolLater PoolFrames PoolSort PoolWit.
Import ListNotations.
Open Scope string_scope.
Open Scope list_scope.
Open Scope Z_scope.

(** ** C55 *)

Theorem C55_columns_refuted : exists (G : setup) (X : texts) (rules : nat -> rule) (cs : list command) (i j l : nat) (h : handle) (f f' : frame Z) (p' : pool),
  let p := exec_all G X cs (blank rules) in
  g_indexes G = [] /\ i <> j /\ ruleset_at p j h /\ exec G X (AddRule i l) p = (Ok tt, p') /\ ruleset_at p' j h /\
  ~ In l (b_rules h) /\ s_rules (view p' h) = s_rules (view p h) /\
  s_stacked (view p h) = Some f /\ List.length (f_columns f) = List.length (s_rules (view p h)) /\
  s_stacked (view p' h) = Some f' /\ List.length (f_columns f') = S (List.length (s_rules (view p' h))).
Proof. exact frame_changes. Qed.
Print Assumptions C55_columns_refuted.

Theorem C55_rules_refuted : exists (G : setup) (X : texts) (rules : nat -> rule) (cs : list command) (i j : nat) (xs : table) (h : handle) (p' : pool) (a : activation),
  let p := exec_all G X cs (blank rules) in
  i <> j /\ ruleset_at p j h /\ exec G X (Calc i xs) p = (Ok tt, p') /\ ruleset_at p' j h /\
  s_act (view p' h) = Some a /\ raw a = Ok [1; 1; 0; 1] /\ s_act (view p h) = Some a /\
  map activation_vector (s_rules (view p h)) = [Ok (Some [1; 1; 0; 0]); Ok (Some [1; 0; 0; 1])] /\
  map activation_vector (s_rules (view p' h)) = [Ok (Some [1; 0]); Ok (Some [1; 0])].
Proof. exact rules_change. Qed.
Print Assumptions C55_rules_refuted.

Theorem C55_attributes : forall (G : setup) (X : texts) (c : command) (p p' : pool) (o : res unit) (j : nat) (h : handle),
  exec G X c p = (o, p') -> ruleset_at p j h -> ~ target c j ->
  ruleset_at p' j h /\ exists rules f, view p' h = with_rules rules (with_stacked f (view p h)) /\
    List.length rules = List.length (s_rules (view p h)) /\ (f = None <-> s_stacked (view p h) = None).
Proof. exact other_kept. Qed.
Print Assumptions C55_attributes.

Example C55_attributes_ex : ruleset_at worked 1 (handle_at twice 1) /\ s_act (view worked (handle_at twice 1)) = s_act (view twice (handle_at twice 1)).
Proof.
  destruct (C55_attributes loose ink (Calc 0 column) twice worked (Ok tt) 1 (handle_at twice 1)) as (A & rules & f & B & _).
  - apply ran. vm_compute. reflexivity.
  - vm_compute. reflexivity.
  - intros T. inversion T.
  - split; [exact A|]. rewrite B. apply own_activation.
Qed.

Theorem C55_same : forall (G : setup) (X : texts) (c : command) (p p' : pool) (o : res unit) (j : nat) (h : handle),
  exec G X c p = (o, p') -> in_use p -> ruleset_at p j h -> ~ target c j ->
  (forall l, In l (b_rules h) -> ~ changes G p c l) ->
  (forall i g k, adds c i -> ruleset_at p i g -> b_frame g = Some k -> b_frame h <> Some k) ->
  ruleset_at p' j h /\ view p' h = view p h.
Proof. exact other_same. Qed.
Print Assumptions C55_same.

Example C55_same_ex : view (snd (exec loose ink (Calc 0 column) disjoint)) (handle_at disjoint 1) = view disjoint (handle_at disjoint 1).
Proof.
  apply (C55_same loose ink (Calc 0 column) disjoint (snd (exec loose ink (Calc 0 column) disjoint)) (Ok tt) 1 (handle_at disjoint 1)).
  - apply ran. vm_compute. reflexivity.
  - apply from_blank.
  - vm_compute. reflexivity.
  - intros T. inversion T.
  - intros l I [(i & h & W & A & K)|(N & _)]; [|apply N; reflexivity]. inversion W; subst. vm_compute in A. injection A as <-. vm_compute in I, K.
    destruct K as [<-|[]]. destruct I as [I|[I|[]]]; discriminate I.
  - intros i g k A. inversion A.
Qed.

Theorem C55_taken : forall (G : setup) (X : texts) (p p' : pool) (i j k : nat) (h g : handle),
  exec G X (AddSet i j) p = (Ok tt, p') -> i <> j -> ruleset_at p i h -> ruleset_at p j g ->
  s_stack (view p h) = true -> set_available (view p g) = true -> b_frame h = None -> b_frame g = Some k ->
  exists h', ruleset_at p' i h' /\ ruleset_at p' j g /\ b_frame h' = Some k /\ b_frame g = Some k.
Proof. exact taken. Qed.
Print Assumptions C55_taken.

Example C55_taken_ex : let p := snd (exec loose ink (AddSet 0 1) apart) in
  exists h, ruleset_at p 0 h /\ ruleset_at p 1 (handle_at apart 1) /\ b_frame h = Some 0%nat.
Proof.
  cbv zeta. destruct (C55_taken loose ink apart (snd (exec loose ink (AddSet 0 1) apart)) 0 1 0 (handle_at apart 0) (handle_at apart 1)) as (h & A & B & C & _).
  - apply ran. vm_compute. reflexivity.
  - discriminate.
  - vm_compute. reflexivity.
  - vm_compute. reflexivity.
  - vm_compute. reflexivity.
  - vm_compute. reflexivity.
  - vm_compute. reflexivity.
  - vm_compute. reflexivity.
  - exists h. auto.
Qed.

Theorem C55_grows : forall (G : setup) (X : texts) (p p' : pool) (o : res unit) (i j l k : nat) (h g : handle),
  exec G X (AddRule i l) p = (o, p') -> i <> j -> ruleset_at p i h -> ruleset_at p j g -> b_frame h = Some k -> b_frame g = Some k ->
  ruleset_at p' j g /\
  s_stacked (view p' g) = s_stacked (snd (add_rule G (p_rules p l) (view p h))) /\
  (forall f, s_stacked (view p' g) = f -> view p' g = with_stacked f (view p g)).
Proof. exact shared_grows. Qed.
Print Assumptions C55_grows.

Example C55_grows_ex : columns_of (view grown (handle_at common 1)) = Some [name "a"; name "b"; name "c"].
Proof.
  destruct (C55_grows loose ink common grown (Ok tt) 0 1 2 0 (handle_at common 0) (handle_at common 1)) as (_ & A & _).
  - apply ran. vm_compute. reflexivity.
  - discriminate.
  - vm_compute. reflexivity.
  - vm_compute. reflexivity.
  - vm_compute. reflexivity.
  - vm_compute. reflexivity.
  - unfold columns_of. rewrite A. vm_compute. reflexivity.
Qed.

(** ** C155 *)

Theorem C155_isolated : forall (G : setup) (X : texts) (cs : list command) (p : pool) (j : nat) (h : handle),
  in_use p -> ruleset_at p j h -> alone p j h ->
  (forall c, In c cs -> ~ operand c j /\ forall l, In l (b_rules h) -> ~ argument c l) ->
  ruleset_at (exec_all G X cs p) j h /\ view (exec_all G X cs p) h = view p h /\ alone (exec_all G X cs p) j h.
Proof. exact isolated. Qed.
Print Assumptions C155_isolated.

Example C155_isolated_ex : let cs := [Calc 0 column; AddRule 0 3; PlusSet 0 0; DelActivations 2; AddSet 0 2; ToDf 0 true; Sort 0 None false; Predict 0 (Some column) None] in
  view (exec_all loose ink cs disjoint) (handle_at disjoint 1) = view disjoint (handle_at disjoint 1).
Proof.
  intros cs. apply (C155_isolated loose ink cs disjoint 1 (handle_at disjoint 1)).
  - apply from_blank.
  - vm_compute. reflexivity.
  - intros [|[|i]] g N A; vm_compute in A; [|contradiction|destruct i; discriminate A]. injection A as <-. split.
    + intros l I K. vm_compute in I, K. destruct K as [<-|[]]. destruct I as [I|[I|[]]]; discriminate I.
    + intros k K. discriminate K.
  - intros c I. vm_compute in I. repeat (destruct I as [<-|I]; [split; [intros O; inversion O as [? ? T| | | | |]; inversion T
      |intros l K R; vm_compute in K; destruct K as [<-|[<-|[]]]; inversion R]|]). destruct I.
Qed.

(** ** C156 *)

Theorem C156_additions : forall (G : setup) (X : texts) (cs : list command) (p : pool) (j : nat) (h : handle),
  in_use p -> separate p -> g_indexes G = [] -> ruleset_at p j h ->
  (forall c, In c cs -> ~ target c j /\ (forall i, ~ works_on c i) /\ (forall i k, c <> AddSet i k)) ->
  ruleset_at (exec_all G X cs p) j h /\ view (exec_all G X cs p) h = view p h.
Proof. exact additions_local. Qed.
Print Assumptions C156_additions.

Example C156_additions_ex : let cs := [AddRule 0 2; Slice 1 None None (Some (-1)); Append 2 2 true; PlusSet 0 1; PlusRule 1 2; DelStacked 0; Sort 0 None true; SetRules 0 [0]%nat] in
  view (exec_all loose ink cs twice) (handle_at twice 1) = view twice (handle_at twice 1).
Proof.
  intros cs. destruct (C156_additions loose ink cs twice 1 (handle_at twice 1)) as (_ & A); [| | | | |exact A].
  - apply from_blank.
  - apply from_blank. intros i j [E|[E|[]]]; discriminate E.
  - reflexivity.
  - vm_compute. reflexivity.
  - intros c I. vm_compute in I. repeat (destruct I as [<-|I]; [split; [intros T; inversion T|split; [intros i W; inversion W|discriminate]]|]).
    destruct I.
Qed.

Theorem C156_step : forall (G : setup) (X : texts) (c : command) (p p' : pool) (o : res unit) (j : nat) (h : handle),
  exec G X c p = (o, p') -> in_use p -> separate p -> g_indexes G = [] -> ruleset_at p j h ->
  ~ target c j -> (forall i, ~ works_on c i) ->
  ruleset_at p' j h /\ view p' h = view p h /\ (~ takes p c -> in_use p' /\ separate p').
Proof. exact additions_local_step. Qed.
Print Assumptions C156_step.

Example C156_step_ex : view (snd (exec loose ink (AddSet 0 1) twice)) (handle_at twice 1) = view twice (handle_at twice 1).
Proof.
  destruct (C156_step loose ink (AddSet 0 1) twice (snd (exec loose ink (AddSet 0 1) twice)) (Ok tt) 1 (handle_at twice 1)) as (_ & A & _);
    [| | | | | | |exact A].
  - apply ran. vm_compute. reflexivity.
  - apply from_blank.
  - apply from_blank. intros i j [E|[E|[]]]; discriminate E.
  - reflexivity.
  - vm_compute. reflexivity.
  - intros T. inversion T.
  - intros i W. inversion W.
Qed.

Theorem C156_separate : forall (G : setup) (X : texts) (cs : list command) (rules : nat -> rule),
  in_use (exec_all G X cs (blank rules)) /\ ((forall i j, ~ In (AddSet i j) cs) -> separate (exec_all G X cs (blank rules))).
Proof. exact from_blank. Qed.
Print Assumptions C156_separate.

Example C156_separate_ex : separate apart.
Proof. apply C156_separate. intros i j [E|[E|[]]]; discriminate E. Qed.

(** ** C157 *)

Theorem C157_acts : forall (G : setup) (X : texts) (c : command) (p p' : pool) (o o1 : res unit) (i : nat) (h : handle) (s' : ruleset),
  exec G X c p = (o, p') -> target c i -> ruleset_at p i h -> method_of G X p c (view p h) (o1, s') ->
  (works_on c i -> NoDup (b_rules h)) ->
  o = o1 /\ exists h', ruleset_at p' i h' /\ view p' h' = s'.
Proof. exact acts. Qed.
Print Assumptions C157_acts.

Example C157_acts_ex : exists h, ruleset_at worked 0 h /\ view worked h = snd (set_calc_activation loose column (view twice (handle_at twice 0))).
Proof.
  destruct (C157_acts loose ink (Calc 0 column) twice worked (Ok tt) (fst (set_calc_activation loose column (view twice (handle_at twice 0)))) 0 (handle_at twice 0)
    (snd (set_calc_activation loose column (view twice (handle_at twice 0))))) as (_ & h & A & B).
  - apply ran. vm_compute. reflexivity.
  - constructor.
  - vm_compute. reflexivity.
  - rewrite <- surjective_pairing. constructor.
  - intros _. vm_compute. repeat constructor; intros I; repeat (destruct I as [I|I]; try discriminate I); exact I.
  - exists h. auto.
Qed.

Theorem C157_makes : forall (G : setup) (X : texts) (c : command) (p p' : pool) (o : res unit) (m : res ruleset),
  exec G X c p = (o, p') -> made_of G p c m ->
  (forall e, m = Err e -> o = Err e /\ p' = p) /\
  (forall s, m = Ok s -> o = Ok tt /\ exists h, p_sets p' = p_sets p ++ [h] /\ view p' h = s).
Proof. exact makes. Qed.
Print Assumptions C157_makes.

Example C157_makes_ex : exists h s, p_sets (snd (exec loose ink (PlusRule 0 2) twice)) = p_sets twice ++ [h] /\
  plus_rule loose (view twice (handle_at twice 0)) (shelf 2) = Ok s /\ view (snd (exec loose ink (PlusRule 0 2) twice)) h = s.
Proof.
  destruct (C157_makes loose ink (PlusRule 0 2) twice (snd (exec loose ink (PlusRule 0 2) twice)) (Ok tt)
    (plus_rule loose (view twice (handle_at twice 0)) (shelf 2))) as (_ & A).
  - apply ran. vm_compute. reflexivity.
  - apply (D_plus_rule loose twice 0 2 (handle_at twice 0)). vm_compute. reflexivity.
  - destruct (A (set_of_rules loose false three)) as (_ & h & B & C); [vm_compute; reflexivity|].
    exists h, (set_of_rules loose false three). split; [exact B|]. split; [vm_compute; reflexivity|exact C].
Qed.

(** ** C182 *)

Theorem C182_fit_refuted : exists (G : setup) (X : texts) (rules : nat -> rule) (cs : list command) (i j : nat) (y : MetModel.target label) (xs : table)
    (h : handle) (p' : pool) (a b : list num),
  let p := exec_all G X cs (blank rules) in
  g_indexes G = [] /\ i <> j /\ ruleset_at p j h /\ exec G X (Fit i y false (Some xs) false options) p = (Ok tt, p') /\ ruleset_at p' j h /\
  fst (set_predict G (Some xs) None (view p h)) = Ok (Numbers a) /\
  fst (set_predict G (Some xs) None (view p' h)) = Ok (Numbers b) /\
  nth_error a 1 = Some (Fin (10 # 2)) /\ nth_error b 1 = Some (Fin (13 # 2)).
Proof. exact fit_elsewhere. Qed.
Print Assumptions C182_fit_refuted.

Theorem C182_predict_refuted : exists (G : setup) (X : texts) (rules : nat -> rule) (cs : list command) (i j : nat) (h : handle) (p' : pool),
  let p := exec_all G X cs (blank rules) in
  g_shared G = true /\ i <> j /\ ruleset_at p j h /\ exec G X (Predict i None None) p = (Ok tt, p') /\ ruleset_at p' j h /\
  map activation_vector (s_rules (view p h)) = [Ok (Some [1; 1; 0])] /\
  map activation_vector (s_rules (view p' h)) = [Ok (Some [2; 1; 1])].
Proof. exact predict_elsewhere. Qed.
Print Assumptions C182_predict_refuted.

(** ** C183 *)

Theorem C183_step : forall (G : setup) (X : texts) (c : command) (p p' : pool) (o : res unit) (l : nat),
  exec G X c p = (o, p') -> g_indexes G = [] ->
  r_kind (p_rules p' l) = r_kind (p_rules p l) /\ r_cond (p_rules p' l) = r_cond (p_rules p l).
Proof. exact exec_still. Qed.
Print Assumptions C183_step.

Example C183_step_ex : r_cond (p_rules refitted 1) = r_cond (goods 1) /\ r_fitted (p_rules refitted 1) = true.
Proof.
  split; [|vm_compute; reflexivity].
  destruct (C183_step loose ink (Fit 1 other_prices false (Some market) false options) street refitted (Ok tt) 1) as (_ & A).
  - apply ran. vm_compute. reflexivity.
  - reflexivity.
  - rewrite A. vm_compute. reflexivity.
Qed.

Theorem C183_history : forall (G : setup) (X : texts) (cs : list command) (p : pool) (l m : nat),
  g_indexes G = [] ->
  let p' := exec_all G X cs p in
  (forall H, rule_eq H (p_rules p' l) (p_rules p' m) = rule_eq H (p_rules p l) (p_rules p m)) /\
  (forall H, rule_hash H (p_rules p' l) = rule_hash H (p_rules p l)) /\
  (forall xs, evaluate_activation (p_rules p' l) xs = evaluate_activation (p_rules p l) xs).
Proof. exact history_rules. Qed.
Print Assumptions C183_history.

Example C183_history_ex : evaluate_activation (p_rules street 1) market = evaluate_activation (goods 1) market /\ r_fitted (p_rules street 1) = true.
Proof.
  split; [|vm_compute; reflexivity]. destruct (C183_history loose ink shops (blank goods) 1 1 eq_refl) as (_ & _ & A). exact (A market).
Qed.

Theorem C183_renumbered : forall (G : setup) (X : texts) (cs : list command) (p : pool) (l : nat),
  let r := p_rules p l in let r' := p_rules (exec_all G X cs p) l in
  r_kind r' = r_kind r /\ (r_cond r = None <-> r_cond r' = None) /\
  forall c c', r_cond r = Some c -> r_cond r' = Some c' ->
    c_names c' = c_names c /\ c_min c' = c_min c /\ c_max c' = c_max c /\ c_imp c' = c_imp c.
Proof. exact history_alike. Qed.
Print Assumptions C183_renumbered.

Example C183_renumbered_ex : let p := exec_all listed ink [Init [0; 1]%nat false false; Init [1; 0]%nat false false] (blank goods) in
  forall c, r_cond (p_rules p 0) = Some c -> exists d, r_cond (goods 0) = Some d /\ c_names c = c_names d /\ c_min c = c_min d /\
    c_idx c = Some [5] /\ c_idx d = Some [0].
Proof.
  intros p c C. destruct (C183_renumbered listed ink [Init [0; 1]%nat false false; Init [1; 0]%nat false false] (blank goods) 0) as (_ & N & A).
  destruct (r_cond (goods 0)) as [d|] eqn:D; [|vm_compute in D; discriminate D]. exists d. split; auto.
  destruct (A d c D C) as (B1 & B2 & _). split; auto. split; auto. split.
  - vm_compute in C. injection C as <-. reflexivity.
  - vm_compute in D. injection D as <-. reflexivity.
Qed.

(** ** C184 *)

Theorem C184_others : forall (G : setup) (X : texts) (cs : list command) (p : pool) (j : nat) (h : handle),
  in_use p -> ruleset_at p j h -> (forall c, In c cs -> ~ target c j /\ forall i, ~ adds c i) ->
  let p' := exec_all G X cs p in
  ruleset_at p' j h /\ s_stacked (view p' h) = s_stacked (view p h) /\
  view p' h = with_rules (map (p_rules p') (b_rules h)) (view p h).
Proof. exact history_frames. Qed.
Print Assumptions C184_others.

Example C184_others_ex : let cs := [Fit 0 target_prices false (Some market) false options; Sort 0 (Some "prediction") true; Predict 0 None None; PlusSet 0 1] in
  s_stacked (view (exec_all loose ink cs stalls) (handle_at stalls 1)) = s_stacked (view stalls (handle_at stalls 1)) /\
  s_stacked (view stalls (handle_at stalls 1)) <> None.
Proof.
  intros cs. split; [|vm_compute; discriminate]. apply (C184_others loose ink cs stalls 1 (handle_at stalls 1)).
  - apply from_blank.
  - vm_compute. reflexivity.
  - intros c I. vm_compute in I. repeat (destruct I as [<-|I]; [split; [intros T; inversion T|intros i W; inversion W]|]). destruct I.
Qed.

(** ** C185 *)

Theorem C185_fit_keeps : forall (G : setup) (X : texts) (p p' : pool) (i k : nat) (y : MetModel.target label) (series force : bool) (kw : keywords) (h h' : handle),
  exec G X (Fit i y series None force kw) p = (Ok tt, p') -> ruleset_at p i h -> b_frame h = Some k ->
  ruleset_at p' i h' -> List.length (b_rules h') = List.length (b_rules h) ->
  b_frame h' = Some k.
Proof. exact fit_keeps_frame. Qed.
Print Assumptions C185_fit_keeps.

Example C185_fit_keeps_ex : b_frame (handle_at priced 1) = Some 0%nat /\ b_frame (handle_at stalls 1) = Some 0%nat.
Proof.
  split; [|vm_compute; reflexivity].
  apply (C185_fit_keeps loose ink stalls priced 1 0 target_prices false false options (handle_at stalls 1) (handle_at priced 1)).
  - apply ran. vm_compute. reflexivity.
  - vm_compute. reflexivity.
  - vm_compute. reflexivity.
  - vm_compute. reflexivity.
  - vm_compute. reflexivity.
Qed.

Theorem C185_eval_keeps : forall (G : setup) (X : texts) (p p' : pool) (i k : nat) (y : MetModel.target label) (xs : option table) (keep_new : bool)
    (w : option weighting) (force : bool) (kw : keywords) (h h' : handle) (a : activation),
  exec G X (Eval i y xs keep_new w force kw) p = (Ok tt, p') -> ruleset_at p i h -> b_frame h = Some k ->
  xs = None \/ keep_new = false /\ (forall r, In r (s_rules (view p h)) -> r_fitted r = true) ->
  g_stacked G = true \/ s_act (view p h) = Some a /\ alen a <> 0 ->
  ruleset_at p' i h' -> List.length (b_rules h') = List.length (b_rules h) ->
  b_frame h' = Some k.
Proof. exact eval_keeps_frame. Qed.
Print Assumptions C185_eval_keeps.

Example C185_eval_keeps_ex : let p := snd (exec loose ink (Eval 1 target_prices (Some market) false None false options) priced) in
  b_frame (handle_at p 1) = Some 0%nat.
Proof.
  intros p. apply (C185_eval_keeps loose ink priced p 1 0 target_prices (Some market) false None false options (handle_at priced 1) (handle_at p 1)
    (activation_or (view priced (handle_at priced 1)))).
  - apply ran. vm_compute. reflexivity.
  - vm_compute. reflexivity.
  - vm_compute. reflexivity.
  - right. split; [reflexivity|]. intros r I. vm_compute in I. destruct I as [<-|[<-|[]]]; reflexivity.
  - right. split; [vm_compute; reflexivity|vm_compute; discriminate].
  - vm_compute. reflexivity.
  - vm_compute. reflexivity.
Qed.

Theorem C185_predict_keeps : forall (G : setup) (X : texts) (p p' : pool) (o : res unit) (i : nat) (xs : option table) (w : option weighting) (h : handle),
  exec G X (Predict i xs w) p = (o, p') -> ruleset_at p i h ->
  exists h', ruleset_at p' i h' /\ b_rules h' = b_rules h /\ b_frame h' = b_frame h.
Proof. exact predict_keeps_frame. Qed.
Print Assumptions C185_predict_keeps.

Example C185_predict_keeps_ex : let p := snd (exec loose ink (Predict 1 None None) priced) in
  exists h, ruleset_at p 1 h /\ b_rules h = [1; 2]%nat /\ b_frame h = Some 0%nat.
Proof.
  intros p. destruct (C185_predict_keeps loose ink priced p (Ok tt) 1 None None (handle_at priced 1)) as (h & A & B & C).
  - apply ran. vm_compute. reflexivity.
  - vm_compute. reflexivity.
  - exists h. split; [exact A|]. split; [rewrite B|rewrite C]; vm_compute; reflexivity.
Qed.

Theorem C185_fit_new : forall (G : setup) (X : texts) (p p' : pool) (i : nat) (y : MetModel.target label) (series : bool) (t : table) (force : bool) (kw : keywords) (h h' : handle),
  exec G X (Fit i y series (Some t) force kw) p = (Ok tt, p') -> in_use p -> ruleset_at p i h -> s_rules (view p h) <> [] -> nrows t <> O ->
  g_stacked G = true \/ s_stack (view p h) = true ->
  ruleset_at p' i h' -> forall k, b_frame h' = Some k -> (p_next p <= k)%nat.
Proof. exact fit_new_frame. Qed.
Print Assumptions C185_fit_new.

Example C185_fit_new_ex : let p := snd (exec loose ink (Fit 1 other_prices false (Some market) false options) priced) in
  exists k, b_frame (handle_at p 1) = Some k /\ (1 <= k)%nat.
Proof.
  intros p. assert (A : exec loose ink (Fit 1 other_prices false (Some market) false options) priced = (Ok tt, p)) by (apply ran; vm_compute; reflexivity).
  exists 1%nat. assert (B : b_frame (handle_at p 1) = Some 1%nat) by (vm_compute; reflexivity). split; [exact B|].
  apply (C185_fit_new loose ink priced p 1 other_prices false market false options (handle_at priced 1) (handle_at p 1) A); [..|exact B].
  - exact priced_use.
  - vm_compute. reflexivity.
  - vm_compute. discriminate.
  - vm_compute. discriminate.
  - right. vm_compute. reflexivity.
  - vm_compute. reflexivity.
Qed.

Theorem C185_eval_new : forall (G : setup) (X : texts) (p p' : pool) (i : nat) (y : MetModel.target label) (t : table) (keep_new : bool) (w : option weighting) (force : bool)
    (kw : keywords) (h h' : handle),
  exec G X (Eval i y (Some t) keep_new w force kw) p = (Ok tt, p') -> in_use p -> ruleset_at p i h -> s_rules (view p h) <> [] -> nrows t <> O ->
  keep_new = true \/ (exists r, In r (s_rules (view p h)) /\ r_fitted r = false) ->
  g_stacked G = true \/ s_stack (view p h) = true ->
  ruleset_at p' i h' -> forall k, b_frame h' = Some k -> (p_next p <= k)%nat.
Proof. exact eval_new_frame. Qed.
Print Assumptions C185_eval_new.

Example C185_eval_new_ex : let p := snd (exec loose ink (Eval 1 target_prices (Some market) true None false options) priced) in
  exists k, b_frame (handle_at p 1) = Some k /\ (1 <= k)%nat.
Proof.
  intros p. assert (A : exec loose ink (Eval 1 target_prices (Some market) true None false options) priced = (Ok tt, p)) by (apply ran; vm_compute; reflexivity).
  exists 1%nat. assert (B : b_frame (handle_at p 1) = Some 1%nat) by (vm_compute; reflexivity). split; [exact B|].
  apply (C185_eval_new loose ink priced p 1 target_prices market true None false options (handle_at priced 1) (handle_at p 1) A); [..|exact B].
  - exact priced_use.
  - vm_compute. reflexivity.
  - vm_compute. discriminate.
  - vm_compute. discriminate.
  - left. reflexivity.
  - right. vm_compute. reflexivity.
  - vm_compute. reflexivity.
Qed.

Theorem C185_sort : forall (G : setup) (X : texts) (p p' : pool) (i : nat) (c : option string) (reverse : bool) (h : handle) (r : rule) (l : list rule),
  exec G X (Sort i c reverse) p = (Ok tt, p') -> in_use p -> ruleset_at p i h -> s_rules (view p h) = r :: l ->
  (c = None \/ c = Some "" -> has_condition r = true) ->
  exists h', ruleset_at p' i h' /\
    (s_stack (view p h) = false -> b_frame h' = b_frame h) /\
    (s_stack (view p h) = true -> forall k, b_frame h' = Some k -> (p_next p <= k)%nat).
Proof. exact sort_frame_any. Qed.
Print Assumptions C185_sort.

Example C185_sort_ex : let p := snd (exec loose ink (Sort 1 None true) priced) in
  exists h, ruleset_at p 1 h /\ b_rules h = [2; 1]%nat /\ b_frame h <> Some 0%nat.
Proof.
  intros p. destruct (C185_sort loose ink priced p 1 None true (handle_at priced 1) (p_rules priced 1) [p_rules priced 2]) as (h & A & _ & B).
  - apply ran. vm_compute. reflexivity.
  - exact priced_use.
  - vm_compute. reflexivity.
  - vm_compute. reflexivity.
  - intros _. vm_compute. reflexivity.
  - exists h. split; [exact A|]. split.
    + assert (C : option_map b_rules (nth_error (p_sets p) 1) = Some [2; 1]%nat) by (vm_compute; reflexivity). unfold ruleset_at in A. rewrite A in C. injection C as C. exact C.
    + intros C. assert (ST : s_stack (view priced (handle_at priced 1)) = true) by (vm_compute; reflexivity). specialize (B ST 0%nat C). vm_compute in B. inversion B.
Qed.

Example C185_sort_ex2 : let p := snd (exec loose ink (Sort 1 (Some "coverage") true) priced) in
  exists h, ruleset_at p 1 h /\ b_frame h <> Some 0%nat.
Proof.
  intros p. destruct (C185_sort loose ink priced p 1 (Some "coverage") true (handle_at priced 1) (p_rules priced 1) [p_rules priced 2]) as (h & A & _ & B).
  - apply ran. vm_compute. reflexivity.
  - exact priced_use.
  - vm_compute. reflexivity.
  - vm_compute. reflexivity.
  - intros [E|E]; discriminate E.
  - exists h. split; [exact A|]. intros C. assert (ST : s_stack (view priced (handle_at priced 1)) = true) by (vm_compute; reflexivity).
    specialize (B ST 0%nat C). vm_compute in B. inversion B.
Qed.

