(** Concrete rulesets: witnesses against the properties that fit and eval do not
    have, and instances for the examples of FitProps.v. *)
From Coq Require Import List ZArith QArith Bool String Ascii Lia Lqa Permutation.
From Coq Require Import List.
From Verif Require Import Base Num Arith CondModel CondSpec CondBase CondMore CondProofs CondWit ThrModel ThrSpec ThrProofs ThrWit
  MetModel MetSpec MetWit RuleModel RuleSpec RuleProofs RuleMisc RuleWit PredModel PredSpec PredReg PredMisc PredName PredWit
  SetModel SetSpec SetBase SetAct SetAdd SetMisc SetWit FitModel FitSpec FitDrop FitMain FitEval.
Import ListNotations.
Open Scope string_scope.
Open Scope list_scope.
Open Scope Z_scope.

(** ** A hashing without collisions that can be computed *)

Fixpoint emit (p acc : positive) : positive :=
  match p with
  | xH => xO (xO acc)
  | xO p => xO (xI (emit p acc))
  | xI p => xI (xI (emit p acc))
  end.

Fixpoint emits (l : list positive) : positive :=
  match l with
  | [] => xI (xO xH)
  | p :: t => emit p (emits t)
  end.

Definition natural (z : Z) : positive :=
  match z with Z0 => xH | Zpos p => xO p | Zneg p => xI p end.

Definition letter (c : ascii) : positive := Pos.of_succ_nat (nat_of_ascii c).

Definition binary : hashing := {|
  h_str s := Zpos (xO (emits (map letter (list_ascii_of_string s))));
  h_frac q := 0;
  h_nan := 0;
  h_tuple l := Zpos (xI (emits (map natural l)));
  h_set l := Zpos (emits (map natural (sorted Z.ltb l))) |}.

Lemma emit_inj p : forall q a b, emit p a = emit q b -> p = q /\ a = b.
Proof.
  induction p as [p IH|p IH|]; intros [q|q|] a b E; cbn in E; try discriminate; injection E as E.
  - destruct (IH _ _ _ E). subst. auto.
  - destruct (IH _ _ _ E). subst. auto.
  - auto.
Qed.

Lemma emit_end p a : emit p a <> xI (xO xH).
Proof. destruct p; discriminate. Qed.

Lemma emits_inj l : forall m, emits l = emits m -> l = m.
Proof.
  induction l as [|p l IH]; intros [|q m] E; auto; cbn [emits] in E.
  - symmetry in E. destruct (emit_end _ _ E).
  - destruct (emit_end _ _ E).
  - apply emit_inj in E as (-> & E). f_equal. auto.
Qed.

Lemma natural_inj a b : natural a = natural b -> a = b.
Proof. destruct a, b; cbn; congruence. Qed.

Lemma letter_inj a b : letter a = letter b -> a = b.
Proof.
  unfold letter. intros E. apply SuccNat2Pos.inj in E. rewrite <- (ascii_nat_embedding a), <- (ascii_nat_embedding b). congruence.
Qed.

Lemma binary_unordered : unordered binary.
Proof. intros l l' P. cbn. rewrite (sorted_canonical l l' P). auto. Qed.

Lemma binary_collision_free : collision_free binary.
Proof.
  repeat split.
  - intros s t E. cbn [h_str binary] in E. injection E as E. apply emits_inj, map_inj in E; [|apply letter_inj].
    rewrite <- (string_of_list_ascii_of_string s), <- (string_of_list_ascii_of_string t). congruence.
  - intros l l' E. cbn [h_tuple binary] in E. injection E as E. apply emits_inj in E. apply map_inj in E; [auto|apply natural_inj].
  - intros l l' E. cbn [h_set binary] in E. injection E as E. apply emits_inj in E. apply map_inj in E; [|apply natural_inj].
    rewrite <- (sorted_perm Z.ltb l), E. apply sorted_perm.
  - intros l s E. cbn [h_str h_tuple binary] in E. discriminate.
Qed.

(** ** A ruleset of three rules on three features; predictions may not exceed 4. *)

Definition capped : env :=
  world (SET_THRESHOLDS KRegression (Some (Some [("prediction", [("max", XNum (numz 4))])])) untouched).

Definition market : table := TArray 3 [[numz 3; numz 1; numz 9]; [numz 9; numz 3; numz 9]; [numz 4; numz 4; numz 3]; [numz 5; numz 9; numz 4]].

Definition on (k : kind) (s : string) (i : Z) : rule :=
  regression_dict (mkRule k (Some (raw_cond [side s i 2 5])) None None true None false false (initial_dict k)).

Definition single : setup := mkSetup capped binary quoted false false [] false.
Definition joint : setup := mkSetup capped binary quoted false true [] false.

Definition stock (k : kind) : ruleset := set_of_rules single false [on k "x" 0; on k "y" 1; on k "z" 2].
Definition loose : setup := mkSetup free binary quoted false false [] false.
Definition fitted_stock : ruleset := snd (set_fit loose target_prices false (Some market) false options (stock KRegression)).

Definition evaluated_stock : ruleset := snd (set_eval loose target_prices (Some market) true None false options fitted_stock).

Lemma stock_made k : new_set single (Some (map ERule [on k "x" 0; on k "y" 1; on k "z" 2])) true false = Ok (stock k).
Proof. destruct k; vm_compute; reflexivity. Qed.

Lemma on_regular k s i : 0 <= i -> regular (on k s i).
Proof.
  intros P. exists (raw_cond [side s i 2 5]), [side s i 2 5]. split; [destruct k; reflexivity|]. split.
  - apply raw_cond_ok. split; cbn; (constructor; [auto|constructor]).
  - intros f [<-|[]]. exists 2, 5. split; [reflexivity|]. split; [reflexivity|]. split; [reflexivity|]. split; [reflexivity|]. split; discriminate.
Qed.

(** ** A bad rule takes an equal one along *)

Definition spoilt : rule := snd (RuleModel.fit strict target_prices (Some points) false options (on KRegression "x" 0)).
Definition twins : ruleset := set_of_rules loose false [spoilt; on KRegression "x" 0].

Lemma twin_lost : exists G y ys xs kw s r r' dropped s',
  unordered (g_hash G) /\ collision_free (g_hash G) /\ g_stacked G = false /\ fits_something s xs kw /\
  (forall q, In q (s_rules s) -> regular q) /\ is_target y ys /\
  set_fit G y false xs false kw s = (Ok dropped, s') /\
  In r (s_rules s) /\ RuleModel.fit (g_env G) y xs false kw r = (Ok tt, r') /\ is_good r /\ is_good r' /\
  s_rules s' = [] /\ ~ In r' dropped.
Proof.
  exists loose, target_prices, (map LNum prices), (Some points), options, twins, (on KRegression "x" 0),
    (snd (RuleModel.fit free target_prices (Some points) false options (on KRegression "x" 0))). eexists _, _.
  split; [apply binary_unordered|]. split; [apply binary_collision_free|]. split; [reflexivity|].
  split. { split; [split; [left; vm_compute; reflexivity|reflexivity]|]. split; [discriminate|]. split; [discriminate|discriminate]. }
  split. { replace (s_rules twins) with [spoilt; on KRegression "x" 0] by (vm_compute; reflexivity). intros q [<-|[<-|[]]]; [|apply on_regular; lia].
    destruct (on_regular KRegression "x" 0) as (c & fs & C & R); [lia|]. exists c, fs. split; auto. }
  split; [left; reflexivity|]. split; [vm_compute; reflexivity|].
  split. { replace (s_rules twins) with [spoilt; on KRegression "x" 0] by (vm_compute; reflexivity). right. left. auto. }
  split; [vm_compute; reflexivity|]. split; [vm_compute; reflexivity|]. split; [vm_compute; reflexivity|]. split; [reflexivity|].
  intros [K|[]]. vm_compute in K. discriminate K.
Qed.

(** ** Bad rules that stay *)

Lemma all_good s : forallb r_good (s_rules s) = true -> forall q, In q (s_rules s) -> is_good q.
Proof. intros H q I. rewrite forallb_forall in H. apply is_good_spec. auto. Qed.

Lemma bad_stay_fitted : exists G y xs kw s r s', g_stacked G = false /\ learner s kw /\
  set_fit G y false xs false kw s = (Ok [], s') /\ In r (s_rules s') /\ is_bad r.
Proof.
  exists single, target_prices, None, options, (set_of_rules loose false [spoilt]), spoilt. eexists. split; [reflexivity|].
  split; [split; [left; vm_compute; reflexivity|reflexivity]|]. split; [vm_compute; reflexivity|]. split; [left; vm_compute; reflexivity|vm_compute; reflexivity].
Qed.

Lemma bad_stay_eval : exists G y xs kw s r s', g_stacked G = true /\ evaluates_something s xs kw /\
  (forall q, In q (s_rules s) -> is_good q) /\ set_eval G y xs true None false kw s = (Ok [], s') /\ In r (s_rules s') /\ is_bad r.
Proof.
  set (s' := snd (set_eval joint target_prices (Some market) true None false options fitted_stock)).
  exists joint, target_prices, (Some market), options, fitted_stock, (nth 1 (s_rules s') (on KRegression "x" 0)), s'. split; [reflexivity|].
  split. { split; [split; [left; vm_compute; reflexivity|reflexivity]|]. split; [vm_compute; discriminate|]. split; [discriminate|discriminate]. }
  split; [apply all_good; vm_compute; reflexivity|].
  split; [vm_compute; reflexivity|]. split; [apply nth_In; vm_compute; lia|vm_compute; reflexivity].
Qed.

(** The coverage is at least one half. *)
Definition covering : setup :=
  mkSetup (world (SET_THRESHOLDS KRegression (Some (Some [("coverage", [("min", XNum (Fin (1 # 2)))])])) untouched)) binary quoted false true [] false.

Definition narrow : rule := with_act (Some (new_activation [0; 0; 0; 1])) (on KRegression "x" 0).
Definition narrow_set : ruleset := set_of_rules loose false [narrow].

Lemma bad_stay_stacked : exists G y xs kw s r s', g_stacked G = true /\ fits_something s xs kw /\
  (forall q, In q (s_rules s) -> is_good q) /\ set_fit G y false xs false kw s = (Ok [], s') /\ In r (s_rules s') /\ is_bad r.
Proof.
  set (s' := snd (set_fit covering target_prices false None false options narrow_set)).
  exists covering, target_prices, None, options, narrow_set, (nth 0 (s_rules s') (on KRegression "x" 0)), s'. split; [reflexivity|].
  split. { split; [split; [left; vm_compute; reflexivity|reflexivity]|]. split; [vm_compute; discriminate|]. split; [exact I|].
    intros _. exists narrow. split; [left; vm_compute; reflexivity|reflexivity]. }
  split; [apply all_good; vm_compute; reflexivity|].
  split; [vm_compute; reflexivity|]. split; [apply nth_In; vm_compute; lia|vm_compute; reflexivity].
Qed.

(** ** The rules dropped come several times *)

Lemma dropped_often : exists G y xs kw s r s', g_stacked G = true /\ fits_something s xs kw /\
  set_fit G y false xs false kw s = (Ok [r; r; r; r], s') /\ List.length (s_rules s) = 3%nat /\ List.length (s_rules s') = 2%nat.
Proof.
  exists joint, target_prices, (Some market), options, (stock KRegression). eexists _, _. split; [reflexivity|].
  split. { split; [split; [left; vm_compute; reflexivity|reflexivity]|]. split; [vm_compute; discriminate|]. split; [discriminate|discriminate]. }
  split; [vm_compute; reflexivity|]. split; reflexivity.
Qed.

(** ** The names of the features *)

Lemma names_stay : exists G y xs kw s r s', g_stacked G = false /\
  (forall f, In f (s_names s) <-> feature_name (s_rules s) f) /\
  set_fit G y false xs false kw s = (Ok [r], s') /\ In "y" (s_names s') /\ ~ feature_name (s_rules s') "y".
Proof.
  exists single, target_prices, (Some market), options, (stock KRegression). eexists _, _. split; [reflexivity|].
  split. { replace (s_names (stock KRegression)) with ["x"; "y"; "z"] by (vm_compute; reflexivity).
    replace (s_rules (stock KRegression)) with [on KRegression "x" 0; on KRegression "y" 1; on KRegression "z" 2] by (vm_compute; reflexivity).
    intros f. split.
    - intros [<-|[<-|[<-|[]]]]; [exists (on KRegression "x" 0)|exists (on KRegression "y" 1)|exists (on KRegression "z" 2)]; eexists _, _;
        (split; [cbn [In]; auto|split; [reflexivity|split; [reflexivity|left; reflexivity]]]).
    - intros (r & c & l & I & C & L & J). destruct I as [<-|[<-|[<-|[]]]]; cbn in C; injection C as <-; cbn in L; injection L as <-;
        destruct J as [<-|[]]; cbn [In f_name side]; auto. }
  split; [vm_compute; reflexivity|]. split; [left; reflexivity|].
  intros (r & c & l & I & C & L & J). destruct I as [<-|[<-|[]]]; cbn in C; injection C as <-; cbn in L; injection L as <-;
    destruct J as [J|[]]; discriminate.
Qed.

(** ** The activation after eval *)

Lemma activation_lost : exists G y xs kw s r s', g_stacked G = false /\ evaluates_something s xs kw /\
  set_vector s = Ok (Some [1; 1; 1; 1]) /\
  set_eval G y xs false None false kw s = (Ok [r], s') /\ set_vector s' = Ok (Some [0; 0; 0; 0]) /\
  map (fun r => fst (getattr r "activation", tt)) (s_rules s') = [Ok (OInts [1; 0; 1; 1]); Ok (OInts [0; 0; 1; 1])].
Proof.
  exists single, target_prices, (Some market), options, fitted_stock. eexists _, _. split; [reflexivity|].
  split. { split; [split; [left; vm_compute; reflexivity|reflexivity]|]. split; [vm_compute; discriminate|]. split; [discriminate|discriminate]. }
  split; [vm_compute; reflexivity|]. split; [vm_compute; reflexivity|]. split; vm_compute; reflexivity.
Qed.

(** ** A fit that raises *)

Definition thin : table := TArray 1 [[numz 3]; [numz 9]; [numz 4]; [numz 5]].

Lemma stack_left_on : exists G y xs kw s e s', g_stacked G = true /\ fits_something s xs kw /\ s_stack s = false /\
  set_fit G y false xs false kw s = (Err e, s') /\ s_stack s' = true.
Proof.
  exists joint, target_prices, (Some thin), options, (stock KRegression). eexists _, _. split; [reflexivity|].
  split. { split; [split; [left; vm_compute; reflexivity|reflexivity]|]. split; [vm_compute; discriminate|]. split; [discriminate|discriminate]. }
  split; [vm_compute; reflexivity|]. split; vm_compute; reflexivity.
Qed.

(** ** A criterion without rules *)

Definition forbidding : setup :=
  mkSetup (world (SET_THRESHOLDS KRegression (Some (Some [("prediction", [("max", XNum (numz 0))])])) untouched)) binary quoted false false [] false.

Lemma criterion_left : exists G y xs kw s dropped s' x, g_stacked G = false /\ evaluates_something s xs kw /\
  s_criterion s = number (Fin x) /\ set_eval G y xs false None false kw s = (Ok dropped, s') /\
  s_rules s' = [] /\ s_criterion s' = number (Fin x).
Proof.
  exists forbidding, target_prices, (Some market), options, evaluated_stock. eexists _, _, _. split; [reflexivity|].
  split. { split; [split; [left; vm_compute; reflexivity|reflexivity]|]. split; [vm_compute; discriminate|]. split; [discriminate|discriminate]. }
  split; [vm_compute; reflexivity|]. split; [vm_compute; reflexivity|]. split; vm_compute; reflexivity.
Qed.

(** ** STACKED_FIT changes the standard deviations *)

Definition lone : table := TArray 3 [[numz 3; numz 1; numz 9]; [numz 9; numz 3; numz 9]; [numz 9; numz 4; numz 3]; [numz 9; numz 9; numz 4]].

Lemma std_differs : exists G y xs kw s s1 s2 r1 r2, g_stacked G = false /\ made G false s /\
  set_fit G y false xs false kw s = (Ok [], s1) /\
  set_fit (mkSetup (g_env G) (g_hash G) (g_quote G) (g_check G) true (g_indexes G) (g_shared G)) y false xs false kw s = (Ok [], s2) /\
  nth_error (s_rules s1) 0 = Some r1 /\ nth_error (s_rules s2) 0 = Some r2 /\
  getattr r1 "activation" = getattr r2 "activation" /\
  getattr r1 "std" = Ok (number (Fin 0)) /\ getattr r2 "std" = Ok (number NaN).
Proof.
  exists loose, target_prices, (Some lone), options, (stock KRegression). eexists _, _, _, _. split; [reflexivity|].
  split. { eapply (made_new loose false (Some (map ERule [on KRegression "x" 0; on KRegression "y" 1; on KRegression "z" 2])) false). vm_compute. reflexivity. }
  split; [vm_compute; reflexivity|]. split; [vm_compute; reflexivity|].
  split; [reflexivity|]. split; [reflexivity|]. split; [vm_compute; reflexivity|]. split; vm_compute; reflexivity.
Qed.

(** ** Instances *)

Definition default : rule := on KRegression "x" 0.
Definition nth_rule (s : ruleset) (i : nat) : rule := nth i (s_rules s) default.

Definition on_features (names : list (string * Z)) (rules : list rule) : Prop :=
  Forall2 (fun p r => r_cond r = Some (raw_cond [side (fst p) (snd p) 2 5])) names rules.

Lemma features_by names rules : map r_cond rules = map (fun p => Some (raw_cond [side (fst p) (snd p) 2 5])) names -> on_features names rules.
Proof.
  revert rules. induction names as [|p names IH]; intros [|r rules] E; try discriminate; [constructor|]. cbn [map] in E. constructor.
  - congruence.
  - apply IH. congruence.
Qed.

Definition three_features : list (string * Z) := [("x", 0); ("y", 1); ("z", 2)].

Lemma features_regular names rules : (forall p, In p names -> 0 <= snd p) -> on_features names rules -> forall r, In r rules -> regular r.
Proof.
  intros P F r I. destruct (forall2_in _ _ _ F) as (_ & X). destruct (X r I) as ((s, i) & J & C). cbn [fst snd] in C.
  destruct (on_regular KRegression s i (P _ J)) as (c & fs & D & R). exists c, fs. split; auto. cbn in D. congruence.
Qed.

Lemma three_indexes : forall p, In p three_features -> 0 <= snd p.
Proof. intros p [<-|[<-|[<-|[]]]]; cbn; lia. Qed.

Lemma stock_features k : on_features three_features (s_rules (stock k)).
Proof. destruct k; apply features_by; vm_compute; reflexivity. Qed.

Lemma fitted_features : on_features three_features (s_rules fitted_stock).
Proof. apply features_by; vm_compute; reflexivity. Qed.

Lemma stock_regular k r : In r (s_rules (stock k)) -> regular r.
Proof. apply (features_regular _ _ three_indexes (stock_features k)). Qed.

Lemma fitted_regular r : In r (s_rules fitted_stock) -> regular r.
Proof. apply (features_regular _ _ three_indexes fitted_features). Qed.

Lemma different_by_hash r q : regular r -> regular q -> rule_eq binary r q = Ok false -> ~ same_rule r q.
Proof.
  intros R Q E S. destruct (rule_eq_same binary r q binary_unordered binary_collision_free R Q) as (b & B & X).
  apply X in S. congruence.
Qed.

Lemma three_different rules : on_features three_features rules -> all_different rules.
Proof.
  intros F. assert (R := features_regular _ _ three_indexes F). inversion F as [|a x l l1 X F1]; subst. inversion F1 as [|b y m l2 Y F2]; subst.
  inversion F2 as [|c z n l3 W F3]; subst. inversion F3; subst. cbn [fst snd] in *.
  assert (D : forall p q i j r r', r_cond r = Some (raw_cond [side p i 2 5]) -> r_cond r' = Some (raw_cond [side q j 2 5]) ->
    rule_eq binary (on KRegression p i) (on KRegression q j) = Ok false -> In r [x; y; z] -> In r' [x; y; z] -> ~ same_rule r r').
  { intros p q i j r r' C C' E I J. apply different_by_hash; auto. unfold rule_eq in *. rewrite C, C'. exact E. }
  constructor; [apply Forall_cons; [|apply Forall_cons; [|apply Forall_nil]]|constructor; [apply Forall_cons; [|apply Forall_nil]|constructor; [apply Forall_nil|constructor]]].
  - apply (D "x" "y" 0 1); [auto|auto|vm_compute; reflexivity|cbn; auto|cbn; auto].
  - apply (D "x" "z" 0 2); [auto|auto|vm_compute; reflexivity|cbn; auto|cbn; auto].
  - apply (D "y" "z" 1 2); [auto|auto|vm_compute; reflexivity|cbn; auto|cbn; auto].
Qed.

Definition label_of (s : string) (i : Z) : string := String.concat " AND " (map (printed digits) [side s i 2 5]).

Definition market_columns : list (string * list Z) :=
  [(label_of "x" 0, [1; 0; 1; 1]); (label_of "y" 1, [0; 1; 1; 0]); (label_of "z" 2, [0; 0; 1; 1])].

Lemma market_vectors E rules : e_repr E = digits -> on_features three_features rules -> vectors E (Some market) rules 4 market_columns.
Proof.
  intros D F. split; [|split; [|lia]].
  - inversion F as [|a x l l1 X F1]; subst. inversion F1 as [|b y m l2 Y F2]; subst.
    inversion F2 as [|c z n l3 W F3]; subst. inversion F3; subst. cbn [fst snd] in *.
    assert (Q : forall s i r v, r_cond r = Some (raw_cond [side s i 2 5]) -> evaluate (raw_cond [side s i 2 5]) market = Ok v -> bits v -> List.length v = 4%nat ->
      called E r (label_of s i) /\ working r (Some market) v /\ bits v /\ List.length v = 4%nat).
    { intros s i r v C V B L. split; [|split; auto; exists (raw_cond [side s i 2 5]); auto].
      exists (raw_cond [side s i 2 5]), [side s i 2 5]. split; auto. split; [apply raw_cond_ok; split; cbn; (constructor; [auto|constructor])|].
      split; [discriminate|]. unfold label_of. rewrite D. auto. }
    apply Forall2_cons; [|apply Forall2_cons; [|apply Forall2_cons; [|apply Forall2_nil]]]; cbn [fst snd]; (apply Q; [auto|vm_compute; reflexivity|bit_by_bit|reflexivity]).
  - distinct.
Qed.

Lemma market_ready E s : e_repr E = digits -> on_features three_features (s_rules s) -> ready E (Some market) s 4 market_columns.
Proof. intros D F. split; [apply market_vectors; auto|discriminate]. Qed.

Lemma market_fits s : learner s options -> s_rules s <> [] -> fits_something s (Some market) options.
Proof. intros L N. split; auto. split; auto. split; [discriminate|discriminate]. Qed.

Lemma market_evaluates s : learner s options -> s_rules s <> [] -> evaluates_something s (Some market) options.
Proof. intros L N. split; auto. split; auto. split; [discriminate|discriminate]. Qed.

Definition shades : list label := [LText "red"; LText "red"; LText "red"; LText "blue"].
Definition plain_options : keywords := mkKw false 3 None.
Definition fitted_shades : ruleset := snd (set_fit joint (YVector shades) false (Some market) false plain_options (stock KClassification)).

Lemma shades_features : on_features three_features (s_rules fitted_shades).
Proof. apply features_by; vm_compute; reflexivity. Qed.

Lemma shades_clear : clear_classes shades market_columns.
Proof.
  intros n act H.
  assert (K : act = [1; 0; 1; 1] \/ act = [0; 1; 1; 0] \/ act = [0; 0; 1; 1]).
  { destruct H as [H|[H|[H|[]]]]; apply (f_equal snd) in H; cbn [snd] in H; auto. }
  clear H.
  assert (Q : forall l, (forall c, In c l -> c = LText "red" \/ c = LText "blue") -> MetSpec.classes l /\ forall c, In c l -> c <> LText "" /\ c <> LText "zero").
  { intros l A. split.
    - right. intros c I. destruct (A c I) as [-> | ->]; eauto.
    - intros c I. destruct (A c I) as [-> | ->]; split; discriminate. }
  destruct K as [-> |[-> | ->]];
    [exists [LText "red"; LText "red"; LText "blue"]|exists [LText "red"; LText "red"]|exists [LText "red"; LText "blue"]];
    (split; [repeat (apply picks_off || (apply picks_on; [discriminate|]) || apply picks_nil)|]; split; [discriminate|];
     apply Q; cbn; intros c I; repeat destruct I as [<-|I]; try destruct I; auto).
Qed.

Definition dropped_of (p : res (list rule) * ruleset) : list rule := match fst p with Ok l => l | Err _ => [] end.

(** fit and eval of the three rules, one by one and together *)
Definition fit_one := set_fit single target_prices false (Some market) false options (stock KRegression).
Definition fit_all := set_fit joint target_prices false (Some market) false options (stock KRegression).
Definition fit_shades := set_fit joint (YVector shades) false (Some market) false plain_options (stock KClassification).
Definition eval_one := set_eval single target_prices (Some market) true None false options fitted_stock.
Definition eval_all := set_eval joint target_prices (Some market) true None false options fitted_stock.
Definition eval_shades := set_eval joint (YVector shades) (Some market) false None false plain_options fitted_shades.

Lemma fit_one_runs : set_fit single target_prices false (Some market) false options (stock KRegression) = (Ok (dropped_of fit_one), snd fit_one).
Proof. vm_compute. reflexivity. Qed.
Lemma fit_all_runs : set_fit joint target_prices false (Some market) false options (stock KRegression) = (Ok (dropped_of fit_all), snd fit_all).
Proof. vm_compute. reflexivity. Qed.
Lemma fit_shades_runs : set_fit joint (YVector shades) false (Some market) false plain_options (stock KClassification) = (Ok (dropped_of fit_shades), snd fit_shades).
Proof. vm_compute. reflexivity. Qed.
Lemma eval_one_runs : set_eval single target_prices (Some market) true None false options fitted_stock = (Ok (dropped_of eval_one), snd eval_one).
Proof. vm_compute. reflexivity. Qed.
Lemma eval_all_runs : set_eval joint target_prices (Some market) true None false options fitted_stock = (Ok (dropped_of eval_all), snd eval_all).
Proof. vm_compute. reflexivity. Qed.
Lemma eval_shades_runs : set_eval joint (YVector shades) (Some market) false None false plain_options fitted_shades = (Ok (dropped_of eval_shades), snd eval_shades).
Proof. vm_compute. reflexivity. Qed.

Lemma stock_fits k kw : k = KRegression \/ k = KClassification -> k_method kw = false -> fits_something (stock k) (Some market) kw.
Proof.
  intros K M. split; [split; auto; destruct K as [-> | ->]; [left|right]; vm_compute; reflexivity|].
  split; [destruct k; vm_compute; discriminate|]. split; discriminate.
Qed.

Lemma fitted_evaluates : evaluates_something fitted_stock (Some market) options.
Proof. split; [split; [left; vm_compute; reflexivity|reflexivity]|]. split; [vm_compute; discriminate|]. split; discriminate. Qed.

Lemma shades_evaluates : evaluates_something fitted_shades (Some market) plain_options.
Proof. split; [split; [right; vm_compute; reflexivity|reflexivity]|]. split; [vm_compute; discriminate|]. split; discriminate. Qed.

Lemma kinds_by k rules : map r_kind rules = [k; k; k] -> on_features three_features rules -> forall r, In r rules -> r_kind r = k /\ regular r.
Proof.
  intros K F r I. split; [|apply (features_regular _ _ three_indexes F); auto].
  assert (X : In (r_kind r) (map r_kind rules)) by (apply in_map; auto). rewrite K in X. destruct X as [X|[X|[X|[]]]]; auto.
Qed.

Lemma stock_rules : s_rules (stock KRegression) = [on KRegression "x" 0; on KRegression "y" 1; on KRegression "z" 2].
Proof. vm_compute. reflexivity. Qed.
