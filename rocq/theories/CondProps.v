(** Properties C17-C25 and C70-C77 of condition.py. *)
From Coq Require Import List ZArith QArith Bool String.
From Coq Require Import List.
From Coq Require Import Sorting.Permutation.
From Verif Require Import Base Num CondModel CondSpec CondBase CondProofs CondEval CondAnd CondMore CondSet CondWit.
Import ListNotations.
Open Scope Z_scope.

(** * C17 *)
Theorem C17_constructor : forall sett idx mins maxs names,
  (misfit idx mins maxs names ->
     forall s, build sett idx mins maxs names false s = Err EValue) /\
  (~ misfit idx mins maxs names -> mistyped idx mins maxs names ->
     forall s, build sett idx mins maxs names false s = Err EType) /\
  (~ misfit idx mins maxs names -> ~ mistyped idx mins maxs names -> repeated idx names ->
     forall s, build sett idx mins maxs names false s = Err EDuplicated) /\
  (~ misfit idx mins maxs names -> ~ mistyped idx mins maxs names -> ~ repeated idx names ->
     exists fs, acceptable idx mins maxs names fs /\
       (exists c, build sett idx mins maxs names false false = Ok c /\ condition c fs) /\
       (known sett -> exists c gs, build sett idx mins maxs names false true = Ok c /\
          condition c gs /\ in_order sett gs /\ Permutation gs fs) /\
       (~ known sett -> (1 < List.length fs)%nat ->
          build sett idx mins maxs names false true = Err EValue)).
Proof. exact construct. Qed.
Print Assumptions C17_constructor.

Example C17_example :
  (let '(i, m, x, n) := (Some [AInt 0; AInt 1], Some [AInt 1; AFloat (numz (-3))],
     Some [AInt 5; AInt 4], Some [AStr "width"; AStr "depth"]%string) in
   ~ misfit i m x n /\ ~ mistyped i m x n /\ ~ repeated i n) /\
  misfit (Some [AInt 0]) (Some [AInt 1]) None None /\
  mistyped (Some [ABool true]) (Some [AInt 1]) (Some [AInt 2]) None /\
  repeated (Some [AInt 3; AInt 3]) None.
Proof.
  split; [apply (acceptable_fits _ _ _ _ _ floor_plan_arguments)|]. split; [right; left; auto|]. split.
  - left. exists [ABool true], (ABool true). repeat split; [left; auto|discriminate].
  - exists [AInt 3; AInt 3]. split; [left; auto|]. intros N. inversion N as [|? ? K]. apply K. left; auto.
Qed.

Theorem C17_accepted_arguments : forall idx mins maxs names fs,
  acceptable idx mins maxs names fs ->
  ~ misfit idx mins maxs names /\ ~ mistyped idx mins maxs names /\ ~ repeated idx names.
Proof. exact acceptable_fits. Qed.
Print Assumptions C17_accepted_arguments.

Example C17_accepted_example :
  acceptable (Some [AInt 0; AInt 1]) (Some [AInt 1; AFloat (numz (-3))])
    (Some [AInt 5; AInt 4]) (Some [AStr "width"; AStr "depth"]%string) [width; depth].
Proof. exact floor_plan_arguments. Qed.

(** * C18 *)
Theorem C18_evaluate : forall c fs xs,
  condition c fs -> well_shaped xs -> accepted xs fs ->
  exists v, evaluate c xs = Ok v /\ marks xs fs v.
Proof. exact evaluate_marks. Qed.
Print Assumptions C18_evaluate.

Example C18_example :
  condition floor_plan [width; depth] /\ well_shaped rooms /\ accepted rooms [width; depth] /\
  accepted rooms_array [width; depth] /\ evaluate floor_plan rooms = Ok [1; 0] /\
  evaluate floor_plan rooms_array = Ok [1; 0].
Proof.
  split; [apply floor_plan_ok|]. split; [apply rooms_shaped|]. split; [apply rooms_accepted|].
  split; [apply rooms_accepted|]. split; apply rooms_values.
Qed.

Theorem C18_missing_feature : forall c fs xs,
  condition c fs -> ~ crossed fs -> (exists f, In f fs /\ ~ has_feature xs f) ->
  evaluate c xs = Err EIndex.
Proof. exact evaluate_missing. Qed.
Print Assumptions C18_missing_feature.

Example C18_missing_example :
  condition profile [depth; height] /\ c_imp profile = false /\
  (exists f, In f [depth; height] /\ ~ has_feature (TArray 2 [[numz 1; numz 2]]) f).
Proof.
  split; [apply profile_ok|]. split; [reflexivity|]. exists height.
  split; [right; left; auto|]. cbn. intros [_ K]. discriminate.
Qed.

(** * C19 *)
Theorem C19_flag : forall sett idx mins maxs names s c fs,
  acceptable idx mins maxs names fs -> build sett idx mins maxs names false s = Ok c ->
  c_imp c = true <-> crossed fs.
Proof. exact flag_told. Qed.
Print Assumptions C19_flag.

Example C19_example : crossed [side "width" 0 5 1] /\ ~ crossed [width; depth].
Proof. split; [apply nowhere_crossed|]. apply (unflagged floor_plan); [apply floor_plan_ok|reflexivity]. Qed.

Theorem C19_impossible : forall c xs, c_imp c = true -> evaluate c xs = Ok (repeat 0 (nrows xs)).
Proof. exact evaluate_flagged. Qed.
Print Assumptions C19_impossible.

Example C19_impossible_example : c_imp nowhere = true /\ evaluate nowhere rooms = Ok [0; 0].
Proof. split; reflexivity. Qed.

Theorem C19_hides_nothing : forall c fs xs v,
  condition c fs -> well_shaped xs -> evaluate c xs = Ok v -> marks xs fs v.
Proof. exact evaluate_inv. Qed.
Print Assumptions C19_hides_nothing.

Example C19_hides_example : condition nowhere [side "width" 0 5 1] /\ well_shaped rooms /\
  evaluate nowhere rooms = Ok [0; 0].
Proof. split; [apply nowhere_ok|]. split; [apply rooms_shaped|]. reflexivity. Qed.

Theorem C19_possible : forall c fs,
  condition c fs -> fs <> [] -> finite_bounds fs -> c_imp c = false ->
  exists xs, well_shaped xs /\ evaluate c xs = Ok [1].
Proof. exact possible_point. Qed.
Print Assumptions C19_possible.

Example C19_possible_example : condition floor_plan [width; depth] /\ finite_bounds [width; depth] /\
  c_imp floor_plan = false.
Proof.
  split; [apply floor_plan_ok|]. split; [|reflexivity].
  intros f [<-|[<-|[]]]; do 2 eexists; split; reflexivity.
Qed.

(** * C20 *)
Theorem C20_features : forall sett c1 c2 fs1 fs2 c,
  known sett -> condition c1 fs1 -> condition c2 fs2 -> no_nan fs1 -> no_nan fs2 ->
  band sett c1 c2 = Ok c ->
  exists fs, condition c fs /\ in_order sett fs /\
    (forall h, In h fs -> intersected fs1 fs2 h) /\
    (forall n, In n (map f_name fs) <-> In n (map f_name fs1) \/ In n (map f_name fs2)).
Proof. exact band_intersected. Qed.
Print Assumptions C20_features.

Example C20_example : exists c,
  known "name"%string /\ condition floor_plan [width; depth] /\ condition profile [depth; height] /\
  no_nan [width; depth] /\ no_nan [depth; height] /\ band "name"%string floor_plan profile = Ok c /\
  c_names c = Some ["depth"; "height"; "width"]%string.
Proof.
  eexists. split; [right; auto|]. split; [apply floor_plan_ok|]. split; [apply profile_ok|].
  split; [apply floor_plan_numbers|]. split; [apply profile_numbers|].
  split; [vm_compute; reflexivity|reflexivity].
Qed.

Theorem C20_evaluation : forall sett c1 c2 fs1 fs2 c xs v1 v2,
  known sett -> condition c1 fs1 -> condition c2 fs2 -> no_nan fs1 -> no_nan fs2 ->
  band sett c1 c2 = Ok c -> well_shaped xs ->
  evaluate c1 xs = Ok v1 -> evaluate c2 xs = Ok v2 ->
  evaluate c xs = Ok (product v1 v2).
Proof. exact band_evaluate. Qed.
Print Assumptions C20_evaluation.

Example C20_evaluation_example :
  well_shaped rooms /\ evaluate floor_plan rooms = Ok [1; 0] /\ evaluate profile rooms = Ok [1; 0].
Proof. split; [apply rooms_shaped|]. split; apply rooms_values. Qed.

(** * C21 *)
Theorem C21_commutative : forall sett c1 c2 fs1 fs2,
  known sett -> condition c1 fs1 -> condition c2 fs2 -> no_nan fs1 -> no_nan fs2 ->
  (exists c d, band sett c1 c2 = Ok c /\ band sett c2 c1 = Ok d /\ same_cond c d) \/
  (band sett c1 c2 = Err EIndex /\ band sett c2 c1 = Err EIndex).
Proof. exact band_commutes. Qed.
Print Assumptions C21_commutative.

Example C21_example : known "index"%string /\ condition floor_plan [width; depth] /\
  condition profile [depth; height] /\ no_nan [width; depth] /\ no_nan [depth; height].
Proof.
  split; [left; auto|]. split; [apply floor_plan_ok|]. split; [apply profile_ok|].
  split; [apply floor_plan_numbers|apply profile_numbers].
Qed.

Theorem C21_associative : forall sett c1 c2 c3 fs1 fs2 fs3,
  known sett -> condition c1 fs1 -> condition c2 fs2 -> condition c3 fs3 ->
  no_nan fs1 -> no_nan fs2 -> no_nan fs3 ->
  let left := rbind (band sett c1 c2) (fun c => band sett c c3) in
  let right := rbind (band sett c2 c3) (fun c => band sett c1 c) in
  (exists c d, left = Ok c /\ right = Ok d /\ same_cond c d) \/
  (left = Err EIndex /\ right = Err EIndex).
Proof. exact band_assoc. Qed.
Print Assumptions C21_associative.

Example C21_associative_example : exists c,
  rbind (band "index"%string floor_plan profile) (fun c => band "index"%string c nowhere) = Ok c /\ c_imp c = true.
Proof. eexists. split; vm_compute; reflexivity. Qed.

Theorem C21_idempotent : forall sett c fs,
  known sett -> condition c fs -> no_nan fs ->
  exists d, band sett c c = Ok d /\
    forall xs v, well_shaped xs -> evaluate c xs = Ok v -> evaluate d xs = Ok v.
Proof. exact band_idempotent. Qed.
Print Assumptions C21_idempotent.

Example C21_idempotent_example : condition floor_plan [width; depth] /\ no_nan [width; depth] /\
  well_shaped rooms /\ evaluate floor_plan rooms = Ok [1; 0].
Proof.
  split; [apply floor_plan_ok|]. split; [apply floor_plan_numbers|]. split; [apply rooms_shaped|apply rooms_values].
Qed.

(** * C22 *)
Theorem C22_defined : forall sett c1 c2 fs1 fs2,
  known sett -> lists c1 fs1 -> distinct fs1 -> lists c2 fs2 -> distinct fs2 ->
  (consistent fs1 fs2 /\
   exists c fs, band sett c1 c2 = Ok c /\ condition c fs /\ in_order sett fs /\
     Permutation fs (map (meet fs2) fs1 ++ beside fs1 fs2)) \/
  (~ consistent fs1 fs2 /\ band sett c1 c2 = Err EIndex).
Proof. exact band_cases. Qed.
Print Assumptions C22_defined.

Example C22_example : consistent [width; depth] [depth; height] /\
  ~ consistent [width] [side "height" 0 1 2] /\ ~ consistent [width] [side "width" 3 1 2].
Proof.
  split.
  - intros f g [<-|[<-|[]]] [<-|[<-|[]]]; cbn; split; congruence.
  - split; intros K.
    + destruct (K width (side "height" 0 1 2) (or_introl eq_refl) (or_introl eq_refl)) as (_ & K').
      discriminate (K' eq_refl).
    + destruct (K width (side "width" 3 1 2) (or_introl eq_refl) (or_introl eq_refl)) as (K' & _).
      discriminate (K' eq_refl).
Qed.

(** * C23 *)
Theorem C23_sort : forall sett c fs,
  known sett -> condition c fs ->
  exists d gs, sort sett c = Ok d /\ condition d gs /\ in_order sett gs /\ Permutation gs fs /\
    forall xs, well_shaped xs -> evaluate d xs = evaluate c xs.
Proof. exact sort_ok. Qed.
Print Assumptions C23_sort.

Example C23_example : exists d, known "name"%string /\ condition floor_plan [width; depth] /\
  sort "name"%string floor_plan = Ok d /\ c_idx d = Some [1; 0].
Proof.
  eexists. split; [right; auto|]. split; [apply floor_plan_ok|]. split; [vm_compute; reflexivity|reflexivity].
Qed.

Theorem C23_order_of_arguments : forall sett i m x n i' m' x' n' fs gs,
  known sett -> acceptable i m x n fs -> acceptable i' m' x' n' gs -> Permutation fs gs ->
  build sett i m x n false true = build sett i' m' x' n' false true.
Proof. exact order_irrelevant. Qed.
Print Assumptions C23_order_of_arguments.

Example C23_order_example :
  acceptable (Some [AInt 0; AInt 1]) (Some [AInt 1; AFloat (numz (-3))])
    (Some [AInt 5; AInt 4]) (Some [AStr "width"; AStr "depth"]%string) [width; depth] /\
  acceptable (Some [AInt 1; AInt 0]) (Some [AInt (-3); AInt 1])
    (Some [AInt 4; AInt 5]) (Some [AStr "depth"; AStr "width"]%string) [depth; width] /\
  Permutation [width; depth] [depth; width].
Proof. split; [apply floor_plan_arguments|]. split; [apply reversed_arguments|]. apply perm_swap. Qed.

(** * C24 *)
Theorem C24_equality_refuted : forall H, exists c d fs gs xs,
  condition c fs /\ condition d gs /\ well_shaped xs /\ ceq H c d = Ok true /\ ~ same_content fs gs /\
  evaluate c xs = Ok [0] /\ evaluate d xs = Ok [1].
Proof. exact equality_false. Qed.
Print Assumptions C24_equality_refuted.

Theorem C24_large_numbers_refuted : forall H n, 0 <= n ->
  ceq H (raw_cond [side "width" 0 0 n]) (raw_cond [side "width" 0 0 (n + hash_modulus)]) = Ok true.
Proof. exact equality_wraps. Qed.
Print Assumptions C24_large_numbers_refuted.

Theorem C24_same_are_equal : forall H c d fs gs,
  unordered H -> condition c fs -> condition d gs -> same_content fs gs ->
  exists h, hash H c = Ok h /\ hash H d = Ok h /\ ceq H c d = Ok true.
Proof. exact equal_conditions. Qed.
Print Assumptions C24_same_are_equal.

Example C24_example : unordered ideal /\ condition floor_plan [width; depth] /\
  condition (raw_cond [side "depth" 7 (-3) 4; width]) [side "depth" 7 (-3) 4; width] /\
  same_content [width; depth] [side "depth" 7 (-3) 4; width].
Proof.
  split; [apply ideal_unordered|]. split; [apply floor_plan_ok|]. split.
  - apply raw_cond_ok. split; repeat constructor; cbn; intuition discriminate.
  - split; intros f [<-|[<-|[]]];
      [exists width|exists (side "depth" 7 (-3) 4)|exists depth|exists width];
      cbn; intuition reflexivity.
Qed.

(** Missing: bounds that are -1, not integral, infinite or at least 2^61 - 1. *)
Theorem C24_equal_are_same_partial : forall H c d fs gs,
  collision_free H -> condition c fs -> condition d gs -> plain_bounds fs -> plain_bounds gs ->
  ceq H c d = Ok true -> same_content fs gs.
Proof. exact equal_converse. Qed.
Print Assumptions C24_equal_are_same_partial.

Example C24_partial_example : collision_free ideal /\ condition floor_plan [width; depth] /\
  plain_bounds [width; depth].
Proof.
  split; [apply ideal_collision_free|]. split; [apply floor_plan_ok|].
  intros f [<-|[<-|[]]]; do 2 eexists; repeat split; reflexivity || discriminate.
Qed.

(** * C25 *)
Theorem C25_lower_bounds : forall c fs l,
  condition c fs -> c_imp c = false -> List.length l = List.length fs ->
  exists d, set_bmins (GList l) c = (Ok tt, d) /\ condition d (with_lows fs l).
Proof. exact set_bmins_ok. Qed.
Print Assumptions C25_lower_bounds.

Theorem C25_upper_bounds : forall c fs l,
  condition c fs -> c_imp c = false -> List.length l = List.length fs ->
  exists d, set_bmaxs (GList l) c = (Ok tt, d) /\ condition d (with_highs fs l).
Proof. exact set_bmaxs_ok. Qed.
Print Assumptions C25_upper_bounds.

Theorem C25_rejected : forall c fs,
  condition c fs -> fs <> [] ->
  (forall l, List.length l <> List.length fs ->
     set_bmins (GList l) c = (Err EIndex, c) /\ set_bmaxs (GList l) c = (Err EIndex, c)) /\
  (forall l, ~ NoDup l -> set_features_indexes (GList l) c = (Err EDuplicated, c)) /\
  (forall l, NoDup l -> List.length l <> List.length fs ->
     set_features_indexes (GList l) c = (Err EIndex, c)) /\
  (forall l, ~ NoDup l -> set_features_names (GList l) c = (Err EDuplicated, c)) /\
  (forall l, NoDup l -> List.length l <> List.length fs ->
     set_features_names (GList l) c = (Err EIndex, c)).
Proof. exact setters_reject. Qed.
Print Assumptions C25_rejected.

Example C25_example : condition floor_plan [width; depth] /\ c_imp floor_plan = false /\
  List.length [numz 0; numz 4] = List.length [width; depth] /\
  c_max (snd (set_bmaxs (GList [numz 0; numz 4]) floor_plan)) = Some [numz 0; numz 4] /\
  c_imp (snd (set_bmaxs (GList [numz 0; numz 4]) floor_plan)) = true.
Proof. split; [apply floor_plan_ok|]. repeat split. Qed.

(** * C70 *)
Theorem C70_nan_refuted : exists c1 c2 fs1 fs2 c xs,
  condition c1 fs1 /\ condition c2 fs2 /\ band "index"%string c1 c2 = Ok c /\ well_shaped xs /\
  evaluate c1 xs = Ok [1] /\ evaluate c2 xs = Ok [0] /\ evaluate c xs = Ok [1].
Proof. exact nan_dropped. Qed.
Print Assumptions C70_nan_refuted.

(** * C71 *)
Theorem C71_names_refuted : exists m1 x1 n1 m2 x2 n2 c1 c2 fs1 fs2,
  acceptable None (Some m1) (Some x1) (Some n1) fs1 /\
  acceptable None (Some m2) (Some x2) (Some n2) fs2 /\
  build "index"%string None (Some m1) (Some x1) (Some n1) false true = Ok c1 /\
  build "index"%string None (Some m2) (Some x2) (Some n2) false true = Ok c2 /\
  band "index"%string c1 c2 = Err EIndex.
Proof. exact names_only. Qed.
Print Assumptions C71_names_refuted.

Theorem C71_first_names_differ : forall sett c1 c2 fs1 fs2 m1 x1 n1 m2 x2 n2,
  known sett ->
  acceptable None (Some m1) (Some x1) (Some n1) fs1 ->
  acceptable None (Some m2) (Some x2) (Some n2) fs2 ->
  (exists a t b t', n1 = a :: t /\ n2 = b :: t' /\ a <> b) ->
  build sett None (Some m1) (Some x1) (Some n1) false true = Ok c1 ->
  build sett None (Some m2) (Some x2) (Some n2) false true = Ok c2 ->
  band sett c1 c2 = Err EIndex.
Proof. exact names_only_clash. Qed.
Print Assumptions C71_first_names_differ.

Example C71_example :
  acceptable None (Some [AInt 1]) (Some [AInt 5]) (Some [AStr "width"%string]) [width] /\
  acceptable None (Some [AInt 0]) (Some [AInt 9]) (Some [AStr "height"%string]) [side "height" 0 0 9].
Proof.
  split; apply given_names; try reflexivity; try apply one_distinct; repeat constructor.
Qed.

(** * C72 *)
Theorem C72_flag_refuted : exists c fs l d xs,
  condition c fs /\ set_bmaxs (GList l) c = (Ok tt, d) /\ lists d (with_highs fs l) /\
  ~ crossed (with_highs fs l) /\ well_shaped xs /\ accepted xs (with_highs fs l) /\
  satisfied xs 0 (with_highs fs l) /\ evaluate d xs = Ok [0].
Proof. exact flag_stays. Qed.
Print Assumptions C72_flag_refuted.

Theorem C72_always_stays : forall c v,
  c_imp c = true ->
  c_imp (snd (set_bmins v c)) = true /\ c_imp (snd (set_bmaxs v c)) = true /\
  forall xs, evaluate (snd (set_bmins v c)) xs = Ok (repeat 0 (nrows xs)) /\
             evaluate (snd (set_bmaxs v c)) xs = Ok (repeat 0 (nrows xs)).
Proof. exact flag_sticks. Qed.
Print Assumptions C72_always_stays.

Example C72_example : c_imp nowhere = true.
Proof. reflexivity. Qed.

(** * C73 *)
Theorem C73_text_refuted : exists c fs q d xs,
  condition c fs /\ set_bmins (GText (Ok [Fin q])) c = (Ok tt, d) /\ well_shaped xs /\
  ~ satisfied xs 0 (with_lows fs [Fin q]) /\ evaluate d xs = Ok [1].
Proof. exact text_loses. Qed.
Print Assumptions C73_text_refuted.

Theorem C73_truncated : forall l c, exists zs, Forall2 toward_zero l zs /\
  set_bmins (GText (Ok (map Fin l))) c = set_bmins (GList (map numz zs)) c /\
  set_bmaxs (GText (Ok (map Fin l))) c = set_bmaxs (GList (map numz zs)) c.
Proof. exact text_truncated. Qed.
Print Assumptions C73_truncated.

Theorem C73_infinite : forall l c,
  (In NaN l \/ In PInf l \/ In MInf l) ->
  exists e, (e = EValue \/ e = EOverflow) /\
    set_bmins (GText (Ok l)) c = (Err e, c) /\ set_bmaxs (GText (Ok l)) c = (Err e, c).
Proof. exact text_infinite. Qed.
Print Assumptions C73_infinite.

Theorem C73_integers : forall l c,
  set_bmins (GText (Ok (map numz l))) c = set_bmins (GList (map numz l)) c /\
  set_bmaxs (GText (Ok (map numz l))) c = set_bmaxs (GList (map numz l)) c.
Proof. exact text_integers. Qed.
Print Assumptions C73_integers.

Example C73_example :
  c_min (snd (set_bmins (GText (Ok [Fin (5 # 2); Fin (-5 # 2)])) floor_plan)) = Some [numz 2; numz (-2)].
Proof. reflexivity. Qed.

(** * C74 *)
Theorem C74_no_feature_refuted : exists c xs,
  build "index"%string (Some []) (Some []) (Some []) (Some []) false true = Ok c /\ well_shaped xs /\
  evaluate c xs = Err EAttr /\ evaluate c (TArray 1 [[numz 1]]) = Ok [1].
Proof. exact nothing_refused. Qed.
Print Assumptions C74_no_feature_refuted.

Theorem C74_always_refused : forall c n columns,
  condition c [] -> evaluate c (TFrame n columns) = Err EAttr.
Proof. exact evaluate_nothing. Qed.
Print Assumptions C74_always_refused.

Example C74_example : condition (raw_cond []) [].
Proof. apply raw_cond_ok. split; constructor. Qed.

(** * C75 *)
Theorem C75_indexes : forall c fs l,
  condition c fs -> List.length l = List.length fs -> NoDup l ->
  exists d, set_features_indexes (GList l) c = (Ok tt, d) /\ condition d (with_indexes fs l).
Proof. exact set_indexes_ok. Qed.
Print Assumptions C75_indexes.

Theorem C75_names : forall c fs l,
  condition c fs -> List.length l = List.length fs -> NoDup l ->
  exists d, set_features_names (GList l) c = (Ok tt, d) /\ condition d (with_names fs l).
Proof. exact set_names_ok. Qed.
Print Assumptions C75_names.

Theorem C75_normalized : forall c fs,
  condition c fs ->
  exists d, normalize_features_indexes c = Ok d /\
    condition d (with_indexes fs (map Z.of_nat (seq 0 (List.length fs)))).
Proof. exact normalize_ok. Qed.
Print Assumptions C75_normalized.

Theorem C75_text : forall c,
  (forall l, set_features_indexes (GText (Ok l)) c = set_features_indexes (GList l) c) /\
  (forall l, set_features_names (GText (Ok l)) c = set_features_names (GList l) c) /\
  (forall e, set_features_indexes (GText (Err e)) c = (Err e, c) /\
             set_features_names (GText (Err e)) c = (Err e, c) /\
             set_bmins (GText (Err e)) c = (Err e, c) /\ set_bmaxs (GText (Err e)) c = (Err e, c)).
Proof. exact text_lists. Qed.
Print Assumptions C75_text.

Example C75_example : condition profile [depth; height] /\ NoDup [4; 0] /\
  c_idx (snd (set_features_indexes (GList [4; 0]) profile)) = Some [4; 0] /\
  NoDup ["a"; "b"]%string.
Proof.
  split; [apply profile_ok|]. split; [repeat constructor; cbn; intuition discriminate|].
  split; [reflexivity|]. repeat constructor; cbn; intuition discriminate.
Qed.

(** * C76 *)
Theorem C76_item : forall c fs i f,
  condition c fs ->
  (nth_error fs i = Some f ->
   getitem c (Z.of_nat i) = Ok (f_name f, f_index f, f_low f, f_high f) /\
   getitem c (Z.of_nat i - Z.of_nat (List.length fs)) = Ok (f_name f, f_index f, f_low f, f_high f)) /\
  (Z.of_nat (List.length fs) <= Z.of_nat i ->
   getitem c (Z.of_nat i) = Err EIndex /\ getitem c (- Z.of_nat i - 1) = Err EIndex).
Proof. exact getitem_ok. Qed.
Print Assumptions C76_item.

Theorem C76_length : forall c fs, lists c fs -> clen c = List.length fs.
Proof. exact clen_lists. Qed.
Print Assumptions C76_length.

Theorem C76_incomplete : forall c n,
  (forall l, c_names c = Some l -> List.length l = n) ->
  (forall l, c_idx c = Some l -> List.length l = n) ->
  (forall l, c_min c = Some l -> List.length l = n) ->
  (forall l, c_max c = Some l -> List.length l = n) ->
  (c_names c <> None \/ c_idx c <> None \/ c_min c <> None \/ c_max c <> None \/ n = O) ->
  clen c = n.
Proof. exact clen_incomplete. Qed.
Print Assumptions C76_incomplete.

Example C76_incomplete_example :
  clen (mkCond (Some [3; 5]) None None None false) = 2%nat /\
  clen (mkCond None None None None false) = 0%nat.
Proof. split; reflexivity. Qed.

Example C76_example : condition floor_plan [width; depth] /\ nth_error [width; depth] 1 = Some depth /\
  getitem floor_plan (-1) = Ok ("depth"%string, 1, numz (-3), numz 4).
Proof. split; [apply floor_plan_ok|]. split; reflexivity. Qed.

(** * C77 *)
Theorem C77_empty_refuted : exists c l d,
  build "index"%string None None None None true true = Ok c /\ set_bmins (GList l) c = (Err EType, d) /\
  c_min d = Some l.
Proof. exact empty_raises. Qed.
Print Assumptions C77_empty_refuted.

Theorem C77_fill : forall sett a l h z n,
  build sett a l h z true n = Ok (mkCond None None None None false) /\
  forall ms xs c, c_min c = None -> c_max c = None -> wrong_length c ms = false ->
    List.length ms = List.length xs ->
    exists d e, set_bmins (GList ms) c = (Err EType, d) /\ set_bmaxs (GList xs) d = (Ok tt, e) /\
      e = mkCond (c_idx c) (Some ms) (Some xs) (c_names c)
                 (if some_above ms xs then true else c_imp c).
Proof. exact fill_empty. Qed.
Print Assumptions C77_fill.

Example C77_example : wrong_length (mkCond (Some [0]) None None None false) [numz 1] = false.
Proof. reflexivity. Qed.
