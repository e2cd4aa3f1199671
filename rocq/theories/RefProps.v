(** Properties C175 to C181: which condition has which list. *)
From Coq Require Import List ZArith QArith Bool String Lia.
From Coq Require Import List.
From Verif Require Import Base Num CondModel RuleModel PredModel SetModel SetWit TreeModel TreeWit RefModel RefSpec RefProofs RefAnd RefMore RefTree RefLaws RefWit.
Import ListNotations.
Open Scope string_scope.
Open Scope list_scope.
Open Scope Z_scope.

(** ** C175 *)

Theorem C175_and : forall sett a b H o H',
  exists_in H a -> exists_in H b -> r_band sett a b H = (o, H') ->
  keeps H H' /\ rmap (view H') o = band sett (view H a) (view H b).
Proof. exact and_keeps. Qed.
Print Assumptions C175_and.

Example C175_and_ex : exists_in (after both lab) 8 /\ exists_in (after both lab) 9 /\
  let (o, H') := r_band "index" 8 9 (after both lab) in
  o = Ok 28%nat /\ view H' 28 = mkCond (Some [0; 1]) (Some [numz 3; numz 2]) (Some [numz 5; numz 8]) (Some ["a"; "b"]) false /\
  view H' 8 = mkCond (Some [0]) (Some [numz 1]) (Some [numz 5]) (Some ["a"]) false.
Proof. destruct both_exist as (_ & A & B). split; [exact A|]. split; [exact B|]. vm_compute. repeat split. Qed.

Theorem C175_independent : forall sett a b H c H' es,
  exists_in H a -> exists_in H b -> r_band sett a b H = (Ok c, H') ->
  (Forall (fun e => edited e < h_next H)%nat es -> view (apply_edits es H') c = view H' c) /\
  (Forall (fun e => holds (h_conds H' c) (edited e)) es -> forall d, exists_in H d -> view (apply_edits es H') d = view H d).
Proof. exact and_independent. Qed.
Print Assumptions C175_independent.

Example C175_independent_ex : fst (r_band "index" 8 9 (after both lab)) = Ok 28%nat /\
  Forall (fun e => edited e < h_next (after both lab))%nat [ENums 1 [numz 100]; ETexts 3 ["z"]] /\
  c_min (view (apply_edits [ENums 1 [numz 100]; ETexts 3 ["z"]] (after (r_band "index" 8 9) (after both lab))) 8) = Some [numz 100] /\
  holds (h_conds (after (r_band "index" 8 9) (after both lab)) 28) 29.
Proof.
  split; [vm_compute; reflexivity|]. split; [repeat constructor; cbn; lia|]. split; [vm_compute; reflexivity|].
  right; left. apply Holds_min. vm_compute. reflexivity.
Qed.

(** ** C176 *)

Theorem C176_built : forall sett idx mins maxs names empty srt H o H',
  there H idx -> there H mins -> there H maxs -> there H names ->
  r_build sett idx mins maxs names empty srt H = (o, H') ->
  keeps H H' /\
  rmap (view H') o = build sett (ints_given H idx) (nums_given H mins) (nums_given H maxs) (texts_given H names) empty srt.
Proof. exact built. Qed.
Print Assumptions C176_built.

Example C176_built_ex : there lab (Some 4%nat) /\ there lab (Some 5%nat) /\ there lab (Some 6%nat) /\ there lab (Some 7%nat) /\
  fst (wide true lab) = Ok 8%nat /\
  view (after (wide true) lab) 8 = mkCond (Some [0; 1]) (Some [numz 3; numz 2]) (Some [numz 9; numz 8]) (Some ["a"; "b"]) false /\
  h_ints (after (wide true) lab) 4 = [1; 0].
Proof. destruct args_there as (_ & _ & _ & _ & A & B & C & D). do 4 (split; [auto|]). vm_compute. repeat split. Qed.

Theorem C176_sorted : forall sett idx mins maxs names H c H' es,
  there H idx -> there H mins -> there H maxs -> there H names ->
  r_build sett idx mins maxs names false true H = (Ok c, H') -> (2 <= clen (view H' c))%nat ->
  Forall (fun e => edited e < h_next H)%nat es -> view (apply_edits es H') c = view H' c.
Proof. exact built_sorted. Qed.
Print Assumptions C176_sorted.

Example C176_sorted_ex : fst (wide true lab) = Ok 8%nat /\ clen (view (after (wide true) lab) 8) = 2%nat /\
  c_min (view (apply_edits [ENums 5 [numz 100; numz 100]] (after (wide true) lab)) 8) = Some [numz 3; numz 2].
Proof. vm_compute. repeat split. Qed.

Theorem C176_given : forall sett idx mins maxs names srt H c H',
  there H idx -> there H mins -> there H maxs -> there H names ->
  r_build sett idx mins maxs names false srt H = (Ok c, H') -> srt = false \/ (clen (view H' c) <= 1)%nat ->
  (forall a l, idx = Some a -> c_idx (view (put_ints a l H') c) = Some l) /\
  (forall a l, mins = Some a -> c_min (view (put_nums a l H') c) = Some l) /\
  (forall a l, maxs = Some a -> c_max (view (put_nums a l H') c) = Some l) /\
  (forall a l, names = Some a -> c_names (view (put_texts a l H') c) = Some l) /\
  (forall a l, c_imp (view (put_nums a l H') c) = c_imp (view H' c)).
Proof. exact built_given. Qed.
Print Assumptions C176_given.

Example C176_given_ex : fst (narrow lab) = Ok 8%nat /\ clen (view (after narrow lab) 8) = 1%nat /\
  c_min (view (put_nums 1 [numz 4] (after narrow lab)) 8) = Some [numz 4] /\
  c_min (view (put_nums 5 [numz 4; numz 4] (after (wide false) lab)) 8) = Some [numz 4; numz 4].
Proof. vm_compute. repeat split. Qed.

Theorem C176_copies_refuted : exists H idx mins maxs names srt c H' a l,
  there H idx /\ there H mins /\ there H maxs /\ there H names /\ mins = Some a /\
  r_build "index" idx mins maxs names false srt H = (Ok c, H') /\
  evaluate (view H' c) three_row = Ok [1] /\ evaluate (view (put_nums a l H') c) three_row = Ok [0].
Proof. exact copies_refuted. Qed.
Print Assumptions C176_copies_refuted.

(** ** C177 *)

Theorem C177_values : forall c H,
  exists_in H c ->
  (forall v, source_there H v -> let (o, H') := r_set_indexes v c H in
     keeps_but c H H' /\ (o, view H' c) = set_features_indexes (meant (h_ints H) v) (view H c)) /\
  (forall v, source_there H v -> let (o, H') := r_set_names v c H in
     keeps_but c H H' /\ (o, view H' c) = set_features_names (meant (h_texts H) v) (view H c)) /\
  (forall v, source_there H v -> let (o, H') := r_set_bmins v c H in
     keeps_but c H H' /\ (o, view H' c) = set_bmins (meant (h_nums H) v) (view H c)) /\
  (forall v, source_there H v -> let (o, H') := r_set_bmaxs v c H in
     keeps_but c H H' /\ (o, view H' c) = set_bmaxs (meant (h_nums H) v) (view H c)).
Proof. exact set_as_values. Qed.
Print Assumptions C177_values.

Example C177_values_ex : exists_in (after both lab) 8 /\
  let (o, H') := r_set_bmins (SText (Ok [Fin (7 # 2)])) 8 (after both lab) in o = Ok tt /\ c_min (view H' 8) = Some [numz 3].
Proof. split; [apply both_exist|]. vm_compute. repeat split. Qed.

Theorem C177_shares : forall c a H H',
  exists_in H c -> (a < h_next H)%nat ->
  (r_set_indexes (SList a) c H = (Ok tt, H') -> forall l, c_idx (view (put_ints a l H') c) = Some l) /\
  (r_set_names (SList a) c H = (Ok tt, H') -> forall l, c_names (view (put_texts a l H') c) = Some l) /\
  (r_set_bmins (SList a) c H = (Ok tt, H') -> forall l, c_min (view (put_nums a l H') c) = Some l) /\
  (r_set_bmaxs (SList a) c H = (Ok tt, H') -> forall l, c_max (view (put_nums a l H') c) = Some l).
Proof. exact set_shares. Qed.
Print Assumptions C177_shares.

Example C177_shares_ex : exists_in (after both lab) 8 /\
  let (o, H') := r_set_bmins (SList 2%nat) 8 (after both lab) in
  o = Ok tt /\ view (put_nums 2 [numz 4] H') 8 = mkCond (Some [0]) (Some [numz 4]) (Some [numz 4]) (Some ["a"]) false.
Proof. split; [apply both_exist|]. vm_compute. repeat split. Qed.

Theorem C177_text : forall c H H' a,
  exists_in H c -> (a < h_next H)%nat ->
  (forall r, r_set_indexes (SText r) c H = (Ok tt, H') -> forall l, view (put_ints a l H') c = view H' c) /\
  (forall r, r_set_names (SText r) c H = (Ok tt, H') -> forall l, view (put_texts a l H') c = view H' c) /\
  (forall r, r_set_bmins (SText r) c H = (Ok tt, H') -> forall l, c_min (view (put_nums a l H') c) = c_min (view H' c)) /\
  (forall r, r_set_bmaxs (SText r) c H = (Ok tt, H') -> forall l, c_max (view (put_nums a l H') c) = c_max (view H' c)).
Proof. exact set_text_own. Qed.
Print Assumptions C177_text.

Example C177_text_ex : exists_in (after both lab) 8 /\
  let (o, H') := r_set_bmins (SText (Ok [numz 3])) 8 (after both lab) in
  o = Ok tt /\ c_min (view (put_nums 1 [numz 4] H') 8) = Some [numz 3].
Proof. split; [apply both_exist|]. vm_compute. repeat split. Qed.

Theorem C177_assigned_refuted : exists H c d a l H1 H2, exists_in H c /\ exists_in H d /\ (a < h_next H)%nat /\ c <> d /\
  r_set_bmaxs (SList a) c H = (Ok tt, H1) /\ r_set_bmaxs (SList a) d H1 = (Ok tt, H2) /\
  evaluate (view H2 d) three_row = Ok [1] /\ holds (h_conds H2 c) a /\ evaluate (view (put_nums a l H2) d) three_row = Ok [0].
Proof. exact assigned_refuted. Qed.
Print Assumptions C177_assigned_refuted.

(** ** C178 *)

Theorem C178_elsewhere : forall e H c,
  ~ touches e (h_conds H c) -> view (apply_edit e H) c = view H c.
Proof. exact edit_elsewhere. Qed.
Print Assumptions C178_elsewhere.

Example C178_elsewhere_ex : ~ touches (ENums 1 [numz 4]) (h_conds (after both lab) 9) /\ touches (ENums 1 [numz 4]) (h_conds (after both lab) 8).
Proof.
  split; [|apply Holds_min; reflexivity]. cbn. intros X. inversion X as [a A|a A]; discriminate A.
Qed.

Theorem C178_shows : forall H c a,
  (forall l, o_idx (h_conds H c) = Some a ->
     view (apply_edit (EInts a l) H) c = mkCond (Some l) (c_min (view H c)) (c_max (view H c)) (c_names (view H c)) (c_imp (view H c))) /\
  (forall l, o_names (h_conds H c) = Some a ->
     view (apply_edit (ETexts a l) H) c = mkCond (c_idx (view H c)) (c_min (view H c)) (c_max (view H c)) (Some l) (c_imp (view H c))) /\
  (forall l, o_min (h_conds H c) = Some a -> o_max (h_conds H c) <> Some a ->
     view (apply_edit (ENums a l) H) c = mkCond (c_idx (view H c)) (Some l) (c_max (view H c)) (c_names (view H c)) (c_imp (view H c))) /\
  (forall l, o_min (h_conds H c) <> Some a -> o_max (h_conds H c) = Some a ->
     view (apply_edit (ENums a l) H) c = mkCond (c_idx (view H c)) (c_min (view H c)) (Some l) (c_names (view H c)) (c_imp (view H c))) /\
  (forall l, o_min (h_conds H c) = Some a -> o_max (h_conds H c) = Some a ->
     view (apply_edit (ENums a l) H) c = mkCond (c_idx (view H c)) (Some l) (Some l) (c_names (view H c)) (c_imp (view H c))).
Proof. exact edit_shows. Qed.
Print Assumptions C178_shows.

Example C178_shows_ex : o_min (h_conds (after both lab) 8) = Some 1%nat /\ o_max (h_conds (after both lab) 8) <> Some 1%nat /\
  view (apply_edit (ENums 1 [numz 4]) (after both lab)) 8 = mkCond (Some [0]) (Some [numz 4]) (Some [numz 5]) (Some ["a"]) false.
Proof. split; [reflexivity|]. split; [discriminate|]. vm_compute. reflexivity. Qed.

(** ** C179 *)

Theorem C179_evaluates : forall H c a l xs,
  o_min (h_conds H c) = Some a -> o_max (h_conds H c) <> Some a ->
  evaluate (view (apply_edit (ENums a l) H) c) xs =
  if o_imp (h_conds H c) then Ok (repeat 0 (nrows xs))
  else evaluate (mkCond (c_idx (view H c)) (Some l) (c_max (view H c)) (c_names (view H c)) false) xs.
Proof. exact edit_evaluates. Qed.
Print Assumptions C179_evaluates.

Example C179_evaluates_ex : o_min (h_conds (after both lab) 8) = Some 1%nat /\ o_max (h_conds (after both lab) 8) <> Some 1%nat /\
  evaluate (view (after both lab) 8) three_row = Ok [1] /\
  evaluate (view (apply_edit (ENums 1 [numz 4]) (after both lab)) 8) three_row = Ok [0].
Proof. split; [reflexivity|]. split; [discriminate|]. vm_compute. repeat split. Qed.

Theorem C179_flag_refuted : (exists H c a l lows highs, exists_in H c /\ holds (h_conds H c) a /\
     c_min (view (put_nums a l H) c) = Some lows /\ c_max (view (put_nums a l H) c) = Some highs /\
     (exists lo hi, nth_error lows 0 = Some lo /\ nth_error highs 0 = Some hi /\ nltb hi lo = true) /\
     c_imp (view (put_nums a l H) c) = false) /\
  (exists H c a l, exists_in H c /\ holds (h_conds H c) a /\
     c_min (view (put_nums a l H) c) = Some [numz 1] /\ c_max (view (put_nums a l H) c) = Some [numz 5] /\
     evaluate (view (put_nums a l H) c) three_row = Ok [0]).
Proof. exact flag_refuted. Qed.
Print Assumptions C179_flag_refuted.

(** ** C180 *)

Theorem C180_same : forall limit G T q H s,
  extract_rules_from_tree limit G T q = Ok s ->
  exists cs H', r_visitor limit (e_sort (g_env G)) T q 0 None [] H = (Ok (map Some cs), H') /\ keeps H H' /\
    map r_cond (s_rules s) = map (fun c => Some (view H' c)) cs.
Proof. exact tree_same. Qed.
Print Assumptions C180_same.

Example C180_same_ex : extract_rules_from_tree 1000 quiet pine_arrays pine_nodes = Ok pine_node_set /\
  fst (r_visitor 1000 (e_sort (g_env quiet)) pine_arrays pine_nodes 0 None [] lab) = Ok (map Some [17; 32; 47; 71; 95; 105]%nat).
Proof. split; [exact pine_node_run|]. vm_compute. reflexivity. Qed.

Theorem C180_own : forall limit G T q H s cs H' es i j c d,
  extract_rules_from_tree limit G T q = Ok s ->
  r_visitor limit (e_sort (g_env G)) T q 0 None [] H = (Ok (map Some cs), H') ->
  nth_error cs i = Some c -> nth_error cs j = Some d -> i <> j ->
  Forall (fun e => holds (h_conds H' c) (edited e)) es -> view (apply_edits es H') d = view H' d.
Proof. exact tree_own. Qed.
Print Assumptions C180_own.

Example C180_own_ex : extract_rules_from_tree 1000 quiet pine_arrays pine_nodes = Ok pine_node_set /\
  holds (h_conds (after (r_visitor 1000 (e_sort (g_env quiet)) pine_arrays pine_nodes 0 None []) lab) 17) 15.
Proof. split; [exact pine_node_run|]. right; left. apply Holds_max. vm_compute. reflexivity. Qed.

(** ** C181 *)

Theorem C181_no_indexes : forall sett m M n b other,
  band sett (mkCond None m M (Some n) b) other =
  band sett (mkCond (Some (map Z.of_nat (seq 0 (List.length n)))) m M (Some n) b) other.
Proof. exact and_no_indexes. Qed.
Print Assumptions C181_no_indexes.

Example C181_no_indexes_ex : band "index" (mkCond None (Some [numz 1]) (Some [numz 5]) (Some ["a"]) false) partner =
  Ok (mkCond (Some [0; 1]) (Some [numz 1; numz 2]) (Some [numz 5; numz 8]) (Some ["a"; "b"]) false).
Proof. vm_compute. reflexivity. Qed.

Theorem C181_no_names : forall sett i m M b other,
  band sett (mkCond (Some i) m M None b) other =
  band sett (mkCond (Some i) m M (Some (map (fun i => String.append "X_" (show_int i)) i)) b) other.
Proof. exact and_no_names. Qed.
Print Assumptions C181_no_names.

Example C181_no_names_ex : band "index" nameless partner =
  Ok (mkCond (Some [0; 1]) (Some [numz 1; numz 2]) (Some [numz 5; numz 8]) (Some ["X_0"; "b"]) false).
Proof. vm_compute. reflexivity. Qed.

Theorem C181_nothing : forall sett m M b other,
  band sett (mkCond None m M None b) other = Err EValue.
Proof. exact and_nothing. Qed.
Print Assumptions C181_nothing.

Example C181_nothing_ex : band "index" (mkCond None (Some [numz 1]) (Some [numz 5]) None false) partner = Err EValue.
Proof. vm_compute. reflexivity. Qed.

Theorem C181_no_bounds : forall sett i m M n b other,
  m = None \/ M = None -> band sett (mkCond i m M n b) other = Err EValue.
Proof. exact and_no_bounds. Qed.
Print Assumptions C181_no_bounds.

Example C181_no_bounds_ex : band "index" (mkCond (Some [0]) None (Some [numz 5]) (Some ["a"]) false) partner = Err EValue.
Proof. vm_compute. reflexivity. Qed.

Theorem C181_right : forall sett self other,
  c_idx other = None \/ c_names other = None \/ c_min other = None \/ c_max other = None ->
  exists e, band sett self other = Err e.
Proof. exact and_right. Qed.
Print Assumptions C181_right.

Example C181_right_ex : c_names nameless = None /\ band "index" partner nameless = Err EType /\ c_idx partner = Some [1].
Proof. vm_compute. repeat split. Qed.

Theorem C181_sides_refuted : exists sett a b c e, band sett a b = Ok c /\ band sett b a = Err e.
Proof. exact sides_refuted. Qed.
Print Assumptions C181_sides_refuted.
