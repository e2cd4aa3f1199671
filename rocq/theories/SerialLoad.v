(** Loading what was saved. *)
From Coq Require Import List ZArith QArith Bool String Ascii Lia Relations Permutation.
From Coq Require Import List.
From Verif Require Import Base Num CondModel CondSpec CondBase CondProofs CondMore ThrModel ThrProofs MetModel
  RuleModel RuleSpec RuleProofs RuleMisc PredModel PredStack SetModel SetSpec SetBase SerialModel SerialSpec SerialProofs SerialSave.
Import ListNotations.
Open Scope string_scope.
Open Scope list_scope.
Open Scope Z_scope.

Lemma storable_describable X sett k r fs : storable X sett k r fs -> describable k r (List.length fs).
Proof.
  intros [SK (c & RC & C) O GN GI GL GH _ _ _ _ ST NM]. split.
  - destruct C as ((_ & _ & _ & N) & _). exists c. eexists. split; [exact RC|]. split; [exact N|]. apply map_length.
  - split.
    + intros a I. apply in_app_or in I as [I|I].
      * destruct I as [<-|[<-|[<-|[<-|[]]]]]; eauto.
      * destruct (ST a I) as (v & G & _). eauto.
    + destruct NM as [N|(t & N & _)]; eauto.
Qed.

Lemma label_free X sett k r fs i n label : storable X sett k r fs -> label_of X i n r label -> ~ In label labels.
Proof.
  intros S L. destruct S as [_ _ _ _ _ _ _ _ _ _ _ _ NM].
  destruct L as [t E|v E G|E G].
  - destruct NM as [N|(u & N & F)]; rewrite N in E; [discriminate E|]. injection E as <-. exact F.
  - intros [I|[I|[I|[I|[]]]]]; discriminate I.
  - intros [I|[I|[I|[I|[]]]]]; discriminate I.
Qed.

Lemma forall2_of_nth {A B} (P : A -> B -> Prop) : forall l m, List.length m = List.length l ->
  (forall j a, nth_error l j = Some a -> exists b, nth_error m j = Some b /\ P a b) -> Forall2 P l m.
Proof.
  induction l as [|a l IH]; intros [|b m] L H; try discriminate L; constructor.
  - destruct (H 0%nat a eq_refl) as (b' & E & Q). injection E as <-. exact Q.
  - apply IH; [injection L; auto|]. intros j x E. apply (H (S j) x E).
Qed.

Section Load.
Variables (X : texts) (LAW : lawful X).

(** ** Reading the file *)

Definition read_cells (lines : list (list string)) (i : nat) (cells : list string) : list obj :=
  map (fun p => read_cell X (SerialModel.numeric X lines (fst p)) (snd p)) (combine (seq i (List.length cells)) cells).

Lemma read_line_cons lines t cells :
  read_line X lines (t :: cells) = read_cell X (SerialModel.numeric X lines 0) t :: read_cells lines 1 cells.
Proof. reflexivity. Qed.

Lemma cells_back lines r : forall names cells i,
  Forall2 (fun a o => exists v, getattr r a = Ok v /\ o = text (x_str X v)) names cells ->
  (forall a v b, In a names -> getattr r a = Ok v -> x_str X (read_cell X b (x_str X v)) = x_str X v) ->
  Forall2 (cell_of X r) names (read_cells lines i (map (csv_cell X) cells)).
Proof.
  intros names cells i F. revert i. induction F as [|a o names cells (v & G & ->) F IH]; intros i H; [constructor|].
  unfold read_cells. cbn [map List.length seq combine fst snd]. constructor.
  - exists v. split; auto. apply H with (a := a); auto. left. auto.
  - apply IH. intros b w c I. apply H. right. auto.
Qed.

Lemma storable_cells sett k r fs : storable X sett k r fs ->
  forall a v b, In a (conditions ++ statistics k) -> getattr r a = Ok v -> x_str X (read_cell X b (x_str X v)) = x_str X v.
Proof.
  intros [SK C O GN GI GL GH (wn & WN & _) (wi & WI & _) (wl & WL & _) (wh & WH & _) ST NM] a v b I G.
  apply in_app_or in I as [I|I].
  - destruct I as [<-|[<-|[<-|[<-|[]]]]]; [rewrite GN in G|rewrite GI in G|rewrite GL in G|rewrite GH in G]; injection G as <-;
      eapply written_text; eauto.
  - destruct (ST a I) as (v' & G' & S). rewrite G in G'. injection G' as <-. eapply survivor_text; eauto.
Qed.

Lemma not_labelled label t b cells : ~ In t labels -> In label labels -> labelled label (read_cell X b t :: cells) = false.
Proof.
  intros N I. unfold read_cell. destruct (x_missing X t); [reflexivity|].
  assert (T : labelled label (text t :: cells) = false).
  { cbn [labelled text]. apply str_neq. intros ->. auto. }
  destruct b; auto. destruct (x_number X t); auto.
Qed.

Lemma label_read label b : In label labels -> read_cell X b label = text label.
Proof.
  intros I. destruct (labels_texts X LAW label I) as (M & N). unfold read_cell. rewrite M, N. destruct b; auto.
Qed.

Lemma look_app label l m : (forall row, In row l -> labelled label row = false) -> look label (l ++ m) = look label m.
Proof.
  intros H. unfold look. induction l as [|row l IH]; auto. cbn [app find]. rewrite (H row (or_introl eq_refl)).
  apply IH. intros x I. apply H. right. auto.
Qed.

Lemma drop_app label l m : (forall row, In row l -> labelled label row = false) -> drop label (l ++ m) = l ++ drop label m.
Proof.
  intros H. unfold drop. induction l as [|row l IH]; auto. cbn [app filter]. rewrite (H row (or_introl eq_refl)). cbn [negb].
  f_equal. apply IH. intros x I. apply H. right. auto.
Qed.

(** A value among texts *)
Lemma value_read v : as_text X v (read_cell X false (csv_cell X v)).
Proof.
  unfold read_cell. destruct v as [[| |[| | | ]| | |]| | | |]; cbn [csv_cell];
    try (rewrite (empty_missing X LAW); apply lost; auto; fail).
  all: try (match goal with |- context[x_missing X ?t] => destruct (x_missing X t) eqn:M end;
    [apply lost; auto|apply shown; auto; intros Q; discriminate Q]).
  destruct (x_missing X s) eqn:M.
  - apply lost. right. right. fold (text s). rewrite (str_text X LAW). exact M.
  - fold (text s). rewrite <- (str_text X LAW s) at 2. apply shown; try (intros Q; discriminate Q). rewrite (str_text X LAW). exact M.
Qed.

Lemma size_read set v w s : as_size X v w ->
  assign_size X set (Some (read_cell X false (csv_cell X v))) s = done (set w (match w with OVal (XNum NaN) => s | _ => set (text (x_str X v)) s end)).
Proof.
  intros [[-> | ->]|z E M I].
  - unfold read_cell. cbn [csv_cell none]. rewrite (empty_missing X LAW). reflexivity.
  - unfold read_cell. cbn [csv_cell nan]. rewrite (empty_missing X LAW). reflexivity.
  - rewrite E in *. unfold read_cell. unfold integer, numz in *. cbn [csv_cell]. rewrite M. cbn [assign_size text]. rewrite I. reflexivity.
Qed.

Lemma train_read v w s : as_size X v w -> assign_size X with_train (Some (read_cell X false (csv_cell X v))) s = done (with_train w s).
Proof. intros A. rewrite (size_read with_train v w s A). destruct w as [[| |[]| | |]| | | |]; reflexivity. Qed.

Lemma test_read v w s : as_size X v w -> assign_size X with_test (Some (read_cell X false (csv_cell X v))) s = done (with_test w s).
Proof. intros A. rewrite (size_read with_test v w s A). destruct w as [[| |[]| | |]| | | |]; reflexivity. Qed.

(** The values of the last rows *)
Lemma attributes_read l a b c d v1 v2 v3 w s :
  (forall row label, In row l -> In label labels -> labelled label row = false) -> as_size X v3 w ->
  load_attributes X (l ++ [text "ruleset coverage" :: v1 :: a; text "ruleset criterion" :: v2 :: b;
    text "ruleset train set size" :: read_cell X false (csv_cell X v3) :: c;
    text "ruleset test set size" :: read_cell X false (csv_cell X v3) :: d]) s =
  (Ok l, with_test w (with_train w (with_criterion v2 (with_coverage v1 s)))).
Proof.
  intros H A. unfold load_attributes.
  rewrite look_app by (intros row I; apply H; cbn; auto). rewrite drop_app by (intros row I; apply H; cbn; auto).
  cbn -[read_cell csv_cell assign_size].
  rewrite look_app by (intros row I; apply H; cbn; auto). rewrite drop_app by (intros row I; apply H; cbn; auto).
  cbn -[read_cell csv_cell assign_size].
  rewrite look_app by (intros row I; apply H; cbn; auto). rewrite drop_app by (intros row I; apply H; cbn; auto).
  cbn -[read_cell csv_cell assign_size].
  rewrite (train_read _ _ _ A). cbn -[read_cell csv_cell assign_size].
  rewrite look_app by (intros row I; apply H; cbn; auto). rewrite drop_app by (intros row I; apply H; cbn; auto).
  cbn -[read_cell csv_cell assign_size]. rewrite (test_read _ _ _ A). cbn. rewrite app_nil_r. reflexivity.
Qed.

(** ** The rules *)

Lemma rows_back E k s : known (e_sort E) -> forall rules fss, Forall2 (storable X (e_sort E) k) rules fss ->
  forall rows, Forall2 (fun r row => exists name ws, row = name :: ws /\ Forall2 (cell_of X r) (index k) ws) rules rows ->
  exists l1 l2, rseq (map (fun row => series_to_rule X E (combine ("Unnamed: 0" :: index k) row)) rows) = Ok l1 /\
    rseq (map (fill_sizes X s) l1) = Ok l2 /\ Forall2 (restored E (s_train s) (s_test s)) rules l2.
Proof.
  intros K rules fss S. induction S as [|r fs rules fss S1 S IH]; intros rows F; inversion F as [|? row ? rows' (name & ws & -> & C) F']; subst.
  - exists [], []. cbn. repeat split; auto.
  - destruct (row_back X LAW E k r fs name ws s K S1 C) as (r1 & r2 & E1 & E2 & R).
    destruct (IH _ F') as (l1 & l2 & M1 & M2 & R2). exists (r1 :: l1), (r2 :: l2).
    split; [|split].
    + cbn [map rseq]. rewrite E1. cbn [rbind]. rewrite M1. reflexivity.
    + cbn [map rseq]. rewrite E2. cbn [rbind]. rewrite M2. reflexivity.
    + constructor; auto.
Qed.

Lemma restored_names E train test k rules fss l : Forall2 (storable X (e_sort E) k) rules fss ->
  Forall2 (restored E train test) rules l ->
  rseq (map (fun r => rbind (rule_names r) need) l) = Ok (map (map f_name) fss).
Proof.
  intros S. revert l. induction S as [|r fs rules fss S1 S IH]; intros l R; inversion R as [|? r2 ? l2 R1 R2]; subst; auto.
  cbn [map rseq]. destruct S1 as [_ (c & RC & (_ & _ & _ & N) & _) _ _ _ _ _ _ _ _ _ _ _]. unfold rule_names at 1.
  rewrite (rs_cond _ _ _ _ _ R1), RC. cbn [rbind]. rewrite N. cbn [need rbind]. rewrite (IH _ R2). reflexivity.
Qed.

(** Loading the table of a ruleset into [t] *)
Definition loaded (E : env) (k : kind) (coverage criterion size : obj) (rules : list rule) (t t' : ruleset) : Prop :=
  Forall2 (restored E size size) rules (s_rules t') /\
  as_text X coverage (s_coverage t') /\ as_text X criterion (s_criterion t') /\
  s_train t' = size /\ s_test t' = size /\ s_type t' = Some k /\
  (forall f, In f (s_names t') <-> feature_name rules f) /\ NoDup (s_names t') /\
  s_idx t' = s_idx t /\ s_act t' = None /\ s_stack t' = s_stack t /\ s_compute t' = s_compute t /\
  s_stacked t' = (if s_stack t then None else s_stacked t).

Lemma storable_names sett k rules fss f : Forall2 (storable X sett k) rules fss ->
  In f (concat (map (map f_name) fss)) <-> feature_name rules f.
Proof.
  intros S. rewrite in_concat. split.
  - intros (l & I & IF). apply in_map_iff in I as (fs & <- & I).
    assert (Q : exists r, In r rules /\ storable X sett k r fs).
    { clear IF. induction S as [|r gs rules fss S1 S IH]; [destruct I|]. destruct I as [<-|I].
      - exists r. split; [left|]; auto.
      - destruct (IH I) as (q & J & SQ). exists q. split; [right|]; auto. }
    destruct Q as (r & J & SR). destruct SR as [_ (c & RC & (_ & _ & _ & N) & _) _ _ _ _ _ _ _ _ _ _ _].
    exists r, c, (map f_name fs). auto.
  - intros (r & c & l & J & RC & N & IF).
    assert (Q : exists fs, In fs fss /\ storable X sett k r fs).
    { clear IF. induction S as [|q gs rules fss S1 S IH]; [destruct J|]. destruct J as [<-|J].
      - exists gs. split; [left|]; auto.
      - destruct (IH J) as (fs & I & SQ). exists fs. split; [right|]; auto. }
    destruct Q as (fs & I & SR). destruct SR as [_ (c' & RC' & (_ & _ & _ & N') & _) _ _ _ _ _ _ _ _ _ _ _].
    assert (c' = c) by congruence. subst c'. assert (l = map f_name fs) by congruence. subst l.
    exists (map f_name fs). split; auto. apply in_map. auto.
Qed.

Lemma rest_read G k coverage criterion size rules fss t t0 :
  rules <> [] -> Forall2 (storable X (e_sort (g_env G)) k) rules fss ->
  Forall2 (restored (g_env G) size size) rules (s_rules t) ->
  as_text X coverage (s_coverage t) -> as_text X criterion (s_criterion t) ->
  s_train t = size -> s_test t = size -> s_idx t = s_idx t0 -> s_stack t = s_stack t0 -> s_compute t = s_compute t0 ->
  s_stacked t = s_stacked t0 ->
  exists t', load_rest G t = (Ok tt, t') /\ loaded (g_env G) k coverage criterion size rules t0 t'.
Proof.
  intros NE S R CO CR TR TE IX SK CP ST.
  pose proof (restored_names _ _ _ _ _ _ _ S R) as NM.
  assert (SN : forall f, In f (set_of str_eqb (concat (map (map f_name) fss))) <-> feature_name rules f).
  { intros f. rewrite <- (storable_names _ _ _ _ f S). apply set_of_In. apply str_eqb_iff. }
  destruct t as [l n i a co cr tr te st sk ty cp]. cbn in *. subst tr te i sk cp st.
  assert (L : exists r2 l2, l = r2 :: l2 /\ r_act r2 = None /\ r_kind r2 = k).
  { inversion R as [|r r2 ? l2 R1]; subst; [congruence|]. inversion S as [|? fs ? ? S1]; subst. exists r2, l2. split; auto.
    split; [apply R1|]. rewrite (rs_kind _ _ _ _ _ R1). apply S1. }
  destruct L as (r2 & l2 & -> & RA & RK).
  assert (AV : activation_available r2 = false) by (unfold activation_available; rewrite RA; auto).
  unfold load_rest. cbn [s_rules]. unfold compute_self_activation, evaluate_self_activation.
  cbn [s_rules with_type forallb]. rewrite AV. cbn [andb rbind use done chain s_stack with_activation].
  destruct (s_stack t0) eqn:SK.
  - unfold compute_stacked_activation, evaluate_stacked_activations, stack, with_activation, with_type. cbn [s_rules s_stack forallb]. rewrite AV.
    cbn [andb use done chain with_stacked s_rules]. rewrite NM. cbn [use done]. rewrite atoms_names. eexists. split; [reflexivity|].
    unfold loaded. rewrite SK. cbn. split; auto. repeat (split; [auto; congruence|]). split; [apply set_of_NoDup; apply str_eqb_iff|]. auto.
  - unfold with_activation, with_type. cbn [s_rules s_stack chain done]. rewrite NM. cbn [use done]. rewrite atoms_names. eexists. split; [reflexivity|].
    unfold loaded. rewrite SK. cbn. split; auto. repeat (split; [auto; congruence|]). split; [apply set_of_NoDup; apply str_eqb_iff|]. auto.
Qed.

Lemma extra_read lines label v k : In label labels -> SerialModel.numeric X lines 1 = false ->
  exists rest, read_line X lines (fst (extra label v (index k)) :: map (csv_cell X) (snd (extra label v (index k)))) =
    text label :: read_cell X false (csv_cell X v) :: rest.
Proof.
  intros I N. rewrite read_line_cons, label_read by exact I.
  assert (Q : exists rest, snd (extra label v (index k)) = v :: rest) by (destruct k; eexists; reflexivity).
  destruct Q as (rest & ->). cbn [map]. unfold read_cells. cbn [List.length seq combine map fst snd]. rewrite N.
  eexists. reflexivity.
Qed.

Lemma save_load G k s t fss size :
  known (e_sort (g_env G)) -> s_rules s <> [] -> s_type s = Some k ->
  Forall2 (storable X (e_sort (g_env G)) k) (s_rules s) fss -> as_size X (s_train s) size ->
  exists coverage f s1 t', ruleset_coverage s = Ok coverage /\ save X s = (Ok f, s1) /\
    load X G (read_csv X f) t = (Ok tt, t') /\
    loaded (g_env G) k coverage (s_criterion s) size (s_rules s) t t'.
Proof.
  intros K NE T S SZ.
  assert (D : forall r, In r (s_rules s) -> exists n, describable k r n).
  { intros r I. destruct (proj1 (forall2_in _ _ _ S) _ I) as (fs & _ & SR). eexists. eapply storable_describable; eauto. }
  destruct (to_df_steps X k true s NE T D) as (v & rows & rules' & CV & (L1 & L2 & F) & E).
  set (g := fun p : string * list obj => fst p :: map (csv_cell X) (snd p)).
  set (extras := [extra "ruleset coverage" v (index k); extra "ruleset criterion" (s_criterion s) (index k);
        extra "ruleset train set size" (s_train s) (index k); extra "ruleset test set size" (s_train s) (index k)]) in *.
  set (lines := map g (rows ++ extras)).
  exists v, (mkCsv ("" :: index k) lines), (with_rules rules' s).
  assert (SV : save X s = (Ok (mkCsv ("" :: index k) lines), with_rules rules' s)) by (unfold save; rewrite E; reflexivity).
  assert (N1 : SerialModel.numeric X lines 1 = false).
  { destruct (s_rules s) as [|r0 rest] eqn:RS; [congruence|]. inversion S as [|? fs ? ? S0]; subst.
    destruct (F 0%nat r0 eq_refl) as (n & label & cells & r' & N & _ & _ & RO & _).
    destruct rows as [|row rows]; [discriminate N|]. cbn [nth_error] in N. injection N as ->.
    unfold lines, SerialModel.numeric. cbn [app map forallb]. apply andb_false_iff. left.
    inversion RO as [|? o ? cells' (v0 & G0 & ->) _]; subst. unfold g. cbn [fst snd map nth csv_cell text].
    destruct S0 as [_ _ _ GN _ _ _ (w & (M & NU & _) & _) _ _ _ _ _]. rewrite GN in G0. injection G0 as <-. rewrite M, NU. reflexivity. }
  assert (COL : map header ("" :: index k) = "Unnamed: 0" :: index k) by (destruct k; reflexivity).
  assert (ROWS : exists a b c d, map (read_line X lines) lines = map (read_line X lines) (map g rows) ++
     [text "ruleset coverage" :: read_cell X false (csv_cell X v) :: a;
      text "ruleset criterion" :: read_cell X false (csv_cell X (s_criterion s)) :: b;
      text "ruleset train set size" :: read_cell X false (csv_cell X (s_train s)) :: c;
      text "ruleset test set size" :: read_cell X false (csv_cell X (s_train s)) :: d]).
  { destruct (extra_read lines "ruleset coverage" v k) as (a & EA); auto; [cbn; auto|].
    destruct (extra_read lines "ruleset criterion" (s_criterion s) k) as (b & EB); auto; [cbn; auto|].
    destruct (extra_read lines "ruleset train set size" (s_train s) k) as (c & EC); auto; [cbn; auto|].
    destruct (extra_read lines "ruleset test set size" (s_train s) k) as (d & ED); auto; [cbn; auto|].
    exists a, b, c, d. unfold lines at 2. rewrite map_app, map_app. f_equal. unfold extras, g. cbn [map].
    rewrite EA, EB, EC, ED. reflexivity. }
  destruct ROWS as (a & b & c & d & ROWS).
  assert (PER : Forall2 (fun r row => exists name ws, row = name :: ws /\ Forall2 (cell_of X r) (index k) ws /\
                          forall label, In label labels -> labelled label row = false)
                  (s_rules s) (map (read_line X lines) (map g rows))).
  { apply forall2_of_nth; [rewrite !map_length; exact L1|]. intros j r N.
    destruct (F j r N) as (n & label & cells & r' & N' & _ & LO & RO & _).
    destruct (proj1 (forall2_in _ _ _ S) _ (nth_error_In _ _ N)) as (fs & _ & SR).
    eexists. rewrite !nth_error_map, N'. split; [reflexivity|]. unfold g. cbn [fst snd]. rewrite read_line_cons.
    eexists. eexists. split; [reflexivity|]. split.
    - rewrite index_names. apply cells_back; [exact RO|]. exact (storable_cells _ _ _ _ SR).
    - intros l IL. apply not_labelled; auto. eapply label_free; eauto. }
  unfold load, read_csv. cbn [w_columns w_rows f_header f_lines]. rewrite COL, ROWS. cbv iota.
  rewrite attributes_read with (w := size); auto.
  2:{ intros row label I IL. destruct (proj2 (forall2_in _ _ _ PER) _ I) as (r & _ & name & ws & _ & _ & H). apply H; auto. }
  cbn [use]. set (t1 := with_test size _).
  assert (PER' : Forall2 (fun r row => exists name ws, row = name :: ws /\ Forall2 (cell_of X r) (index k) ws)
                  (s_rules s) (map (read_line X lines) (map g rows))).
  { eapply forall2_weaken; [|exact PER]. intros x y (name & ws & Q1 & Q2 & _). exists name, ws. auto. }
  destruct (rows_back (g_env G) k (with_rules (s_rules s) t1) K _ _ S _ PER') as (l1 & l2 & M1 & M2 & R).
  unfold load_rules. rewrite M1. cbn [use].
  assert (M2' : rseq (map (fill_sizes X t1) l1) = Ok l2) by (rewrite <- M2; reflexivity).
  rewrite M2'. cbn [use done chain].
  destruct (rest_read G k v (s_criterion s) size (s_rules s) fss (with_rules l2 (with_rules l1 t1)) t) as (t' & LR & LD); auto.
  - apply value_read.
  - apply value_read.
  - exists t'. split; auto.
Qed.

End Load.
