(** Lemmas about saving and loading. *)
From Coq Require Import List ZArith QArith Bool String Ascii Lia Relations Permutation.
From Coq Require Import List.
From Verif Require Import Base Num CondModel CondSpec CondBase CondProofs CondMore ThrModel ThrProofs MetModel
  RuleModel RuleSpec RuleProofs RuleMisc PredModel SetModel SetSpec SetBase SerialModel SerialSpec.
Import ListNotations.
Open Scope string_scope.
Open Scope list_scope.
Open Scope Z_scope.

(** ** traverse *)

Lemma nest_rect' {A} (P : nest A -> Prop) :
  (forall a, P (Atom a)) -> (forall c l, (forall o, In o l -> P o) -> P (Node c l)) -> forall o, P o.
Proof.
  intros HA HN. fix IH 1. intros [a|c l]; [apply HA|]. apply HN. induction l as [|x l IHl]; intros o I; [destruct I|].
  destruct I as [I|I]; [exact (eq_ind x P (IH x) o I)|exact (IHl o I)].
Qed.

Lemma unwrap_around {A} types (l m p q : list (nest A)) :
  clos_refl_trans _ (unwrap types) l m -> clos_refl_trans _ (unwrap types) (p ++ l ++ q) (p ++ m ++ q).
Proof.
  induction 1 as [l m U|l|l m n _ IH1 _ IH2].
  - destruct U as [l1 c m l2 T]. apply rt_step.
    replace (p ++ (l1 ++ Node c m :: l2) ++ q) with ((p ++ l1) ++ Node c m :: (l2 ++ q)) by (rewrite <- !app_assoc; auto).
    replace (p ++ (l1 ++ m ++ l2) ++ q) with ((p ++ l1) ++ m ++ (l2 ++ q)) by (rewrite <- !app_assoc; auto).
    constructor. auto.
  - apply rt_refl.
  - eapply rt_trans; eauto.
Qed.

Lemma unwrap_all {A} types (l : list (nest A)) :
  (forall o, In o l -> clos_refl_trans _ (unwrap types) [o] (traverse types o)) ->
  clos_refl_trans _ (unwrap types) l (flat_map (traverse types) l).
Proof.
  induction l as [|o l IH]; intros H; cbn [flat_map]; [apply rt_refl|].
  eapply rt_trans with (y := traverse types o ++ l).
  - apply (unwrap_around types [o] (traverse types o) [] l). apply H. left. auto.
  - specialize (IH (fun x I => H x (or_intror I))). apply (unwrap_around types _ _ (traverse types o) []) in IH.
    rewrite !app_nil_r in IH. exact IH.
Qed.

Lemma traverse_reached {A} types (o : nest A) : clos_refl_trans _ (unwrap types) [o] (traverse types o).
Proof.
  induction o as [a|c l IH] using nest_rect'; cbn [traverse]; [apply rt_refl|].
  destruct (types c) eqn:T; [|apply rt_refl].
  eapply rt_trans; [|apply unwrap_all, IH]. apply rt_step.
  pose proof (unwrap_one types [] c l [] T) as U. cbn in U. rewrite app_nil_r in U. exact U.
Qed.

Lemma traverse_elementary {A} types (o : nest A) : forall x, In x (traverse types o) -> elementary types x.
Proof.
  induction o as [a|c l IH] using nest_rect'; cbn [traverse].
  - intros x [<-|[]] c l E. discriminate E.
  - destruct (types c) eqn:T.
    + intros x I. apply in_flat_map in I as (o & I1 & I2). exact (IH o I1 x I2).
    + intros x [<-|[]] c' l' E. injection E as <- <-. exact T.
Qed.

Lemma unwrap_same {A} types (l m : list (nest A)) :
  clos_refl_trans _ (unwrap types) l m -> flat_map (traverse types) l = flat_map (traverse types) m.
Proof.
  induction 1 as [l m U|l|l m n _ IH1 _ IH2]; auto; [|congruence].
  destruct U as [l1 c m l2 T]. rewrite !flat_map_app. f_equal. cbn [flat_map traverse]. rewrite T. auto.
Qed.

Lemma elementary_same {A} types (l : list (nest A)) :
  (forall x, In x l -> elementary types x) -> flat_map (traverse types) l = l.
Proof.
  induction l as [|o l IH]; intros H; cbn [flat_map]; auto. rewrite IH by (intros x I; apply H; right; auto).
  destruct o as [a|c m]; cbn [traverse]; auto. rewrite (H (Node c m) (or_introl eq_refl) c m eq_refl). auto.
Qed.

Lemma traverse_spec (A : Type) (types : container -> bool) (o : nest A) :
  clos_refl_trans _ (unwrap types) [o] (traverse types o) /\
  (forall x, In x (traverse types o) -> elementary types x) /\
  (forall l, clos_refl_trans _ (unwrap types) [o] l -> (forall x, In x l -> elementary types x) -> l = traverse types o).
Proof.
  split; [apply traverse_reached|]. split; [apply traverse_elementary|].
  intros l U L. rewrite <- (elementary_same types l L), <- (unwrap_same types _ _ U). cbn [flat_map]. apply app_nil_r.
Qed.

Lemma atoms_names (names : list (list string)) :
  atoms (traverse tree_types (Node CList (map (fun l => Node CList (map Atom l)) names))) = concat names.
Proof.
  cbn [traverse tree_types]. assert (AP : forall l m : list (nest string), atoms (l ++ m) = atoms l ++ atoms m).
  { induction l as [|[a|c l'] l IH]; intros m; cbn; auto. rewrite IH. auto. }
  induction names as [|l names IH]; cbn [map flat_map concat]; auto. rewrite AP, IH. f_equal.
  cbn [traverse tree_types]. induction l as [|a l IHl]; cbn; auto. f_equal. exact IHl.
Qed.

(** ** Reading one rule *)

Lemma condition_eq c d fs : condition c fs -> condition d fs -> c = d.
Proof.
  destruct c, d. intros (L1 & _ & I1) (L2 & _ & I2). unfold lists in *. cbn in *.
  destruct L1 as (-> & -> & -> & ->), L2 as (-> & -> & -> & ->). f_equal. apply eq_true_iff_eq. rewrite I1, I2. reflexivity.
Qed.

Lemma arranged_same sett fs : known sett -> distinct fs -> in_order sett fs -> arranged sett fs = fs.
Proof.
  intros K D O. eapply (Forall2_eq_in_order sett); auto using arranged_order.
  - destruct D as (N1 & N2). split.
    + eapply Permutation_NoDup; [apply Permutation_map; symmetry; apply arranged_perm|auto].
    + eapply Permutation_NoDup; [apply Permutation_map; symmetry; apply arranged_perm|auto].
  - apply arranged_perm.
Qed.

Lemma texts_items l w : list_of_texts l w -> items w = Ok (Some (map AStr l)).
Proof. intros [-> | (-> & [-> | [-> | ->]])]; auto. Qed.
Lemma ints_items l w : list_of_ints l w -> items w = Ok (Some (map AInt l)).
Proof. intros [-> | (-> & [-> | [-> | ->]])]; auto. Qed.
Lemma numbers_items l w : list_of_numbers l w -> exists m, items w = Ok (Some m) /\ Forall2 CondSpec.reads m l.
Proof.
  intros [-> | [(zs & -> & ->) | (-> & [-> | [-> | ->]])]]; eexists; (split; [reflexivity|]).
  - induction l; cbn; constructor; auto. constructor.
  - induction zs; cbn; constructor; auto. constructor.
  - constructor.
  - constructor.
  - constructor.
Qed.

Lemma build_back sett fs c names idx mins maxs : known sett -> condition c fs -> in_order sett fs ->
  list_of_texts (map f_name fs) names -> list_of_ints (map f_index fs) idx ->
  list_of_numbers (map f_low fs) mins -> list_of_numbers (map f_high fs) maxs ->
  exists n i lo hi, items names = Ok n /\ items idx = Ok i /\ items mins = Ok lo /\ items maxs = Ok hi /\
    build sett i lo hi n false true = Ok c.
Proof.
  intros K C O N I L H. apply numbers_items in L as (lo & EL & RL), H as (hi & EH & RH).
  exists (Some (map AStr (map f_name fs))), (Some (map AInt (map f_index fs))), (Some lo), (Some hi).
  split; [apply texts_items; auto|]. split; [apply ints_items; auto|]. split; [auto|]. split; [auto|].
  destruct (build_sorted sett (Some (map AInt (map f_index fs))) (Some lo) (Some hi) (Some (map AStr (map f_name fs))) fs)
    as (d & B & D); auto.
  { constructor; auto; try apply map_map. apply C. }
  rewrite B. f_equal. eapply condition_eq; [|exact C]. rewrite arranged_same in D; auto. apply C.
Qed.

Section Reading.
Variables (X : texts) (LAW : lawful X).

Lemma missing_nan t : x_missing X t = false -> str_eqb t "nan" = false.
Proof.
  intros M. destruct (str_eqb t "nan") eqn:B; auto. apply str_eqb_iff in B. subst. rewrite (nan_missing X LAW) in M. discriminate M.
Qed.

Lemma survivor_read a v : survives X a v ->
  (if str_eqb (x_str X v) "nan" then Ok nan
   else if str_eqb a "prediction" then match x_eval X (x_str X v) with Err EValue => Ok (text (x_str X v)) | w => w end
   else x_eval X (x_str X v)) = Ok v.
Proof.
  intros [EV M N | -> | t -> -> EV M N].
  - rewrite (missing_nan _ M), EV. destruct str_eqb; auto.
  - rewrite (str_nan X LAW). auto.
  - rewrite (str_text X LAW), (missing_nan _ M), EV. auto.
Qed.

(** What is read of a cell has the same text. *)
Lemma survivor_text a v b : survives X a v -> x_str X (read_cell X b (x_str X v)) = x_str X v.
Proof.
  unfold read_cell. intros [EV M N | -> | t -> -> EV M N].
  - rewrite M. destruct b; [|apply (str_text X LAW)]. destruct x_number eqn:B; [|apply (str_text X LAW)].
    rewrite <- (N _ eq_refl). auto.
  - rewrite (str_nan X LAW), (nan_missing X LAW). apply (str_nan X LAW).
  - rewrite (str_text X LAW), M, N. destruct b; apply (str_text X LAW).
Qed.

Lemma written_text l w b : written X l w -> x_str X (read_cell X b (x_str X l)) = x_str X l.
Proof. unfold read_cell. intros (M & N & _). rewrite M, N. destruct b; apply (str_text X LAW). Qed.

(** The cells of the row of a rule, as texts *)
Definition cell_of (r : rule) (a : string) (w : obj) : Prop := exists v, getattr r a = Ok v /\ x_str X w = x_str X v.

Lemma read_first v rest conds r : read_attributes X (("Unnamed: 0", v) :: rest) (conds, r) = read_attributes X rest (conds, r).
Proof. cbn [read_attributes]. unfold read_attribute. destruct (r_kind r); reflexivity. Qed.

Lemma read_condition a w l t rest conds r : In a conditions -> x_str X w = t -> x_eval X t = Ok l ->
  read_attributes X ((a, w) :: rest) (conds, r) = read_attributes X rest (dset a l conds, r).
Proof.
  intros I T EV. cbn [read_attributes]. unfold read_attribute.
  assert (M : mem str_eqb a condition_index = true).
  { destruct I as [<-|[<-|[<-|[<-|[]]]]]; reflexivity. }
  rewrite M, T, EV. reflexivity.
Qed.

Lemma read_statistic a w v rest conds r : In a (statistics (r_kind r)) -> x_str X w = x_str X v -> survives X a v ->
  read_attributes X ((a, w) :: rest) (conds, r) = read_attributes X rest (conds, put ("_" ++ a) v r).
Proof.
  intros I T S. cbn [read_attributes]. unfold read_attribute.
  assert (M : mem str_eqb a condition_index = false /\ mem str_eqb a (rule_index (r_kind r)) = true).
  { destruct (r_kind r); cbn [statistics In] in I; repeat (destruct I as [<-|I]; [split; reflexivity|]); destruct I. }
  destruct M as (-> & ->). rewrite T, (survivor_read _ _ S). reflexivity.
Qed.

Definition begun (E : env) (k : kind) : rule :=
  put "_name" (text "Unnamed: 0")
    (regression_dict (mkRule k None None (class_thresholds (e_classes E) k) true None false false (initial_dict k))).

Definition gathered (n i lo hi : obj) : list (string * obj) :=
  [("features_names", n); ("features_indexes", i); ("bmins", lo); ("bmaxs", hi)].

Lemma series_made E k (r r1 : rule) srule c n i lo hi wn wi wl wh v :
  map fst srule = "Unnamed: 0" :: index k ->
  read_attributes X srule ([], begun E k) = Ok (gathered wn wi wl wh, r1) ->
  items wn = Ok n -> items wi = Ok i -> items wl = Ok lo -> items wh = Ok hi ->
  build (e_sort E) i lo hi n false true = Ok c ->
  getattr (with_cond c r1) "prediction" = Ok v ->
  series_to_rule X E srule = Ok (match v with OVal XNone => with_cond c r1 | _ => with_fitted (with_cond c r1) end).
Proof.
  intros M R N I L H B P. unfold series_to_rule. rewrite M.
  assert (V : forallb valid_column ("Unnamed: 0" :: index k) = true) by (destruct k; reflexivity).
  assert (KK : kind_of_columns ("Unnamed: 0" :: index k) = k) by (destruct k; reflexivity).
  rewrite V, KK. cbn [negb]. cbv iota.
  assert (W : new_rule E k CNone VNone =
    Ok (regression_dict (mkRule k None None (class_thresholds (e_classes E) k) true None false false (initial_dict k))))
    by reflexivity.
  rewrite W. cbn [rbind]. unfold begun in R. rewrite R. cbn [rbind].
  unfold argument, gathered. cbn [dget str_eqb]. 
  change (str_eqb "features_indexes" "features_names") with false. change (str_eqb "bmins" "features_names") with false.
  change (str_eqb "bmaxs" "features_names") with false. cbv iota.
  change (str_eqb "features_indexes" "features_indexes") with true. change (str_eqb "bmins" "features_indexes") with false.
  change (str_eqb "bmaxs" "features_indexes") with false. cbv iota.
  change (str_eqb "bmins" "bmins") with true. change (str_eqb "bmaxs" "bmins") with false. change (str_eqb "bmaxs" "bmaxs") with true.
  change (str_eqb "features_names" "features_names") with true. cbv iota.
  rewrite I, L, H, N. cbn [rbind]. rewrite B. cbn [rbind]. rewrite P. destruct v as [[]| | | |]; reflexivity.
Qed.

Definition unnamed (r : rule) : Prop := forall a, In a conditions -> dget a (r_dict r) = None.

Lemma unnamed_put n v r : ~ In n conditions -> unnamed r -> unnamed (put n v r).
Proof.
  intros N U a I. cbn [put r_dict]. rewrite dset_get, str_neq; [apply U; auto|]. intros ->. auto.
Qed.

Lemma condition_attr r c : unnamed r -> r_act r = None -> r_cond r = Some c ->
  getattr r "features_names" = list_or_none OTexts (c_names c) /\
  getattr r "features_indexes" = list_or_none OInts (c_idx c) /\
  getattr r "bmins" = list_or_none ONums (c_min c) /\
  getattr r "bmaxs" = list_or_none ONums (c_max c).
Proof.
  intros U RA RC.
  assert (AP : forall a (d e : list (string * obj)), dget a d = None -> dget a (d ++ e) = dget a e).
  { intros a d e. induction d as [|(x, y) d IH]; cbn [dget app]; auto. destruct (str_eqb a x); [intros H; discriminate H|auto]. }
  assert (F : forall a, In a conditions -> getattr r a = delegated r a).
  { intros a I. unfold getattr. rewrite AP by (apply U; auto).
    destruct I as [<-|[<-|[<-|[<-|[]]]]]; destruct (r_kind r); reflexivity. }
  split; [rewrite F by (cbn; auto); unfold delegated; rewrite RA, RC; reflexivity|].
  split; [rewrite F by (cbn; auto); unfold delegated; rewrite RA, RC; reflexivity|].
  split; rewrite F by (cbn; auto); unfold delegated; rewrite RA, RC; reflexivity.
Qed.

(** A rule just read *)
Record fresh_read (E : env) (r r1 : rule) (c : cond) : Prop := {
  fr_kind : r_kind r1 = r_kind r;
  fr_cond : r_cond r1 = Some c;
  fr_act : r_act r1 = None;
  fr_thr : r_thr r1 = class_thresholds (e_classes E) (r_kind r);
  fr_good : r_good r1 = true /\ r_bad r1 = None;
  fr_evaluated : r_evaluated r1 = false;
  fr_train : slot "_train_set_size" r1 = none;
  fr_test : slot "_test_set_size" r1 = none;
  fr_name : slot "_name" r1 = text "Unnamed: 0";
  fr_unnamed : unnamed r1;
  fr_values : forall a, In a (statistics (r_kind r)) -> getattr r a = Ok (slot ("_" ++ a) r1) }.

Lemma not_table r p : r_kind r = KClassification -> getattr r "prediction" <> Ok (OTable p).
Proof.
  intros K. rewrite prediction_attr. unfold prediction. rewrite K. destruct (slot "_prediction" r) as [| | | |q]; try (intros H; discriminate H).
  destruct (most_probable q) as [[]|]; intros H; discriminate H.
Qed.

Lemma read_slot r r1 r2 a : r_kind r2 = r_kind r -> r_act r2 = None -> In a (statistics (r_kind r)) ->
  slot ("_" ++ a) r2 = slot ("_" ++ a) r1 -> getattr r a = Ok (slot ("_" ++ a) r1) -> getattr r2 a = getattr r a.
Proof.
  intros K A I S V. rewrite V, <- S.
  assert (P : a = "prediction" \/ a = "coverage" \/ a <> "prediction" /\ a <> "coverage").
  { destruct (string_dec a "prediction"), (string_dec a "coverage"); auto. }
  destruct P as [-> | [-> | (N1 & N2)]].
  - change ("_" ++ "prediction")%string with "_prediction" in *. rewrite prediction_attr. unfold prediction. rewrite K. destruct (r_kind r) eqn:KK; auto.
    destruct (slot "_prediction" r2) as [| | | |p] eqn:T; auto. rewrite <- S in V. destruct (not_table r p KK V).
  - change ("_" ++ "coverage")%string with "_coverage" in *. destruct (r_kind r) eqn:KK; unfold getattr; rewrite K; cbn -[slot]; unfold coverage; rewrite A; reflexivity.
  - destruct (r_kind r) eqn:KK; cbn [statistics In] in I;
      repeat (destruct I as [<-|I]; [try congruence; unfold getattr; rewrite K; reflexivity|]); destruct I.
Qed.

Lemma restored_fill E r r1 c fs s : fresh_read E r r1 c -> r_cond r = Some c -> condition c fs ->
  getattr r "features_names" = Ok (OTexts (map f_name fs)) -> getattr r "features_indexes" = Ok (OInts (map f_index fs)) ->
  getattr r "bmins" = Ok (ONums (map f_low fs)) -> getattr r "bmaxs" = Ok (ONums (map f_high fs)) ->
  (r_fitted r1 = true <-> getattr r "prediction" <> Ok none) ->
  exists r2, fill_sizes X s r1 = Ok r2 /\ restored E (s_train s) (s_test s) r r2.
Proof.
  intros [K RC RA RT RG RE TR TE NA U V] C0 C GN GI GL GH FI.
  set (r2 := put "_test_set_size" (s_test s) (put "_train_set_size" (s_train s) r1)).
  exists r2. split.
  { unfold fill_sizes, fill_size. rewrite TR. cbn [rbind none]. rewrite slot_put_other by discriminate. rewrite TE. reflexivity. }
  assert (U2 : unnamed r2).
  { apply unnamed_put; [intros [I|[I|[I|[I|[]]]]]; discriminate I|]. apply unnamed_put; auto. intros [I|[I|[I|[I|[]]]]]; discriminate I. }
  assert (SL : forall a, In a (statistics (r_kind r)) -> slot ("_" ++ a) r2 = slot ("_" ++ a) r1).
  { intros a I. unfold r2. rewrite !slot_put_other; auto; intros EQ; destruct (r_kind r); cbn [statistics In] in I;
      repeat (destruct I as [<-|I]; [discriminate EQ|]); destruct I. }
  destruct (condition_attr r2 c U2 RA RC) as (A1 & A2 & A3 & A4).
  destruct C as ((B2 & B3 & B4 & B1) & _). rewrite B1 in A1. rewrite B2 in A2. rewrite B3 in A3. rewrite B4 in A4.
  constructor; auto.
  - cbn [r2 put r_cond]. rewrite RC, C0. auto.
  - intros a I. apply in_app_or in I as [I|I].
    + destruct I as [<-|[<-|[<-|[<-|[]]]]]; [rewrite GN, A1|rewrite GI, A2|rewrite GL, A3|rewrite GH, A4]; reflexivity.
    + apply read_slot with (r1 := r1); auto.
  - unfold getattr. destruct (r_kind r2) eqn:KK; cbn -[slot r2]; unfold r2;
      rewrite slot_put_other by discriminate; rewrite slot_put; reflexivity.
  - unfold getattr. destruct (r_kind r2) eqn:KK; cbn -[slot r2]; unfold r2; rewrite slot_put; reflexivity.
  - unfold r2. rewrite !slot_put_other by discriminate. exact NA.
Qed.

Lemma row_back E k r fs name ws s : known (e_sort E) -> storable X (e_sort E) k r fs ->
  Forall2 (cell_of r) (index k) ws ->
  exists r1 r2, series_to_rule X E (combine ("Unnamed: 0" :: index k) (name :: ws)) = Ok r1 /\
    fill_sizes X s r1 = Ok r2 /\ restored E (s_train s) (s_test s) r r2.
Proof.
  intros K [SK (c & RC & C) O GN GI GL GH (wn & WN & LN) (wi & WI & LI) (wl & WL & LL) (wh & WH & LH) ST NAME] CELLS.
  destruct (build_back (e_sort E) fs c wn wi wl wh) as (n & i & lo & hi & IN & II & IL & IH & B); auto.
  destruct WN as (_ & _ & WN), WI as (_ & _ & WI), WL as (_ & _ & WL), WH as (_ & _ & WH).
  assert (P : exists v, getattr r "prediction" = Ok v /\ survives X "prediction" v) by (apply ST; destruct k; left; auto).
  destruct P as (vp & GP & SP).
  inversion CELLS as [|? w1 ? ws1 (v1 & G1 & T1) C1]; subst. rewrite GN in G1. injection G1 as <-.
  inversion C1 as [|? w2 ? ws2 (v2 & G2 & T2) C2]; subst. rewrite GI in G2. injection G2 as <-.
  inversion C2 as [|? w3 ? ws3 (v3 & G3 & T3) C3]; subst. rewrite GL in G3. injection G3 as <-.
  inversion C3 as [|? w4 ? ws4 (v4 & G4 & T4) C4]; subst. rewrite GH in G4. injection G4 as <-.
  inversion C4 as [|? w5 ? ws5 (v5 & G5 & T5) C5]; subst. rewrite GP in G5. injection G5 as <-.
  assert (MADE : forall r1 : rule, r_cond r1 = None ->
    read_attributes X (combine ("Unnamed: 0" :: index (r_kind r)) (name :: w1 :: w2 :: w3 :: w4 :: w5 :: ws5)) ([], begun E (r_kind r)) =
      Ok (gathered wn wi wl wh, r1) -> r_fitted r1 = false ->
    fresh_read E r (with_cond c r1) c ->
    exists r2 r3, series_to_rule X E (combine ("Unnamed: 0" :: index (r_kind r)) (name :: w1 :: w2 :: w3 :: w4 :: w5 :: ws5)) = Ok r2 /\
    fill_sizes X s r2 = Ok r3 /\ restored E (s_train s) (s_test s) r r3).
  { intros r1 N R F FR.
    assert (GP' : getattr (with_cond c r1) "prediction" = Ok vp).
    { rewrite <- GP. apply read_slot with (r1 := with_cond c r1); try apply FR; auto; destruct (r_kind r); left; reflexivity. }
    assert (LEN : map fst (combine ("Unnamed: 0" :: index (r_kind r)) (name :: w1 :: w2 :: w3 :: w4 :: w5 :: ws5)) =
                  "Unnamed: 0" :: index (r_kind r)).
    { clear -C5. cbn [combine map fst index app]. do 6 f_equal. revert ws5 C5. cbn [index app].
      generalize (match r_kind r with KRule => [] | KRegression => ["coverage"; "zscore"; "criterion"; "std"] | KClassification => ["coverage"; "criterion"] end).
      induction 1; cbn [combine map fst]; f_equal; auto. }
    eexists. pose proof (series_made E (r_kind r) r r1 _ c n i lo hi wn wi wl wh vp LEN R IN II IL IH B GP') as SM.
    assert (FI : exists r2, fill_sizes X s (match vp with OVal XNone => with_cond c r1 | _ => with_fitted (with_cond c r1) end) = Ok r2 /\
                            restored E (s_train s) (s_test s) r r2).
    { apply restored_fill with (c := c) (fs := fs); auto.
      - destruct vp as [[]| | | |]; try exact FR; destruct FR; constructor; auto.
      - rewrite GP. destruct vp as [[]| | | |]; split; try reflexivity; try (intros _ Q; discriminate Q).
        + cbn. rewrite F. intros Q. discriminate Q.
        + intros Q. destruct (Q eq_refl). }
    destruct FI as (r3 & FS & RS). exists r3. split; [exact SM|]. split; auto. }
  assert (HEAD : forall rest, read_attributes X (("Unnamed: 0", name) :: ("features_names", w1) :: ("features_indexes", w2) ::
     ("bmins", w3) :: ("bmaxs", w4) :: ("prediction", w5) :: rest) ([], begun E (r_kind r)) =
     read_attributes X rest (gathered wn wi wl wh, put "_prediction" vp (begun E (r_kind r)))).
  { intros rest. rewrite read_first.
    rewrite (read_condition "features_names" w1 wn _ _ _ _ (or_introl eq_refl) T1 WN).
    rewrite (read_condition "features_indexes" w2 wi _ _ _ _ (or_intror (or_introl eq_refl)) T2 WI).
    rewrite (read_condition "bmins" w3 wl _ _ _ _ (or_intror (or_intror (or_introl eq_refl))) T3 WL).
    rewrite (read_condition "bmaxs" w4 wh _ _ _ _ (or_intror (or_intror (or_intror (or_introl eq_refl)))) T4 WH).
    rewrite (read_statistic "prediction" w5 vp); auto. destruct (r_kind r); left; reflexivity. }
  destruct (r_kind r) eqn:KR.
  - inversion C5; subst. apply (MADE (put "_prediction" vp (begun E KRule))); try reflexivity.
    + cbn [combine index app]. apply HEAD.
    + constructor; auto; try reflexivity.
      * rewrite KR. reflexivity.
      * intros a [<-|[<-|[<-|[<-|[]]]]]; reflexivity.
      * intros a I. rewrite KR in I. destruct I as [<-|[]]. rewrite GP. reflexivity.
  - destruct (ST "coverage") as (vc & GC & SC); [cbn; auto 10|]. destruct (ST "zscore") as (vz & GZ & SZ); [cbn; auto 10|].
    destruct (ST "criterion") as (vq & GQ & SQ); [cbn; auto 10|]. destruct (ST "std") as (vs & GS & SS); [cbn; auto 10|].
    inversion C5 as [|? w6 ? ws6 (v6 & G6 & T6) C6]; subst. rewrite GC in G6. injection G6 as <-.
    inversion C6 as [|? w7 ? ws7 (v7 & G7 & T7) C7]; subst. rewrite GZ in G7. injection G7 as <-.
    inversion C7 as [|? w8 ? ws8 (v8 & G8 & T8) C8]; subst. rewrite GQ in G8. injection G8 as <-.
    inversion C8 as [|? w9 ? ws9 (v9 & G9 & T9) C9]; subst. rewrite GS in G9. injection G9 as <-.
    inversion C9; subst.
    apply (MADE (put "_std" vs (put "_criterion" vq (put "_zscore" vz (put "_coverage" vc (put "_prediction" vp (begun E KRegression))))))); try reflexivity.
    + cbn [combine index app]. rewrite HEAD.
      rewrite (read_statistic "coverage" w6 vc); auto; [|cbn; auto].
      rewrite (read_statistic "zscore" w7 vz); auto; [|cbn; auto].
      rewrite (read_statistic "criterion" w8 vq); auto; [|cbn; auto].
      rewrite (read_statistic "std" w9 vs); auto; cbn; auto 10.
    + constructor; auto; try reflexivity.
      * rewrite KR. reflexivity.
      * intros a [<-|[<-|[<-|[<-|[]]]]]; reflexivity.
      * intros a I. rewrite KR in I. destruct I as [<-|[<-|[<-|[<-|[<-|[]]]]]]; [rewrite GP|rewrite GC|rewrite GZ|rewrite GQ|rewrite GS]; reflexivity.
  - destruct (ST "coverage") as (vc & GC & SC); [cbn; auto 10|].
    destruct (ST "criterion") as (vq & GQ & SQ); [cbn; auto 10|].
    inversion C5 as [|? w6 ? ws6 (v6 & G6 & T6) C6]; subst. rewrite GC in G6. injection G6 as <-.
    inversion C6 as [|? w8 ? ws8 (v8 & G8 & T8) C8]; subst. rewrite GQ in G8. injection G8 as <-.
    inversion C8; subst.
    apply (MADE (put "_criterion" vq (put "_coverage" vc (put "_prediction" vp (begun E KClassification))))); try reflexivity.
    + cbn [combine index app]. rewrite HEAD.
      rewrite (read_statistic "coverage" w6 vc); auto; [|cbn; auto].
      rewrite (read_statistic "criterion" w8 vq); auto; cbn; auto 10.
    + constructor; auto; try reflexivity.
      * rewrite KR. reflexivity.
      * intros a [<-|[<-|[<-|[<-|[]]]]]; reflexivity.
      * intros a I. rewrite KR in I. destruct I as [<-|[<-|[<-|[]]]]; [rewrite GP|rewrite GC|rewrite GQ]; reflexivity.
Qed.

End Reading.
