(** What rules and rulesets print. *)
From Coq Require Import List ZArith QArith Bool String Ascii Lia.
From Coq Require Import List.
From Verif Require Import Base Num CondModel CondSpec CondBase ThrModel MetModel RuleModel RuleSpec PredModel PredSpec PredReg PredStack PredName
  SetModel SetSpec SetBase SetStack FitModel FitVal TreeProofs TextModel TextSpec.
Import ListNotations.
Open Scope string_scope.
Open Scope list_scope.
Open Scope Z_scope.

(** ** Conditions *)

Lemma lacks_app' c s t : lacks c s -> lacks c t -> lacks c (s ++ t)%string.
Proof. induction s; cbn; auto. tauto. Qed.

Lemma printed_split repr f g u v :
  lacks "[" (f_name f) -> lacks "[" (f_name g) ->
  (forall x, without "," (repr x) /\ without "]" (repr x)) -> (forall x y, repr x = repr y -> same_num x y) ->
  (printed repr f ++ u)%string = (printed repr g ++ v)%string ->
  f_name f = f_name g /\ same_num (f_low f) (f_low g) /\ same_num (f_high f) (f_high g) /\ u = v.
Proof.
  intros F G R I H. unfold printed in H. rewrite !append_assoc in H.
  assert (P : forall n t, (n ++ (" in [" ++ t))%string = ((n ++ " in ") ++ String "[" t)%string) by (intros; rewrite append_assoc; reflexivity).
  rewrite !P in H. apply split_at in H; try (apply lacks_app'; [assumption|cbn; repeat split; discriminate]).
  destruct H as (N & H). rewrite ?append_assoc in H. cbn [append] in H.
  assert (NN : f_name f = f_name g).
  { clear - N. revert N. generalize (f_name f) (f_name g). intros a b. revert b.
    induction a as [|x a IH]; intros [|y b] N; cbn in N; auto.
    - injection N as _ N. destruct b as [|? [|? [|? [|? ?]]]]; cbn in N; discriminate.
    - injection N as _ N. destruct a as [|? [|? [|? [|? ?]]]]; cbn in N; discriminate.
    - injection N as -> N. f_equal. auto. }
  apply split_at in H; try (apply without_lacks; apply R). destruct H as (L & H).
  injection H as H. rewrite ?append_assoc in H. cbn [append] in H.
  apply split_at in H; try (apply without_lacks; apply R). destruct H as (K & H). auto.
Qed.

Lemma texts_split repr fs gs u v :
  (forall f, In f (fs ++ gs) -> lacks "[" (f_name f)) ->
  (forall x, without "," (repr x) /\ without "]" (repr x)) -> (forall x y, repr x = repr y -> same_num x y) ->
  (forall w, u <> (" AND " ++ w)%string) -> (forall w, v <> (" AND " ++ w)%string) ->
  (String.concat " AND " (map (printed repr) fs) ++ u)%string = (String.concat " AND " (map (printed repr) gs) ++ v)%string -> fs <> [] -> gs <> [] ->
  Forall2 same_bounds fs gs /\ u = v.
Proof.
  intros W R I U V. revert gs W. induction fs as [|f fs IH]; intros gs W H F G; [congruence|]. destruct gs as [|g gs]; [congruence|].
  assert (Wf : lacks "[" (f_name f)) by (apply W; left; auto).
  assert (Wg : lacks "[" (f_name g)) by (apply W; apply in_or_app; right; left; auto).
  destruct fs as [|f2 fs], gs as [|g2 gs]; cbn [map] in H; rewrite ?concat_cons, ?append_assoc in H.
  - cbn [String.concat] in H. destruct (printed_split repr f g u v) as (N & L & K & X); auto.
    split; [constructor; [split; auto|auto]|auto].
  - exfalso. cbn [String.concat] in H. destruct (printed_split repr f g u _ Wf Wg R I H) as (_ & _ & _ & X). apply (U _ X).
  - exfalso. destruct (printed_split repr f g _ v Wf Wg R I H) as (_ & _ & _ & X). symmetry in X. apply (V _ X).
  - destruct (printed_split repr f g _ _ Wf Wg R I H) as (N & L & K & X).
    assert (Y : (String.concat " AND " (map (printed repr) (f2 :: fs)) ++ u)%string = (String.concat " AND " (map (printed repr) (g2 :: gs)) ++ v)%string).
    { cbn [append] in X. injection X as X. exact X. }
    destruct (IH (g2 :: gs)) as (A & B); try discriminate; auto.
    + intros x Hx. apply W. right. apply in_app_or in Hx. apply in_or_app. destruct Hx; [left; auto|right; right; auto].
    + split; [constructor; [split; auto|exact A]|exact B].
Qed.

Lemma same_texts repr fs gs : (forall x y, same_num x y -> repr x = repr y) -> Forall2 same_bounds fs gs ->
  map (printed repr) fs = map (printed repr) gs.
Proof.
  intros I H. induction H as [|f g fs gs (N & L & K) _ IH]; auto. cbn [map]. f_equal; auto.
  unfold printed. rewrite N, (I _ _ L), (I _ _ K). reflexivity.
Qed.

(** The text of a condition *)
Lemma condition_text repr c fs : lists c fs -> fs <> [] -> cond_str repr c = Ok (String.concat " AND " (map (printed repr) fs)).
Proof.
  intros L N.
  set (E := mkEnv (mkClasses None None None) (mkLib (fun x => Ok x) (fun x => Ok x) (fun x => Ok x) (fun _ => "") (fun _ => Ok 0)) (fun x => x) repr (fun _ => NaN) false "index").
  pose (r := mkRule KRule (Some c) None None true None false false []).
  assert (K : called E r (String.concat " AND " (map (printed repr) fs))) by (exists c, fs; repeat split; auto; apply L).
  apply called_name in K. exact K.
Qed.

Lemma condition_texts repr c c' fs gs :
  legible repr -> lists c fs -> lists c' gs -> fs <> [] -> gs <> [] -> (forall f, In f (fs ++ gs) -> without "[" (f_name f)) ->
  (cond_str repr c = cond_str repr c' <-> Forall2 same_bounds fs gs).
Proof.
  intros (R & I) L L' N N' W. rewrite (condition_text _ _ _ L N), (condition_text _ _ _ L' N'). split.
  - intros H. injection H as H. destruct (texts_split repr fs gs "" "") as (A & _); auto; try discriminate.
    + intros f F. apply without_lacks. auto.
    + intros x y. apply I.
    + rewrite !append_nil. exact H.
  - intros H. f_equal. f_equal. apply same_texts; auto. intros x y. apply I.
Qed.

(** ** Rules *)

Lemma said_one show r : exists p, said show r p /\
  match slot "_prediction" r with OVal XNone => "<prediction unset>" | p => show p end = p.
Proof.
  destruct (slot "_prediction" r) as [[| | | | |]| | | |] eqn:P; eexists; (split; [|reflexivity]);
    try (apply said_unset; exact P); apply said_set; auto; discriminate.
Qed.

Lemma said_fun show r p q : said show r p -> said show r q -> p = q.
Proof. intros [A|p' A B] [C|q' C D]; auto; congruence. Qed.

Lemma rule_text E show r t : spelled E show r t -> rule_str E show r = Ok t.
Proof.
  intros [C|s p C P]; unfold rule_str.
  - rewrite C. reflexivity.
  - destruct (said_one show r) as (q & Q & ->). rewrite (said_fun _ _ _ _ Q P).
    pose proof (called_name _ _ _ C) as K. destruct C as (c & fs & C & _). unfold rule_name in K. rewrite C in K. rewrite C, K. reflexivity.
Qed.

Lemma rule_text_made E show r c fs :
  (r_cond r = None -> rule_str E show r = Ok "empty rule") /\
  (r_cond r = Some c -> lists c fs -> fs <> [] -> exists s p, called E r s /\ said show r p /\
     rule_str E show r = Ok ("If " ++ s ++ " Then " ++ p ++ ".")%string).
Proof.
  split.
  - intros C. apply rule_text. constructor. auto.
  - intros C L N. destruct (said_one show r) as (p & P & _).
    assert (K : called E r (String.concat " AND " (map (printed (e_repr E)) fs))) by (exists c, fs; auto).
    exists (String.concat " AND " (map (printed (e_repr E)) fs)), p. split; [exact K|]. split; [exact P|].
    apply rule_text. constructor; auto.
Qed.

Lemma rule_texts E show r r' c c' fs gs p q :
  legible (e_repr E) -> r_cond r = Some c -> r_cond r' = Some c' -> lists c fs -> lists c' gs -> fs <> [] -> gs <> [] ->
  (forall f, In f (fs ++ gs) -> without "[" (f_name f)) -> said show r p -> said show r' q ->
  (rule_str E show r = rule_str E show r' <-> Forall2 same_bounds fs gs /\ p = q).
Proof.
  intros (R & I) C C' L L' N N' W P Q.
  assert (K : called E r (String.concat " AND " (map (printed (e_repr E)) fs))) by (exists c, fs; auto).
  assert (K' : called E r' (String.concat " AND " (map (printed (e_repr E)) gs))) by (exists c', gs; auto).
  rewrite (rule_text _ _ _ _ (spelled_rule _ _ _ _ _ K P)), (rule_text _ _ _ _ (spelled_rule _ _ _ _ _ K' Q)). split.
  - intros H. injection H as H. destruct (texts_split (e_repr E) fs gs (" Then " ++ p ++ ".") (" Then " ++ q ++ ".")) as (A & B); auto.
    + intros f F. apply without_lacks. auto.
    + intros x y. apply I.
    + discriminate.
    + discriminate.
    + split; [exact A|]. cbn in B. injection B as B. clear - B. revert q B.
      assert (Z : forall a b, (a ++ ".")%string = (b ++ ".")%string -> a = b); [|auto].
      induction a as [|x a IH]; intros [|y b] H; cbn in H; auto.
      * injection H as _ H. destruct b; discriminate.
      * injection H as _ H. destruct a; discriminate.
      * injection H as -> H. f_equal. auto.
  - intros (A & ->). do 3 f_equal. rewrite (same_texts (e_repr E) fs gs); auto. intros x y. apply I.
Qed.

Lemma empty_rule_text E show r r' t : r_cond r = None -> r_cond r' <> None -> rule_str E show r' = Ok t -> rule_str E show r <> Ok t.
Proof.
  intros C C' H K. unfold rule_str in *. rewrite C in K. injection K as <-. destruct (r_cond r') as [c|]; [|congruence].
  destruct (cond_str (e_repr E) c); [|discriminate]. cbn in H. discriminate.
Qed.

(** A rule that stores what it predicts *)
Lemma plain_texts E show r r' : r_cond r = r_cond r' -> prediction r = prediction r' ->
  (forall p, slot "_prediction" r <> OTable p) -> (forall p, slot "_prediction" r' <> OTable p) -> rule_str E show r = rule_str E show r'.
Proof.
  intros C P N N'. assert (K : forall x, (forall p, slot "_prediction" x <> OTable p) -> prediction x = Ok (slot "_prediction" x)).
  { intros x X. unfold prediction. destruct (r_kind x); auto. destruct (slot "_prediction" x); auto. destruct (X p). reflexivity. }
  rewrite (K r N), (K r' N') in P. injection P as P. unfold rule_str. rewrite C, P. reflexivity.
Qed.

(** ** Rulesets *)

Lemma concat_lines l : String.concat newline l = lines l.
Proof.
  induction l as [|t [|u l] IH]; auto. change (String.concat newline (t :: u :: l)) with (t ++ (newline ++ String.concat newline (u :: l)))%string.
  rewrite IH. reflexivity.
Qed.

Lemma map_range {A} (f : Z -> A) (g : nat -> A) a n : (forall i, (i < n)%nat -> f (Z.of_nat a + Z.of_nat i) = g (a + i)%nat) ->
  map f (range (Z.of_nat a) (Z.of_nat a + Z.of_nat n)) = map g (seq a n).
Proof.
  intros H. unfold range. replace (Z.to_nat (Z.of_nat a + Z.of_nat n - Z.of_nat a)) with n by lia. rewrite map_map.
  assert (K : forall m, (m <= n)%nat -> map (fun x => f (Z.of_nat a + Z.of_nat x)) (seq 0 m) = map g (seq a m)); [|auto].
  induction m as [|m IH]; intros M; auto. rewrite !seq_S, !map_app, IH by lia. cbn [map]. rewrite H by lia. reflexivity.
Qed.

Lemma map_seq_nth {A B} (f : A -> B) (l : list A) (g : nat -> B) a n : (a + n <= List.length l)%nat ->
  (forall i x, nth_error l i = Some x -> g i = f x) -> map g (seq a n) = map f (firstn n (skipn a l)).
Proof.
  intros N H. revert a N. induction n as [|n IH]; intros a N; auto.
  destruct (nth_error l a) as [x|] eqn:X; [|apply nth_error_None in X; lia].
  assert (S : skipn a l = x :: skipn (S a) l).
  { clear - X. revert l X. induction a as [|a IH]; intros [|y l] X; try discriminate.
    - cbn in X. injection X as ->. reflexivity.
    - cbn in X. cbn [skipn]. rewrite (IH _ X). reflexivity. }
  rewrite S. cbn [seq map firstn]. rewrite (H _ _ X), IH by lia. reflexivity.
Qed.

Lemma strs_at E show s a n : (a + n <= List.length (s_rules s))%nat ->
  rule_strs E show s (range (Z.of_nat a) (Z.of_nat a + Z.of_nat n)) = rseq (map (rule_str E show) (firstn n (skipn a (s_rules s)))).
Proof.
  intros N. unfold rule_strs.
  rewrite (map_range _ (fun i => rbind (getitem_int (Z.of_nat i) s) (rule_str E show))) by (intros; do 2 f_equal; lia).
  f_equal. apply map_seq_nth; auto. intros i x X.
  assert (K : getitem_int (Z.of_nat i) s = Ok x) by (apply py_index_nth; [lia|]; rewrite Nat2Z.id; exact X).
  rewrite K. reflexivity.
Qed.

Lemma range_none a b : b <= a -> range a b = [].
Proof. intros H. unfold range. replace (Z.to_nat (b - a)) with O by lia. reflexivity. Qed.

(** Everything that [set_str] does *)
Lemma set_str_any E show k s : let n := List.length (s_rules s) in let texts := map (rule_str E show) (s_rules s) in
  set_str E show (Z.of_nat k) s = rmap lines (rseq (if (n <? 2 * k)%nat then texts else firstn k texts ++ [Ok "..."] ++ skipn (n - k) texts)).
Proof.
  intros n texts. unfold set_str, set_len.
  assert (RM : forall m, rmap (String.concat newline) m = rmap lines m) by (intros [l|e]; cbn [rmap]; rewrite ?concat_lines; reflexivity).
  destruct (Nat.ltb_spec n (2 * k)), (Z.ltb_spec (Z.of_nat (List.length (s_rules s))) (2 * Z.of_nat k)); unfold n in *; try lia.
  - rewrite RM. f_equal. pose proof (strs_at E show s 0 (List.length (s_rules s)) (le_n _)) as K. cbn [skipn] in K. rewrite firstn_all in K. exact K.
  - pose proof (strs_at E show s 0 k ltac:(lia)) as K. cbn [skipn] in K. change (Z.of_nat 0 + Z.of_nat k) with (Z.of_nat k) in K. change (Z.of_nat 0) with 0 in K. rewrite K.
    pose proof (strs_at E show s (List.length (s_rules s) - k) k ltac:(lia)) as K2.
    replace (Z.of_nat (List.length (s_rules s) - k)) with (Z.of_nat (List.length (s_rules s)) - Z.of_nat k) in K2 by lia.
    replace (Z.of_nat (List.length (s_rules s)) - Z.of_nat k + Z.of_nat k) with (Z.of_nat (List.length (s_rules s))) in K2 by lia. rewrite K2.
    assert (F : firstn k (skipn (List.length (s_rules s) - k) (s_rules s)) = skipn (List.length (s_rules s) - k) (s_rules s)).
    { apply firstn_all2. rewrite skipn_length. lia. }
    rewrite F. unfold texts. rewrite <- firstn_map, <- skipn_map.
    assert (A : forall (l m : list (res string)), rseq (l ++ m) = rbind (rseq l) (fun a => rbind (rseq m) (fun b => Ok (a ++ b)))).
    { induction l as [|[x|e] l IH]; intros m; cbn [rseq app rbind]; auto.
      - destruct (rseq m); auto.
      - rewrite IH. destruct (rseq l); cbn [rbind]; auto. destruct (rseq m); auto. }
    rewrite !A. destruct (rseq (firstn k _)); cbn [rbind rmap]; auto. cbn [rseq app rbind].
    destruct (rseq (skipn _ _)); cbn [rbind rmap]; auto. rewrite concat_lines. reflexivity.
Qed.

Lemma rseq_oks {A} (l : list A) : rseq (map Ok l) = Ok l.
Proof. induction l; cbn [map rseq rbind]; auto. rewrite IHl. reflexivity. Qed.

Lemma set_text E show k s texts : Forall2 (spelled E show) (s_rules s) texts ->
  let n := List.length (s_rules s) in
  ((n < 2 * k)%nat -> set_str E show (Z.of_nat k) s = Ok (lines texts)) /\
  ((2 * k <= n)%nat -> set_str E show (Z.of_nat k) s = Ok (lines (firstn k texts ++ ["..."] ++ skipn (n - k) texts))).
Proof.
  intros H n.
  assert (T : map (rule_str E show) (s_rules s) = map Ok texts).
  { clear - H. induction H as [|r t rs ts S _ IH]; auto. cbn [map]. rewrite (rule_text _ _ _ _ S), IH. reflexivity. }
  rewrite set_str_any, T. fold n. split; intros N.
  - destruct (Nat.ltb_spec n (2 * k)); [|lia]. rewrite rseq_oks. reflexivity.
  - destruct (Nat.ltb_spec n (2 * k)); [lia|]. rewrite !firstn_map, !skipn_map. change [Ok "..."] with (map (@Ok string) ["..."]).
    rewrite <- !map_app, rseq_oks. reflexivity.
Qed.

Lemma set_text_none E show z s : z <= 0 -> set_str E show z s = Ok "...".
Proof.
  intros N. unfold set_str, set_len. destruct (Z.ltb_spec (Z.of_nat (List.length (s_rules s))) (2 * z)); [lia|].
  rewrite !range_none by lia. reflexivity.
Qed.

(** The rules that are not shown have no say. *)
Lemma set_text_fails E show k s : let n := List.length (s_rules s) in
  (forall i r, nth_error (s_rules s) i = Some r -> (i < k \/ n - k <= i \/ n < 2 * k)%nat -> exists t, rule_str E show r = Ok t) <->
  exists t, set_str E show (Z.of_nat k) s = Ok t.
Proof.
  intros n. rewrite set_str_any. fold n.
  set (shown := if (n <? 2 * k)%nat then _ else _).
  assert (L : (exists t, rmap lines (rseq shown) = Ok t) <-> forall x, In x shown -> exists t, x = Ok t).
  { generalize shown. intros l. split.
    - intros (t & T). destruct (rseq l) as [m|] eqn:R; [|discriminate]. clear T t. revert m R.
      induction l as [|[x|e] l IH]; intros m R y Y; cbn [rseq rbind] in R; try discriminate; [destruct Y|].
      destruct (rseq l) as [m'|]; [|discriminate]. destruct Y as [<-|Y]; eauto.
    - intros H. assert (K : exists m, rseq l = Ok m).
      { induction l as [|x l IH]; [eexists; reflexivity|]. destruct (H x (or_introl eq_refl)) as (t & ->).
        destruct IH as (m & M); [intros y Y; apply H; right; auto|]. cbn [rseq rbind]. rewrite M. eexists. reflexivity. }
      destruct K as (m & ->). eexists. reflexivity. }
  rewrite L. clear L. unfold shown. clear shown. destruct (Nat.ltb_spec n (2 * k)) as [N|N].
  - split.
    + intros H x X. apply in_map_iff in X as (r & <- & X). apply In_nth_error in X as (i & X). eapply H; eauto.
    + intros H i r X _. apply H. apply in_map. eapply nth_error_In; eauto.
  - split.
    + intros H x X. apply in_app_or in X as [X|X]; [|apply in_app_or in X as [[<-|[]]|X]; [eauto|]].
      * apply In_nth_error in X as (i & X). assert (Q : (i < k)%nat).
        { assert (Y : nth_error (firstn k (map (rule_str E show) (s_rules s))) i <> None) by congruence. apply nth_error_Some in Y. rewrite firstn_length in Y. lia. }
        assert (Y : nth_error (map (rule_str E show) (s_rules s)) i = Some x).
        { rewrite <- X. clear - Q. revert i Q. generalize (map (rule_str E show) (s_rules s)). induction k as [|k IH]; intros [|y l] [|i] Q; try lia; auto. cbn. apply IH. lia. }
        rewrite nth_error_map in Y. destruct (nth_error (s_rules s) i) as [r|] eqn:R; [|discriminate]. cbn in Y. injection Y as <-. eapply H; eauto.
      * apply In_nth_error in X as (i & X). assert (Y : nth_error (map (rule_str E show) (s_rules s)) (n - k + i) = Some x).
        { rewrite <- X. clear. generalize (map (rule_str E show) (s_rules s)). induction (n - k)%nat as [|m IH]; intros l; auto. destruct l; cbn; [destruct i; auto|auto]. }
        rewrite nth_error_map in Y. destruct (nth_error (s_rules s) (n - k + i)) as [r|] eqn:R; [|discriminate]. cbn in Y. injection Y as <-.
        apply (H _ _ R). right. left. lia.
    + intros H i r X [Q|[Q|Q]]; [| |lia].
      * apply H. apply in_or_app. left. rewrite <- (firstn_skipn k (map (rule_str E show) (s_rules s))) in H.
        assert (Y : nth_error (firstn k (map (rule_str E show) (s_rules s))) i = Some (rule_str E show r)).
        { transitivity (nth_error (map (rule_str E show) (s_rules s)) i); [|rewrite nth_error_map, X; reflexivity].
          clear - Q. revert i Q. generalize (map (rule_str E show) (s_rules s)). induction k as [|k IH]; intros [|y l] [|i] Q; try lia; auto. cbn. apply IH. lia. }
        eapply nth_error_In; eauto.
      * apply H. apply in_or_app. right. apply in_or_app. right.
        assert (Y : nth_error (skipn (n - k) (map (rule_str E show) (s_rules s))) (i - (n - k)) = Some (rule_str E show r)).
        { transitivity (nth_error (map (rule_str E show) (s_rules s)) i); [|rewrite nth_error_map, X; reflexivity].
          remember (n - k)%nat as m. clear - Q. revert i Q. generalize (map (rule_str E show) (s_rules s)). induction m as [|m IH]; intros l i Q; [rewrite Nat.sub_0_r; reflexivity|].
          destruct i as [|i]; [lia|]. destruct l as [|y l]; [cbn; destruct (i - m)%nat; reflexivity|]. cbn. apply IH. lia. }
        eapply nth_error_In; eauto.
Qed.
