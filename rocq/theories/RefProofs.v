(** Proofs about the lists of conditions as objects: construction, logical and. *)
From Coq Require Import List ZArith QArith Bool String Lia.
From Coq Require Import List.
From Verif Require Import Base Num CondModel CondBase TreeModel RefModel RefSpec.
From Coq Require Import Permutation.
Import ListNotations.
Open Scope string_scope.
Open Scope list_scope.
Open Scope Z_scope.

(** ** Heaps *)

Lemma update_eq A a (x : A) f : update a x f a = x.
Proof. unfold update. rewrite Nat.eqb_refl. auto. Qed.

Lemma update_ne A a b (x : A) f : b <> a -> update a x f b = f b.
Proof. intros N. unfold update. destruct (Nat.eqb_spec b a); [contradiction|auto]. Qed.

Lemma keeps_refl H : keeps H H.
Proof. split; [lia|auto]. Qed.

Lemma keeps_trans H H1 H2 : keeps H H1 -> keeps H1 H2 -> keeps H H2.
Proof.
  intros (L & K) (L1 & K1). split; [lia|]. intros a A. 
  destruct (K a A) as (E1 & E2 & E3 & E4). destruct (K1 a) as (F1 & F2 & F3 & F4); [lia|].
  rewrite F1, F2, F3, F4. auto.
Qed.

Lemma keeps_but_of c H H' : keeps H H' -> keeps_but c H H'.
Proof. intros (L & K). split; [exact L|]. intros a A. destruct (K a A) as (? & ? & ? & ?). auto. Qed.

(** A condition that exists looks the same. *)
Lemma deref_kept H H' o : (forall a, (a < h_next H)%nat -> h_ints H' a = h_ints H a /\ h_nums H' a = h_nums H a /\ h_texts H' a = h_texts H a) ->
  (forall a, holds o a -> (a < h_next H)%nat) -> deref H' o = deref H o.
Proof.
  intros K V. unfold deref. f_equal.
  - destruct (o_idx o) as [a|] eqn:E; auto. cbn. f_equal. apply K, V. left. constructor; auto.
  - destruct (o_min o) as [a|] eqn:E; auto. cbn. f_equal. apply K, V. right; left. constructor; auto.
  - destruct (o_max o) as [a|] eqn:E; auto. cbn. f_equal. apply K, V. right; left. constructor 2; auto.
  - destruct (o_names o) as [a|] eqn:E; auto. cbn. f_equal. apply K, V. right; right. constructor; auto.
Qed.

Lemma view_kept H H' c : keeps H H' -> exists_in H c -> view H' c = view H c.
Proof.
  intros (L & K) (C & V). unfold view. destruct (K c C) as (_ & _ & _ & E). rewrite E.
  apply deref_kept; auto. intros a A. destruct (K a A) as (? & ? & ? & ?). auto.
Qed.

Lemma exists_kept H H' c : keeps H H' -> exists_in H c -> exists_in H' c.
Proof.
  intros (L & K) (C & V). destruct (K c C) as (_ & _ & _ & E). split; [lia|]. rewrite E. intros a A. specialize (V a A). lia.
Qed.

Lemma brand_new_kept H H1 H2 c : brand_new H H1 c -> keeps H1 H2 -> brand_new H H2 c.
Proof.
  intros (E & L & N & D) K. destruct (proj2 K c (proj1 E)) as (_ & _ & _ & Q).
  split; [exact (exists_kept _ _ _ K E)|]. rewrite Q. auto.
Qed.

Lemma brand_new_from H0 H H1 c : (h_next H0 <= h_next H)%nat -> brand_new H H1 c -> brand_new H0 H1 c.
Proof. intros L (E & L1 & N & D). split; [exact E|]. split; [lia|]. split; [|exact D]. intros a A. specialize (N a A). lia. Qed.

(** ** Programs *)

Lemma bindp_inv A B (m : prog A) (f : A -> prog B) H o H' : bindp m f H = (o, H') ->
  exists x H1, m H = (x, H1) /\ match x with Ok a => f a H1 = (o, H') | Err e => o = Err e /\ H' = H1 end.
Proof.
  unfold bindp. destruct (m H) as [[a|e] H1] eqn:E; intros X; [exists (Ok a), H1|exists (Err e), H1]; auto.
  injection X as <- <-. auto.
Qed.

Lemma new_ints_keeps l H : keeps H (snd (new_ints l H)).
Proof. split; cbn; [lia|]. intros a A. rewrite update_ne by lia. auto. Qed.
Lemma new_nums_keeps l H : keeps H (snd (new_nums l H)).
Proof. split; cbn; [lia|]. intros a A. rewrite update_ne by lia. auto. Qed.
Lemma new_texts_keeps l H : keeps H (snd (new_texts l H)).
Proof. split; cbn; [lia|]. intros a A. rewrite update_ne by lia. auto. Qed.
Lemma new_cond_keeps o H : keeps H (snd (new_cond o H)).
Proof. split; cbn; [lia|]. intros a A. rewrite update_ne by lia. auto. Qed.

Lemma holds_mk i m M n b a : holds (mkRobj i m M n b) a <-> i = Some a \/ m = Some a \/ M = Some a \/ n = Some a.
Proof.
  split.
  - intros [[x E]|[[x E|x E]|[x E]]]; cbn in E; auto.
  - intros [E|[E|[E|E]]]; [left|right; left|right; left|right; right]; [| |constructor 2|]; try (constructor; exact E); exact E.
Qed.

(** ** Construction *)

Lemma sort_some sett c v : sort sett c = Ok v -> (1 <? clen c)%nat = true ->
  exists i m M n, v = mkCond (Some i) (Some m) (Some M) (Some n) (c_imp c).
Proof.
  unfold sort. intros S L. rewrite L in S. destruct c as [[i|] [m|] [M|] [n|] b]; cbn [c_idx c_min c_max c_names c_imp need rbind] in *;
    destruct (str_eqb sett "index"); try discriminate S; destruct (str_eqb sett "name"); try discriminate S; injection S as <-; eauto.
Qed.

Lemma sort_len sett i m M n b v : sort sett (mkCond (Some i) (Some m) (Some M) (Some n) b) = Ok v -> List.length n = List.length i ->
  clen v = List.length n.
Proof.
  unfold sort. cbn [clen c_names c_idx c_min c_max c_imp need rbind]. intros S L.
  destruct (1 <? List.length n)%nat; [|injection S as <-; auto].
  destruct (str_eqb sett "index"); [|destruct (str_eqb sett "name"); [|discriminate S]]; injection S as <-; cbn [clen c_names].
  - unfold sort_values. rewrite map_length, (Permutation_length (sorted_perm _ _)), combine_length, L. lia.
  - apply Permutation_length, sorted_perm.
Qed.

Lemma sort_short sett c : (1 <? clen c)%nat = false -> sort sett c = Ok c.
Proof. unfold sort. intros ->. auto. Qed.

Lemma r_sort_spec sett c H o H' : exists_in H c -> r_sort sett c H = (o, H') ->
  keeps_but c H H' /\
  match sort sett (view H c) with
  | Err e => o = Err e /\ H' = H
  | Ok v => o = Ok tt /\ view H' c = v /\
      if (1 <? clen (view H c))%nat
      then exists i m M n, h_conds H' c = mkRobj (Some i) (Some m) (Some M) (Some n) (o_imp (h_conds H c)) /\ m <> M /\
             (forall a, holds (h_conds H' c) a -> h_next H <= a < h_next H')%nat
      else H' = H
  end.
Proof.
  intros (C & V) R. unfold r_sort, bindp, get_cond in R. fold (view H c) in R.
  destruct (sort sett (view H c)) as [v|e] eqn:S.
  - destruct (1 <? clen (view H c))%nat eqn:L.
    + destruct (sort_some _ _ _ S L) as (i & m & M & n & ->). cbn [c_idx c_min c_max c_names need lift new_nums new_texts new_ints put_cond] in R.
      cbn [h_ints h_nums h_texts h_conds h_next] in R. injection R as <- <-. split.
      * split; cbn; [lia|]. intros a A. rewrite !update_ne by lia. split; auto. split; auto. split; auto.
        intros N. rewrite update_ne by auto. auto.
      * split; [reflexivity|]. split.
        -- unfold view, deref. cbn. rewrite !update_eq. cbn. rewrite !update_eq, (update_ne _ _ _ _ (update _ _ _)), update_eq by lia.
           reflexivity.
        -- do 4 eexists. split; [cbn; rewrite update_eq; reflexivity|]. split; [lia|]. cbn. rewrite update_eq. intros a A.
           apply holds_mk in A. destruct A as [A|[A|[A|A]]]; injection A as <-; lia.
    + injection R as <- <-. rewrite (sort_short _ _ L) in S. injection S as <-. split; [apply keeps_but_of, keeps_refl|]. auto.
  - injection R as <- <-. split; [apply keeps_but_of, keeps_refl|]. auto.
Qed.

(** Where the lists of a constructed condition come from *)
Definition from_arguments (H H' : heap) (idx mins maxs names : option nat) (o : robj) : Prop :=
  (o_idx o = idx \/ idx = None /\ exists a, o_idx o = Some a /\ (h_next H <= a < h_next H')%nat) /\
  o_min o = mins /\ o_max o = maxs /\
  (o_names o = names \/ names = None /\ exists a, o_names o = Some a /\ (h_next H <= a < h_next H')%nat).

Lemma existsb_map_false A B (f : A -> B) p l : (forall a, p (f a) = false) -> existsb p (map f l) = false.
Proof. intros P. induction l; cbn; auto. rewrite P, IHl. auto. Qed.

Lemma the_ints l : map the_int (map AInt l) = l.
Proof. rewrite map_map. apply map_id. Qed.
Lemma the_nums l : map the_num (map AFloat l) = l.
Proof. rewrite map_map. apply map_id. Qed.
Lemma the_strs l : map the_str (map AStr l) = l.
Proof. rewrite map_map. apply map_id. Qed.

Lemma r_build_spec sett idx mins maxs names empty srt H o H' :
  there H idx -> there H mins -> there H maxs -> there H names ->
  r_build sett idx mins maxs names empty srt H = (o, H') ->
  keeps H H' /\
  rmap (view H') o = build sett (ints_given H idx) (nums_given H mins) (nums_given H maxs) (texts_given H names) empty srt /\
  forall c, o = Ok c ->
    exists_in H' c /\ (h_next H <= c)%nat /\
    (empty = true -> forall a, ~ holds (h_conds H' c) a) /\
    (empty = false -> if srt && (1 <? clen (view H' c))%nat then brand_new H H' c
                      else from_arguments H H' idx mins maxs names (h_conds H' c)).
Proof.
  intros Ti Tm TM Tn R.
  destruct empty.
  { cbn in R. injection R as <- <-. split; [exact (new_cond_keeps _ _)|]. split.
    { cbn. unfold view, deref. cbn. rewrite update_eq. reflexivity. }
    intros c E. injection E as <-. unfold exists_in. cbn. rewrite update_eq.
    assert (X : forall a, ~ holds (mkRobj None None None None false) a).
    { intros a A. apply holds_mk in A. destruct A as [A|[A|[A|A]]]; discriminate A. }
    split; [split; [lia|intros a A; destruct (X a A)]|]. split; [lia|]. split; [intros _; exact X|]. discriminate. }
  unfold r_build in R. 
  destruct mins as [am|]; [|cbn in R; injection R as <- <-; split; [apply keeps_refl|]; split; [reflexivity|discriminate]].
  destruct maxs as [aM|]; [|cbn in R; injection R as <- <-; split; [apply keeps_refl|]; split; [reflexivity|discriminate]].
  assert (Lm : (am < h_next H)%nat) by (apply Tm; auto). assert (LM : (aM < h_next H)%nat) by (apply TM; auto).
  cbn [need_list] in R. apply bindp_inv in R as (x & H1 & E1 & R). injection E1 as <- <-.
  apply bindp_inv in R as (x & H1 & E1 & R). injection E1 as <- <-.
  apply bindp_inv in R as (x & H1 & E1 & R).
  (* the indexes *)
  assert (I : match x with
              | Ok a => keeps H H1 /\ (a < h_next H1)%nat /\ h_nums H1 = h_nums H /\ h_texts H1 = h_texts H /\ h_conds H1 = h_conds H /\
                   (idx = Some a /\ H1 = H \/ idx = None /\ (h_next H <= a)%nat) /\
                   match idx with Some l => Ok (map AInt (h_ints H l)) | None => match names with None => Err EValue | Some ns =>
                     Ok (map AInt (map Z.of_nat (seq 0 (List.length (map AStr (h_texts H ns)))))) end end = Ok (map AInt (h_ints H1 a))
              | Err e => H1 = H /\ e = EValue /\ idx = None /\ names = None end).
  { destruct idx as [a|].
    - injection E1 as <- <-. split; [apply keeps_refl|]. split; [apply Ti; auto|]. auto 10.
    - destruct names as [a|]; cbn in E1; injection E1 as <- <-; [|auto].
      split; [exact (new_ints_keeps _ _)|]. cbn. split; [lia|]. do 3 (split; [reflexivity|]). split; [right; split; [auto|lia]|].
      rewrite update_eq, map_length. reflexivity. }
  destruct x as [ai|e].
  2:{ destruct I as (-> & -> & -> & ->). destruct R as (-> & ->). split; [apply keeps_refl|]. split; [|discriminate].
      unfold build. cbn [ints_given nums_given texts_given option_map rmap rbind]. reflexivity. }
  destruct I as (K1 & Li & En & Et & Ec & Wi & Ei).
  unfold build, ints_given, nums_given, texts_given. cbn [option_map].
  match goal with |- context [rbind ?X _] => replace X with (Ok (map AInt (h_ints H1 ai))) end.
  2:{ rewrite <- Ei. destruct idx as [a|]; cbn [ints_given option_map]; auto. destruct names; auto. }
  cbn [rbind]. cbv zeta. rewrite !map_length.
  apply bindp_inv in R as (x & H2 & E2 & R). injection E2 as <- <-.
  apply bindp_inv in R as (x & H2 & E2 & R). injection E2 as <- <-. rewrite En in R.
  destruct (negb (List.length (h_nums H aM) =? List.length (h_ints H1 ai))%nat).
  { injection R as <- <-. split; [exact K1|]. split; [reflexivity|discriminate]. }
  apply bindp_inv in R as (x & H2 & E2 & R). injection E2 as <- <-. rewrite En in R.
  destruct (negb (List.length (h_nums H am) =? List.length (h_ints H1 ai))%nat).
  { injection R as <- <-. split; [exact K1|]. split; [reflexivity|discriminate]. }
  apply bindp_inv in R as (x & H2 & E2 & R).
  assert (N : x = Ok (match names with Some a => List.length (h_texts H a) | None => List.length (h_ints H1 ai) end) /\ H2 = H1).
  { destruct names as [an|]; injection E2 as <- <-; auto. rewrite Et. auto. }
  destruct N as (-> & ->). clear E2.
  replace (match option_map (fun a => map AStr (h_texts H a)) names with Some ns => negb (List.length ns =? List.length (h_ints H1 ai))%nat | None => false end)
    with (negb (match names with Some a => List.length (h_texts H a) | None => List.length (h_ints H1 ai) end =? List.length (h_ints H1 ai))%nat).
  2:{ destruct names as [an|]; cbn [option_map]; [rewrite map_length; auto|rewrite Nat.eqb_refl; auto]. }
  destruct (negb (match names with Some a => List.length (h_texts H a) | None => List.length (h_ints H1 ai) end =? List.length (h_ints H1 ai))%nat) eqn:Lx.
  { injection R as <- <-. split; [exact K1|]. split; [reflexivity|discriminate]. }
  replace (match option_map (fun a => map AStr (h_texts H a)) names with Some ns => existsb (fun a => negb (is_string a)) ns | None => false end) with false.
  2:{ destruct names as [an|]; cbn [option_map]; auto. rewrite existsb_map_false; auto. }
  rewrite !existsb_map_false by (intros ?; reflexivity). rewrite the_ints, !the_nums.
  apply bindp_inv in R as (x & H2 & E2 & R). injection E2 as <- <-.
  destruct (has_dup Z.eqb (h_ints H1 ai)).
  { injection R as <- <-. split; [exact K1|]. split; [reflexivity|discriminate]. }
  apply bindp_inv in R as (x & H2 & E2 & R). injection E2 as <- <-.
  apply bindp_inv in R as (x & H2 & E2 & R). injection E2 as <- <-.
  apply bindp_inv in R as (x & H2 & E2 & R).
  assert (N : exists an, x = Ok an /\ keeps H1 H2 /\ (an < h_next H2)%nat /\ h_nums H2 = h_nums H1 /\ h_ints H2 = h_ints H1 /\ h_conds H2 = h_conds H1 /\
     (names = Some an \/ names = None /\ (h_next H <= an)%nat) /\
     match option_map (fun a => map AStr (h_texts H a)) names with Some ns => map the_str ns
      | None => map (fun i => String.append "X_" (show_int i)) (h_ints H1 ai) end = h_texts H2 an).
  { destruct names as [an|].
    - injection E2 as <- <-. exists an. split; [auto|]. split; [apply keeps_refl|]. split; [pose proof (Tn an eq_refl); destruct K1; lia|].
      do 3 (split; [auto|]). split; [auto|]. cbn [option_map]. rewrite the_strs, Et. auto.
    - injection E2 as <- <-. eexists. split; [reflexivity|]. split; [exact (new_texts_keeps _ _)|]. cbn. split; [lia|].
      do 3 (split; [auto|]). split; [right; split; [auto|destruct K1; lia]|]. rewrite update_eq. reflexivity. }
  destruct N as (an & -> & K2 & Ln & En2 & Ei2 & Ec2 & Wn & Etx). rewrite Etx. clear E2.
  apply bindp_inv in R as (x & H3 & E2 & R). injection E2 as <- <-.
  assert (K02 : keeps H H2) by exact (keeps_trans _ _ _ K1 K2).
  destruct (has_dup str_eqb (h_texts H2 an)).
  { injection R as <- <-. split; [exact K02|]. split; [reflexivity|discriminate]. }
  apply bindp_inv in R as (x & H3 & E2 & R). injection E2 as <- E3.
  assert (K3 : keeps H2 H3) by (rewrite <- E3; exact (new_cond_keeps (mkRobj (Some ai) (Some am) (Some aM) (Some an) (some_above (h_nums H1 am) (h_nums H1 aM))) H2)).
  assert (Lt2 : (am < h_next H2 /\ aM < h_next H2 /\ ai < h_next H2)%nat) by (destruct K02, K2; lia).
  assert (Nx : h_next H3 = S (h_next H2)) by (rewrite <- E3; reflexivity).
  assert (Cn : h_conds H3 (h_next H2) = mkRobj (Some ai) (Some am) (Some aM) (Some an) (some_above (h_nums H am) (h_nums H aM))).
  { rewrite <- E3. cbn. rewrite update_eq, En. reflexivity. }
  assert (Ex : exists_in H3 (h_next H2)).
  { split; [lia|]. rewrite Cn. intros a A. apply holds_mk in A. destruct A as [A|[A|[A|A]]]; injection A as <-; lia. }
  assert (Vi : view H3 (h_next H2) = mkCond (Some (h_ints H1 ai)) (Some (h_nums H am)) (Some (h_nums H aM)) (Some (h_texts H2 an))
                          (some_above (h_nums H am) (h_nums H aM))).
  { unfold view. rewrite Cn. unfold deref. cbn. rewrite <- E3. cbn. rewrite Ei2, En2, En. reflexivity. }
  assert (K03 : keeps H H3) by exact (keeps_trans _ _ _ K02 K3).
  assert (Ar : from_arguments H H3 idx (Some am) (Some aM) names (h_conds H3 (h_next H2))).
  { rewrite Cn. split; [cbn; destruct Wi as [(-> & _)|(-> & W)]; [auto|right; split; [auto|]; exists ai; split; [auto|lia]]|].
    split; [auto|]. split; [auto|]. cbn. destruct Wn as [->|(-> & W)]; [auto|right; split; [auto|]; exists an; split; [auto|lia]]. }
  assert (Lc : (h_next H <= h_next H2)%nat) by (destruct K02; lia).
  assert (Lx2 : List.length (h_texts H2 an) = List.length (h_ints H1 ai)).
  { rewrite <- Etx. destruct names as [a|]; cbn [option_map]; [|apply map_length]. rewrite the_strs.
    apply negb_false_iff, Nat.eqb_eq in Lx. exact Lx. }
  clear E3. destruct srt.
  - apply bindp_inv in R as (x & H4 & S & R). apply r_sort_spec in S; [|exact Ex]. destruct S as (KB & S). rewrite Vi in S.
    assert (K4 : keeps H H4).
    { destruct K03 as (L3 & K03), KB as (L4 & KB). split; [lia|]. intros a A. destruct (K03 a A) as (F1 & F2 & F3 & F4).
      destruct (KB a) as (G1 & G2 & G3 & G4); [lia|]. rewrite G1, G2, G3, G4 by lia. auto. }
    match type of S with match ?X with _ => _ end => destruct X as [v|e] eqn:Sv end.
    + destruct S as (-> & Vw & W). cbn [ret] in R. injection R as <- <-. split; [exact K4|]. split.
      * cbn [rmap rbind]. rewrite Vw. reflexivity.
      * intros c Q. injection Q as <-.
        match type of W with (if ?X then _ else _) => destruct X eqn:L end.
        -- destruct (sort_some _ _ _ Sv L) as (i & m & M & n & Ev).
           destruct W as (ri & rm & rM & rn & Wc & Wd & Wr).
           assert (Q4 : exists_in H4 (h_next H2)).
           { split; [destruct KB; lia|]. intros a A. destruct (Wr a A); lia. }
           split; [exact Q4|]. split; [exact Lc|]. split; [intros Q; discriminate Q|]. intros _.
           assert (BN : brand_new H H4 (h_next H2)).
           { split; [exact Q4|]. split; [exact Lc|]. split; [intros a A; destruct (Wr a A); lia|].
             rewrite Wc. cbn. intros a Q Q'. injection Q as <-. injection Q' as <-. apply Wd; auto. }
           match goal with |- if ?X then _ else _ => assert (T : X = true) end; [|rewrite T; exact BN].
           rewrite Vw. cbn [andb]. rewrite (sort_len _ _ _ _ _ _ _ Sv Lx2). exact L.
        -- rewrite (sort_short _ _ L) in Sv. injection Sv as <-. rewrite W in *. split; [exact Ex|]. split; [exact Lc|].
           split; [intros Q; discriminate Q|]. intros _. rewrite Vi, L. exact Ar.
    + destruct S as (-> & ->). destruct R as (-> & ->). split; [exact K4|]. split; [reflexivity|discriminate].
  - apply bindp_inv in R as (x & H4 & S & R). injection S as <- <-. injection R as <- <-.
    split; [exact K03|]. split; [cbn [rmap rbind]; rewrite Vi; reflexivity|].
    intros c Q. injection Q as <-. split; [exact Ex|]. split; [exact Lc|]. split; [intros Q; discriminate Q|]. intros _. exact Ar.
Qed.
