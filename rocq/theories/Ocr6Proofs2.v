(** The rows of the same word. *)
From Verif Require Import Base BaseProofs SortModel DatasModel TrieModel TrieProofs DictionaryProofs GlyphsProofs NormProofs UtilModel IndexModel IndexProofs RecogModel Ocr6Model Ocr6Spec.
From Coq Require Import Sorted Permutation.

Notation wkeys m := (map fst m : list (list Z)).
Definition wlt (a b : list Z) : Prop := list_ltb Z.ltb a b = true.
Lemma wlt_irrefl a : ~ wlt a a. Proof. unfold wlt. rewrite list_ltb_irrefl. discriminate. Qed.
Lemma wlt_trans a b c : wlt a b -> wlt b c -> wlt a c. Proof. apply list_ltb_trans. Qed.
Lemma eqb_word a b : TrieModel.list_eqb a b = true <-> a = b. Proof. apply list_eqb_eq. Qed.

Lemma word_push_keys k n m x : In x (wkeys (word_push k n m)) <-> x = k \/ In x (wkeys m).
Proof.
  induction m as [|[k' l] m IH]; cbn.
  - intuition.
  - destruct (list_ltb Z.ltb k k'); [cbn; intuition|]. destruct (TrieModel.list_eqb k k') eqn:E; cbn; [apply eqb_word in E; subst; intuition|].
    rewrite IH. intuition.
Qed.
Lemma word_push_sorted k n m : StronglySorted wlt (wkeys m) -> StronglySorted wlt (wkeys (word_push k n m)).
Proof.
  induction m as [|[k' l] m IH]; intros H; cbn.
  - constructor; constructor.
  - cbn in H. inversion H as [|? ? H1 H2]; subst. destruct (list_ltb Z.ltb k k') eqn:L.
    + cbn. constructor; [exact H|]. constructor; [exact L|]. eapply Forall_impl; [|exact H2]. cbn. intros a Ha. exact (wlt_trans _ _ _ L Ha).
    + destruct (TrieModel.list_eqb k k') eqn:E; cbn; [exact H|]. constructor; [now apply IH|].
      apply Forall_forall. intros x Hx. apply word_push_keys in Hx as [->|Hx].
      * destruct (list_ltb Z.ltb k' k) eqn:L'; [exact L'|]. rewrite (list_ltb_false_eq _ _ L L') in E.
        rewrite (proj2 (eqb_word k' k') eq_refl) in E. discriminate.
      * rewrite Forall_forall in H2. now apply H2.
Qed.
Lemma word_push_In k n m k' l' : StronglySorted wlt (wkeys m) ->
  (In (k', l') (word_push k n m) <->
   (k' <> k /\ In (k', l') m) \/
   (k' = k /\ ((exists l, In (k, l) m /\ l' = l ++ [n]) \/ (~ In k (wkeys m) /\ l' = [n])))).
Proof.
  induction m as [|[k0 l0] m IH]; intros H; cbn [word_push].
  - cbn. split.
    + intros [E|[]]. injection E as <- <-. right. split; [reflexivity|]. right. split; [intros []|reflexivity].
    + intros [[_ []]|(-> & [(l & [] & _)|(_ & ->)])]. now left.
  - cbn in H. inversion H as [|? ? H1 H2]; subst. specialize (IH H1).
    assert (Hin : forall x, In x (wkeys m) -> wlt k0 x) by (rewrite Forall_forall in H2; exact H2).
    assert (Hin2 : forall x l, In (x, l) m -> wlt k0 x) by (intros x l Hx; apply Hin, (in_map fst _ _ Hx)).
    destruct (list_ltb Z.ltb k k0) eqn:L.
    + assert (D : forall x, wlt k0 x -> x <> k) by (intros x Hx ->; exact (wlt_irrefl _ (wlt_trans _ _ _ L Hx))).
      assert (D0 : k0 <> k) by (intros ->; exact (wlt_irrefl _ L)).
      split.
      * intros [E|[E|Hm]].
        -- injection E as <- <-. right. split; [reflexivity|]. right. split; [|reflexivity].
           cbn. intros [C|C]; [congruence|exact (D _ (Hin _ C) eq_refl)].
        -- injection E as <- <-. left. split; [exact D0|]. now left.
        -- left. split; [exact (D _ (Hin2 _ _ Hm))|]. now right.
      * intros [(N & Hm)|(-> & [(l & Hl & ->)|(_ & ->)])]; [now right| |now left].
        exfalso. destruct Hl as [E|Hl]; [injection E as <- <-; congruence|exact (D _ (Hin2 _ _ Hl) eq_refl)].
    + destruct (TrieModel.list_eqb k k0) eqn:Eq.
      * apply eqb_word in Eq. subst k0. assert (D : forall x, wlt k x -> x <> k) by (intros x Hx ->; exact (wlt_irrefl _ Hx)). split.
        -- intros [E|Hm].
           ++ injection E as <- <-. right. split; [reflexivity|]. left. exists l0. split; [now left|reflexivity].
           ++ left. split; [exact (D _ (Hin2 _ _ Hm))|]. now right.
        -- intros [(N & [E|Hm])|(-> & [(l & Hl & ->)|(C & _)])].
           ++ injection E as <- <-. contradiction.
           ++ now right.
           ++ destruct Hl as [E|Hl]; [injection E as <-; now left|destruct (D _ (Hin2 _ _ Hl) eq_refl)].
           ++ exfalso. apply C. now left.
      * assert (Nk : k0 <> k) by (intros ->; rewrite (proj2 (eqb_word k k) eq_refl) in Eq; discriminate). split.
        -- intros [E|Hm].
           ++ injection E as <- <-. left. split; [exact Nk|]. now left.
           ++ apply IH in Hm as [(N & Hm)|(-> & [(l & Hl & ->)|(C & ->)])].
              ** left. split; [exact N|now right].
              ** right. split; [reflexivity|]. left. exists l. split; [now right|reflexivity].
              ** right. split; [reflexivity|]. right. split; [|reflexivity]. cbn. intros [D|D]; [congruence|contradiction].
        -- intros [(N & [E|Hm])|(-> & [(l & Hl & ->)|(C & ->)])].
           ++ now left.
           ++ right. apply IH. left. now split.
           ++ destruct Hl as [E|Hl]; [injection E as <- <-; congruence|]. right. apply IH. right. split; [reflexivity|].
              left. exists l. now split.
           ++ right. apply IH. right. split; [reflexivity|]. right. split; [|reflexivity].
              intros D. apply C. now right.
Qed.

Definition wgroups (f : Z -> list Z) (n : Z) (m : list (list Z * list Z)) : Prop :=
  StronglySorted wlt (wkeys m) /\
  (forall k l, In (k, l) m -> StronglySorted Z.lt l /\ forall i, In i l <-> 0 <= i < n /\ f i = k) /\
  (forall i, 0 <= i < n -> In (f i) (wkeys m)).
Lemma wgroups_push f n m : 0 <= n -> wgroups f n m -> wgroups f (n + 1) (word_push (f n) n m).
Proof.
  intros Hn (S & G & C). split; [now apply word_push_sorted|]. split.
  - intros k l H. apply word_push_In in H; [|exact S]. destruct H as [(N & H)|(-> & [(l0 & H & ->)|(H & ->)])].
    + destruct (G k l H) as (ND & Hi). split; [exact ND|]. intros i. rewrite Hi. split; [intros (? & ?); split; [lia|assumption]|].
      intros (Hi' & E). split; [|exact E]. destruct (Z.eq_dec i n) as [->|]; [congruence|lia].
    + destruct (G _ l0 H) as (ND & Hi). split.
      * apply SS_snoc; [exact ND|]. intros x Hx. apply Hi in Hx. lia.
      * intros i. rewrite in_app_iff, Hi. cbn. split; [intros [(? & ?)|[<-|[]]]; [split; [lia|assumption]|split; [lia|reflexivity]]|].
        intros (Hi' & E). destruct (Z.eq_dec i n) as [->|]; [right; now left|left; split; [lia|exact E]].
    + split; [constructor; constructor|]. intros i. cbn. split.
      * intros [<-|[]]. split; [lia|reflexivity].
      * intros (Hi' & E). left. destruct (Z.eq_dec i n) as [->|]; [reflexivity|].
        exfalso. apply H. rewrite <- E. apply C. lia.
  - intros i Hi. apply word_push_keys. destruct (Z.eq_dec i n) as [->|]; [now left|]. right. apply C. lia.
Qed.

Definition fw6 (words : list (list (list Z))) (i : Z) : list Z := hd [] (labels6 words i).
Lemma word_groups_ok words rest done m :
  words = done ++ rest -> Z.of_nat (List.length words) < 4294967296 -> (forall g, In g words -> g <> []) ->
  wgroups (fw6 words) (Z.of_nat (List.length done)) m ->
  exists m', word_groups rest (Z.of_nat (List.length done)) m = Ok m' /\ wgroups (fw6 words) (Z.of_nat (List.length words)) m'.
Proof.
  revert done m. induction rest as [|g rest IH]; intros done m E Hl NE G.
  - rewrite app_nil_r in E. subst done. exists m. now split.
  - destruct g as [|v g].
    { exfalso. apply (NE []); [rewrite E; apply in_or_app; right; now left|reflexivity]. }
    cbn [word_groups]. rewrite E, app_length in Hl. cbn [List.length] in Hl.
    rewrite u32_small by lia.
    specialize (IH (done ++ [v :: g]) (word_push v (Z.of_nat (List.length done)) m)).
    rewrite app_length in IH. cbn [List.length] in IH.
    replace (Z.of_nat (List.length done + 1)) with (Z.of_nat (List.length done) + 1) in IH by lia.
    apply IH.
    + rewrite <- app_assoc. exact E.
    + rewrite E, app_length. cbn [List.length]. lia.
    + exact NE.
    + replace v with (fw6 words (Z.of_nat (List.length done))) at 1.
      * apply wgroups_push; [lia|exact G].
      * unfold fw6, labels6. rewrite Nat2Z.id, E, app_nth2, Nat.sub_diag by lia. reflexivity.
Qed.

(** The lists are filled whatever the keys are. *)
Fixpoint ranked (k : Z) (m : list (list Z * list Z)) : list (Z * list Z) :=
  match m with [] => [] | (_, l) :: m' => (k, l) :: ranked (k + 1) m' end.
Lemma fill_ranked m : forall k out, fill_data_by_word m out = fill_by_words (ranked k m) out.
Proof.
  induction m as [|[w l] m IH]; intros k out; cbn [fill_data_by_word ranked fill_by_words]; [reflexivity|].
  destruct (1 <? Z.of_nat (List.length l)); [|apply IH]. cbv zeta.
  destruct (wr out (last l 0) (removelast l)) as [o1| | |]; cbn [bind]; auto.
  destruct (swap_each [] (removelast l) (last l 0) o1) as [o2| | |]; cbn [bind]; auto.
Qed.
Lemma ranked_keys m : forall k x, In x (keys_of (ranked k m)) -> k <= x.
Proof. induction m as [|[w l] m IH]; intros k x H; cbn in H; [contradiction|]. destruct H as [<-|H]; [lia|]. specialize (IH (k + 1) x H). lia. Qed.
Lemma ranked_NoDup m : forall k, NoDup (keys_of (ranked k m)).
Proof.
  induction m as [|[w l] m IH]; intros k; cbn; constructor; [|apply IH]. intros C. apply ranked_keys in C. lia.
Qed.
Fixpoint rank_of (k : Z) (m : list (list Z * list Z)) (w : list Z) : Z :=
  match m with [] => k | (w', _) :: m' => if TrieModel.list_eqb w w' then k else rank_of (k + 1) m' w end.
Lemma ranked_In m : forall k x l, NoDup (wkeys m) -> In (x, l) (ranked k m) -> exists w, In (w, l) m /\ rank_of k m w = x.
Proof.
  induction m as [|[w0 l0] m IH]; intros k x l ND H; cbn in H; [contradiction|]. cbn in ND. inversion ND as [|? ? N0 ND']; subst. destruct H as [E|H].
  - injection E as <- <-. exists w0. split; [now left|]. cbn. now rewrite (proj2 (eqb_word w0 w0) eq_refl).
  - destruct (IH (k + 1) x l ND' H) as (w & Hw & E). exists w. split; [now right|]. cbn. destruct (TrieModel.list_eqb w w0) eqn:Eq; [|exact E].
    apply eqb_word in Eq. subst. exfalso. apply N0. exact (in_map fst _ _ Hw).
Qed.
Lemma In_ranked m : forall k w l, In (w, l) m -> exists x, In (x, l) (ranked k m).
Proof.
  induction m as [|[w0 l0] m IH]; intros k w l H; cbn in *; [contradiction|]. destruct H as [E|H].
  - injection E as <- <-. exists k. now left.
  - destruct (IH (k + 1) w l H) as (x & Hx). exists x. now right.
Qed.
Lemma SS_wlt_NoDup l : StronglySorted wlt l -> NoDup l.
Proof. induction 1 as [|a l H IH F]; constructor; auto. intros C. rewrite Forall_forall in F. apply F in C. exact (wlt_irrefl _ C). Qed.

(** The order of a list without one of its elements. *)
Lemma scanned_order l i r : StronglySorted Z.lt l -> scanned l i r -> forall o, StronglySorted Z.lt o -> (forall j, In j o <-> In j l /\ j <> i) ->
  r = if i <? last o i then last o i :: removelast o else o.
Proof.
  intros Sl H o So Ho. assert (U : forall l', StronglySorted Z.lt l' -> (forall j, In j l' <-> In j l /\ j <> i) -> o = l').
  { intros l' S' H'. apply SS_lt_unique; [exact So|exact S'|]. intros j. now rewrite Ho, H'. }
  destruct H as [El|(a & b & t & El & ->)]; rewrite El in Sl.
  - destruct (SS_lt_parts _ _ Sl) as (Sr & _ & Lt). rewrite (U r Sr).
    + destruct (Z.ltb_spec i (last r i)) as [L|L]; [exfalso|reflexivity]. clear - Lt L. destruct r as [|x r]; [cbn in L; lia|].
      assert (I : In (last (x :: r) i) (x :: r)).
      { rewrite (app_removelast_last i (l := x :: r)) at 2 by discriminate. apply in_or_app. right. now left. }
      specialize (Lt _ i I ltac:(now left)). lia.
    + intros j. rewrite El, in_app_iff. cbn [In]. split; [intros Hj; split; [now left|intros ->; specialize (Lt i i Hj ltac:(now left)); lia]|].
      intros ([Hj|[Hj|[]]] & N); [exact Hj|congruence].
  - destruct (SS_lt_parts a _ Sl) as (Sa & Sb & Lt). change (i :: b ++ [t]) with ([i] ++ b ++ [t]) in Sb. destruct (SS_lt_parts [i] _ Sb) as (_ & Sbt & Lt').
    rewrite (U (a ++ b ++ [t])).
    + rewrite app_assoc, last_last, removelast_last. specialize (Lt' i t ltac:(now left) ltac:(apply in_or_app; right; now left)). destruct (Z.ltb_spec i t); [reflexivity|lia].
    + clear - Sl. induction a as [|x a IH]; cbn [app] in *; inversion Sl as [|? ? N F]; subst; [exact N|]. constructor; [now apply IH|].
      rewrite Forall_forall in *. intros y Hy. apply F. apply in_app_iff in Hy as [Hy|Hy]; apply in_or_app; [now left|right; now right].
    + intros j. rewrite El, !in_app_iff. cbn [In]. rewrite in_app_iff. cbn [In]. split.
      * intros [Hj|[Hj|Hj]]; (split; [tauto|]); intros ->.
        -- specialize (Lt i i Hj ltac:(now left)). lia.
        -- specialize (Lt' i i ltac:(now left) ltac:(apply in_or_app; now left)). lia.
        -- specialize (Lt' i i ltac:(now left) ltac:(apply in_or_app; now right)). lia.
      * intros ([Hj|[Hj|[Hj|Hj]]] & N); [tauto|congruence|tauto|tauto].
Qed.
Lemma rest6_In words i j : (forall g, In g words -> g <> []) -> 0 <= i < Z.of_nat (List.length words) -> In j (rest6 words i) <-> same_word6 words i j.
Proof.
  intros NE Hi. unfold rest6, same_word6. rewrite filter_In, zrange_In, andb_true_iff, negb_true_iff, Z.eqb_neq.
  assert (FW : forall j, 0 <= j < Z.of_nat (List.length words) -> exists w, hd_error (labels6 words j) = Some w).
  { intros k Hk. unfold labels6. assert (N : nth (Z.to_nat k) words [] <> []) by (apply NE, nth_In; lia). destruct (nth (Z.to_nat k) words []); [contradiction|eexists; reflexivity]. }
  destruct (FW i Hi) as (a & ->). split.
  - intros (Hj & N & E). destruct (FW j Hj) as (b & Eb). rewrite Eb in E |- *. destruct (list_eq_dec Z.eq_dec a b); [subst; auto|discriminate].
  - intros (_ & Hj & N & E). rewrite <- E. destruct (list_eq_dec Z.eq_dec a a); [auto|congruence].
Qed.
Lemma rest6_SS words i : StronglySorted Z.lt (rest6 words i).
Proof. apply SS_lt_filter, zrange_SS. Qed.
Lemma scan6_perm words i : Permutation (scan6 words i) (rest6 words i).
Proof.
  unfold scan6. cbv zeta. destruct (i <? last (rest6 words i) i) eqn:E; [|reflexivity]. destruct (rest6 words i) as [|x o]; [cbn in E; lia|].
  rewrite (app_removelast_last i (l := x :: o)) at 3 by discriminate. apply (Permutation_cons_append (removelast (x :: o))).
Qed.

Theorem data_by_word_order words : Z.of_nat (List.length words) < 4294967296 -> (forall g, In g words -> g <> []) ->
  data_by_word words = Ok (map (scan6 words) (zrange (Z.of_nat (List.length words)))).
Proof.
  intros Hl NE. unfold data_by_word. destruct (word_groups_ok words words [] []) as (m & Em & S & G & C); auto.
  { split; [constructor|]. split; [intros k l []|]. cbn. intros; lia. }
  change (Z.of_nat (List.length [])) with 0 in Em. rewrite Em. cbn [bind]. rewrite (fill_ranked m 0). pose proof (SS_wlt_NoDup _ S) as NDk.
  destruct (fill_ok (fun i => rank_of 0 m (fw6 words i)) (ranked 0 m) (repeat [] (List.length words))) as (out & Eo & Lo & P).
  { apply ranked_NoDup. }
  { rewrite repeat_length. intros k l Hk. destruct (ranked_In m 0 k l NDk Hk) as (w & Hw & Er). destruct (G w l Hw) as (ND & Hi). split; [now apply SS_lt_NoDup|].
    intros i H. apply Hi in H as (R & F). split; [now rewrite F|]. split; [exact R|]. apply nth_repeat. }
  rewrite repeat_length in Lo. rewrite Eo. f_equal. apply (nth_ext _ _ [] []); [rewrite map_length, zrange_length; lia|]. intros n Hn. rewrite Lo in Hn.
  rewrite (nth_indep (map _ _) [] (scan6 words 0)) by (rewrite map_length, zrange_length; lia). rewrite map_nth.
  replace (nth n (zrange (Z.of_nat (List.length words))) 0) with (Z.of_nat n).
  2:{ unfold zrange. rewrite <- (nth_indep _ (Z.of_nat 0) 0) by (rewrite map_length, seq_length; lia). rewrite map_nth, seq_nth by lia. reflexivity. }
  set (i := Z.of_nat n). assert (Hi : 0 <= i < Z.of_nat (List.length words)) by lia.
  pose proof (C i Hi) as K. apply in_map_iff in K as ([k l] & Ek & Hk). cbn in Ek.
  destruct (G k l Hk) as (ND & Hin). assert (Hil : In i l) by (apply Hin; auto).
  destruct (In_ranked m 0 k l Hk) as (x & Hx). specialize (P x l i Hx Hil). replace (Z.to_nat i) with n in P by lia.
  apply (scanned_order l i _ ND P); [apply rest6_SS|].
  assert (FW : forall j, 0 <= j < Z.of_nat (List.length words) -> hd_error (labels6 words j) = Some (fw6 words j)).
  { intros j Hj. unfold fw6, labels6. assert (N : nth (Z.to_nat j) words [] <> []) by (apply NE, nth_In; lia).
    destruct (nth (Z.to_nat j) words []); [contradiction|reflexivity]. }
  intros j. rewrite (rest6_In words i j NE Hi), Hin. unfold same_word6. split.
  - intros (_ & Rj & Nij & F). rewrite !FW in F by assumption. injection F as F. split; [split; [exact Rj|congruence]|congruence].
  - intros ((Rj & F) & Nij). split; [exact Hi|]. split; [exact Rj|]. split; [congruence|]. rewrite !FW by assumption. congruence.
Qed.
Lemma scan6_In words i j : (forall g, In g words -> g <> []) -> 0 <= i < Z.of_nat (List.length words) -> In j (scan6 words i) <-> same_word6 words i j.
Proof.
  intros NE Hi. rewrite <- (rest6_In words i j NE Hi). split; apply Permutation_in; [apply scan6_perm|apply Permutation_sym, scan6_perm].
Qed.
Lemma rd_scan6 words i : 0 <= i < Z.of_nat (List.length words) -> rd (map (scan6 words) (zrange (Z.of_nat (List.length words)))) i = Ok (scan6 words i).
Proof.
  intros Hi. apply rd_ok; [lia|]. rewrite nth_error_map. unfold zrange. rewrite nth_error_map.
  rewrite (nth_error_nth' _ 0%nat) by (rewrite seq_length; lia). rewrite seq_nth by lia. cbn [option_map]. f_equal. f_equal. lia.
Qed.
Theorem data_by_word_exact words : Z.of_nat (List.length words) < 4294967296 -> (forall g, In g words -> g <> []) ->
  exists out, data_by_word words = Ok out /\ List.length out = List.length words /\
    forall i, 0 <= i < Z.of_nat (List.length words) ->
      exists l, rd out i = Ok l /\ NoDup l /\ forall j, In j l <-> same_word6 words i j.
Proof.
  intros Hl NE. rewrite (data_by_word_order words Hl NE). eexists. split; [reflexivity|]. split; [rewrite map_length, zrange_length; lia|].
  intros i Hi. exists (scan6 words i). split; [now apply rd_scan6|]. split; [|intros j; now apply scan6_In].
  eapply Permutation_NoDup; [apply Permutation_sym, scan6_perm|apply SS_lt_NoDup, rest6_SS].
Qed.
Theorem data_by_word_unlabelled words : In [] words -> data_by_word words = UB.
Proof.
  intros H. unfold data_by_word. assert (G : forall n m, word_groups words n m = UB); [|now rewrite G].
  induction words as [|g words IH]; intros n m; [destruct H|]. cbn [word_groups]. destruct g; [reflexivity|]. apply IH. destruct H; [discriminate|assumption].
Qed.
