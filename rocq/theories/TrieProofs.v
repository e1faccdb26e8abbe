From Verif Require Import Base BaseProofs SortModel SortProofs DatasModel UtfModel UtfSpec UtfProofs DictIoModel TrieModel TrieSpec.
From Coq Require Import Permutation Sorted.

(** Lexicographic order. *)
Lemma list_ltb_lex a b : list_ltb Z.ltb a b = true <-> lex_lt a b.
Proof.
  revert b. induction a as [|x a IH]; intros [|y b]; cbn [list_ltb].
  - split; [discriminate|inversion 1].
  - split; [constructor|reflexivity].
  - split; [discriminate|inversion 1].
  - destruct (Z.ltb_spec x y); [split; [intros _; apply lex_head; exact H|reflexivity]|].
    destruct (Z.ltb_spec y x).
    + split; [discriminate|]. inversion 1; subst; lia.
    + assert (x = y) by lia. subst y. rewrite IH. split; [apply lex_tail|]. inversion 1; subst; [lia|assumption].
Qed.
Lemma lex_irrefl a : ~ lex_lt a a.
Proof. induction a; inversion 1; subst; [lia|auto]. Qed.
Lemma lex_trans a b c : lex_lt a b -> lex_lt b c -> lex_lt a c.
Proof.
  intros H. revert c. induction H as [y b|x y a b Hxy|x a b H IH]; intros c Hc; inversion Hc; subst.
  - constructor.
  - constructor.
  - apply lex_head. lia.
  - apply lex_head. lia.
  - apply lex_head. assumption.
  - apply lex_tail. apply IH. assumption.
Qed.
Lemma lex_total a b : lex_lt a b \/ a = b \/ lex_lt b a.
Proof.
  revert b. induction a as [|x a IH]; intros [|y b].
  - right; left; reflexivity.
  - left. constructor.
  - right; right. constructor.
  - destruct (Z.lt_trichotomy x y) as [H|[<-|H]].
    + left. apply lex_head. exact H.
    + destruct (IH b) as [H|[<-|H]]; [left; apply lex_tail; exact H|right; left; reflexivity|right; right; apply lex_tail; exact H].
    + right; right. apply lex_head. exact H.
Qed.
Lemma list_ltb_strict_weak l : strict_weak (list_ltb Z.ltb) l.
Proof.
  assert (F : forall a b, list_ltb Z.ltb a b = false <-> ~ lex_lt a b).
  { intros a b. rewrite <- list_ltb_lex. destruct (list_ltb Z.ltb a b); split; congruence. }
  split; [|split].
  - intros a _. apply F. apply lex_irrefl.
  - intros a b c _ _ _. rewrite !list_ltb_lex. apply lex_trans.
  - intros a b c _ _ _. rewrite !F. intros Hab Hbc Hac.
    destruct (lex_total a b) as [H|[->|H]]; [auto| |].
    + auto.
    + apply Hbc. apply lex_trans with a; assumption.
Qed.
Lemma lex_app p a b : lex_lt (p ++ a) (p ++ b) -> lex_lt a b.
Proof. induction p as [|x p IH]; cbn [app]; [auto|]. inversion 1; subst; [lia|auto]. Qed.

(** Sums of letters over ranges of words. *)
Definition letters_in (words : list (list Z)) (a b : Z) : Z :=
  letters (firstn (Z.to_nat (b - a)) (skipn (Z.to_nat a) words)).
Lemma letters_app a b : letters (a ++ b) = letters a + letters b.
Proof. unfold letters, vsize. rewrite concat_app, app_length. lia. Qed.
Lemma letters_nonneg a : 0 <= letters a.
Proof. unfold letters, vsize. lia. Qed.
Lemma letters_split words a b c : 0 <= a -> a <= b -> b <= c ->
  letters_in words a c = letters_in words a b + letters_in words b c.
Proof.
  intros Ha Hab Hbc. unfold letters_in. rewrite <- letters_app. f_equal.
  replace (Z.to_nat (c - a)) with (Z.to_nat (b - a) + Z.to_nat (c - b))%nat by lia.
  set (l := skipn (Z.to_nat a) words).
  replace (skipn (Z.to_nat b) words) with (skipn (Z.to_nat (b - a)) l).
  2: { unfold l. rewrite skipn_skipn'. f_equal. lia. }
  clearbody l. generalize (Z.to_nat (b - a)) (Z.to_nat (c - b)). clear. intros n m.
  revert l. induction n as [|n IH]; intros l; [reflexivity|].
  destruct l as [|x l]; [cbn; rewrite firstn_nil; reflexivity|]. cbn. f_equal. apply IH.
Qed.
Lemma letters_one words a w : rd words a = Ok w -> letters_in words a (a + 1) = vsize w.
Proof.
  intros H. apply rd_inv in H. destruct H as [Ha H]. unfold letters_in.
  replace (Z.to_nat (a + 1 - a)) with 1%nat by lia.
  generalize dependent (Z.to_nat a). intros n H. revert words H.
  induction n as [|n IH]; intros [|x words] H; try discriminate.
  - cbn in H. injection H as ->. cbn [skipn firstn]. unfold letters. cbn [List.concat]. rewrite app_nil_r. reflexivity.
  - cbn [skipn]. apply IH. exact H.
Qed.

Lemma trie_count_app a b : trie_count (a ++ b) = trie_count a + trie_count b.
Proof. unfold trie_count. induction a as [|x a IH]; [reflexivity|]. cbn [app fold_right]. rewrite IH. lia. Qed.
Lemma node_count_eq n : node_count n = 1 + trie_count (tkids n).
Proof. destruct n. reflexivity. Qed.
Lemma node_count_pos n : 1 <= node_count n.
Proof.
  revert n. fix IH 1. intros [v b l]. cbn [node_count].
  assert (0 <= fold_right (fun k s => node_count k + s) 0 l); [|lia].
  induction l as [|x l IHl]; cbn [fold_right]; [lia|]. pose proof (IH x). lia.
Qed.
Lemma trie_count_nonneg t : 0 <= trie_count t.
Proof. unfold trie_count. induction t as [|x t IH]; cbn [fold_right]; [lia|]. pose proof (node_count_pos x). lia. Qed.

Definition sorted_words (words : list (list Z)) : Prop :=
  forall i j a b, i < j -> rd words i = Ok a -> rd words j = Ok b -> lex_lt a b.

Lemma rd_depth p c (s : list Z) d : d = vsize p -> rd (p ++ c :: s) d = Ok c.
Proof.
  intros ->. apply rd_ok. unfold vsize. lia. unfold vsize. rewrite Nat2Z.id.
  rewrite nth_error_app2 by lia. rewrite Nat.sub_diag. reflexivity.
Qed.

Lemma vsize_app {A} (a b : list A) : vsize (a ++ b) = vsize a + vsize b.
Proof. unfold vsize. rewrite app_length. lia. Qed.
Lemma vsize_cons {A} (x : A) l : vsize (x :: l) = 1 + vsize l.
Proof. unfold vsize. cbn [List.length]. lia. Qed.
Lemma vsize_nonneg {A} (l : list A) : 0 <= vsize l.
Proof. unfold vsize. lia. Qed.

Lemma insert_after_ok words : sorted_words words ->
  (forall i w, rd words i = Ok w -> vsize w < 4294967296) ->
  forall fuel first last p nodes M,
  0 <= first <= last ->
  (forall i, first <= i < last -> exists c s, rd words i = Ok (p ++ c :: s) /\ vsize (p ++ c :: s) <= M) ->
  vsize p <= M ->
  (last - first) + (M - vsize p) < Z.of_nat fuel ->
  exists t, insert_after fuel words first last (vsize p) nodes = Ok (nodes ++ t) /\
    well_ordered t /\
    (forall w, spells t w <-> w <> [] /\ exists i, first <= i < last /\ rd words i = Ok (p ++ w)) /\
    (forall n, In n t -> exists i s, first <= i < last /\ rd words i = Ok (p ++ tvalue n :: s)) /\
    trie_count t + vsize p * (last - first) <= letters_in words first last.
Proof.
  intros Hsort H32. induction fuel as [|fuel IH]; intros first last p nodes M Hr Hw HM Hf; [lia|].
  cbn [insert_after]. destruct (Z.eqb_spec first last) as [->|Hne].
  { exists []. rewrite app_nil_r. split; [reflexivity|]. split; [constructor; [constructor|intros n []]|].
    split; [|split].
    - intros w. split; [inversion 1; subst; contradiction|]. intros (_ & i & Hi & _). lia.
    - intros n [].
    - rewrite Z.sub_diag, Z.mul_0_r. cbn [trie_count fold_right]. unfold letters_in. pose proof (letters_nonneg (firstn (Z.to_nat (last - last)) (skipn (Z.to_nat last) words))). lia. }
  destruct (Hw first ltac:(lia)) as (c & s & Ew & Lw).
  rewrite Ew. cbn [bind]. rewrite (rd_depth p c s _ eq_refl). cbn [bind].
  (* the search *)
  set (q := fun i => match rd words i with Ok w => match rd w (vsize p) with Ok x => negb (c <? x) | _ => true end | _ => true end).
  match goal with |- context [partition_point ?pp _ _] => destruct (partition_point_ok pp q first last) as (middle & Emid & Hmid & Qlt & Qge) end.
  - lia.
  - intros i Hi. destruct (Hw i Hi) as (ci & si & Ei & _). unfold q. rewrite Ei. cbn [bind].
    rewrite (rd_depth p ci si _ eq_refl). cbn [bind].
    rewrite vsize_app, vsize_cons. pose proof (vsize_nonneg si). destruct (Z.ltb_spec (vsize p) (vsize p + (1 + vsize si))); [reflexivity|lia].
  - intros i j Hi Hij Hj. destruct (Hw i ltac:(lia)) as (ci & si & Ei & _). destruct (Hw j ltac:(lia)) as (cj & sj & Ej & _).
    unfold q. rewrite Ei, Ej, (rd_depth p ci si _ eq_refl), (rd_depth p cj sj _ eq_refl).
    destruct (Z.eq_dec i j) as [Eij|Nij].
    + subst j. rewrite Ei in Ej. injection Ej as Ej. apply app_inv_head in Ej. injection Ej as -> _. auto.
    + pose proof (Hsort i j _ _ ltac:(lia) Ei Ej) as L. apply lex_app in L.
      assert (ci <= cj) by (inversion L; subst; lia).
      destruct (Z.ltb_spec c cj), (Z.ltb_spec c ci); cbn; intros; try congruence; lia.
  - rewrite Emid. cbn [bind].
    assert (Char : forall i ci si, first <= i < last -> rd words i = Ok (p ++ ci :: si) ->
      c <= ci /\ (i < middle <-> ci = c)).
    { intros i ci si Hi Ei.
      assert (c <= ci).
      { destruct (Z.eq_dec i first) as [->|]; [rewrite Ew in Ei; injection Ei as Ei; apply app_inv_head in Ei; injection Ei as -> _; lia|].
        pose proof (Hsort first i _ _ ltac:(lia) Ew Ei) as L. apply lex_app in L. inversion L; subst; lia. }
      split; [assumption|].
      assert (Eq : q i = negb (c <? ci)) by (unfold q; rewrite Ei, (rd_depth p ci si _ eq_refl); reflexivity).
      split.
      - intros Hm. rewrite (Qlt i ltac:(lia)) in Eq. destruct (Z.ltb_spec c ci); [discriminate|lia].
      - intros ->. destruct (Z.lt_ge_cases i middle); [assumption|]. rewrite (Qge i ltac:(lia)) in Eq. rewrite Z.ltb_irrefl in Eq. discriminate. }
    assert (Hfm : first < middle) by (apply (proj2 (Char first c s ltac:(lia) Ew)); reflexivity).
    pose proof (vsize_nonneg p) as Hp0. pose proof (vsize_nonneg s) as Hs0.
    assert (Hsz : vsize (p ++ c :: s) = vsize p + 1 + vsize s) by (rewrite vsize_app, vsize_cons; lia).
    pose proof (H32 _ _ Ew) as Hw32. rewrite Hsz in Lw, Hw32.
    assert (Ed : u32 (vsize p + 1) = vsize (p ++ [c])) by (rewrite u32_small by lia; rewrite vsize_app; reflexivity).
    rewrite Ed. set (term := (vsize (p ++ [c]) =? vsize (p ++ c :: s))).
    rewrite (Z.eqb_sym (vsize (p ++ c :: s))). fold term.
    set (first' := if term then first + 1 else first).
    assert (Hterm : term = true <-> s = []).
    { unfold term. rewrite Hsz. replace (vsize (p ++ [c])) with (vsize p + 1) by (rewrite vsize_app; reflexivity).
      destruct (Z.eqb_spec (vsize p + 1) (vsize p + 1 + vsize s)) as [E|E]; split; try congruence.
      - intros _. destruct s; [reflexivity|]. rewrite vsize_cons in E. pose proof (vsize_nonneg s). lia.
      - intros ->. exfalso. apply E. cbn. lia. }
    assert (Hf' : first <= first' <= middle) by (unfold first'; destruct term; lia).
    (* words of the subtrie *)
    assert (Hsub : forall i, first' <= i < middle -> exists x y, rd words i = Ok ((p ++ [c]) ++ x :: y) /\ vsize ((p ++ [c]) ++ x :: y) <= M).
    { intros i Hi. destruct (Hw i ltac:(lia)) as (ci & si & Ei & Li).
      destruct (Char i ci si ltac:(lia) Ei) as [_ Hc]. assert (ci = c) by (apply Hc; lia). subst ci.
      destruct si as [|x y].
      - exfalso. destruct (Z.eq_dec i first) as [->|].
        + rewrite Ew in Ei. injection Ei as Ei. apply app_inv_head in Ei. injection Ei as Ei.
          assert (term = true) by (apply Hterm; exact Ei). unfold first' in Hi. rewrite H in Hi. lia.
        + pose proof (Hsort first i _ _ ltac:(lia) Ew Ei) as L. apply lex_app in L. inversion L as [|? ? ? ? LL|? ? ? LL]; subst; [lia|inversion LL].
      - exists x, y. rewrite <- app_assoc. cbn [app]. split; assumption. }
    assert (Hpc : vsize (p ++ [c]) = vsize p + 1) by (rewrite vsize_app; reflexivity).
    destruct (IH first' middle (p ++ [c]) [] M) as (sub & Esub & Osub & Ssub & Vsub & Csub); [lia|exact Hsub|lia|lia|].
    rewrite Esub. cbn [bind app].
    destruct (IH middle last p (nodes ++ [TN c term sub]) M) as (rest & Erest & Orest & Srest & Vrest & Crest).
    { lia. } { intros i Hi. apply Hw. lia. } { lia. } { lia. }
    rewrite Erest. exists (TN c term sub :: rest). split; [rewrite <- app_assoc; reflexivity|].
    assert (Vgt : forall n, In n rest -> c < tvalue n).
    { intros n Hn. destruct (Vrest n Hn) as (i & si & Hi & Ei). destruct (Char i _ si ltac:(lia) Ei) as [Hle Hc].
      destruct (Z.eq_dec (tvalue n) c) as [E|]; [|lia]. apply Hc in E. lia. }
    split; [|split; [|split]].
    + inversion Orest as [? O1 O2]; subst. constructor.
      * cbn [map tvalue]. constructor; [exact O1|]. apply Forall_forall. intros v Hv. apply in_map_iff in Hv. destruct Hv as (n & <- & Hn). apply Vgt. exact Hn.
      * intros n [<-|Hn]; [exact Osub|apply O2; exact Hn].
    + intros w. split.
      * inversion 1 as [t' c' kids Hin|t' c' b kids w' Hin Hs]; subst.
        -- destruct Hin as [E|Hin].
           ++ injection E as <- Et _. split; [discriminate|]. exists first. split; [lia|]. rewrite Ew.
              f_equal. f_equal. apply Hterm in Et. rewrite Et. reflexivity.
           ++ destruct (proj1 (Srest [c']) (spells_end _ _ _ Hin)) as (_ & i & Hi & Ei). split; [discriminate|]. exists i. split; [lia|exact Ei].
        -- destruct Hin as [E|Hin].
           ++ injection E as <- Et <-. apply Ssub in Hs. destruct Hs as (_ & i & Hi & Ei). split; [discriminate|]. exists i. split; [lia|].
              rewrite <- app_assoc in Ei. exact Ei.
           ++ destruct (proj1 (Srest (c' :: w')) (spells_step _ _ _ _ _ Hin Hs)) as (_ & i & Hi & Ei). split; [discriminate|]. exists i. split; [lia|exact Ei].
      * intros (Hwn & i & Hi & Ei). destruct w as [|x w]; [congruence|]. clear Hwn.
        destruct (Char i x w Hi Ei) as [Hle Hc]. destruct (Z.lt_ge_cases i middle) as [Hlt|Hge].
        -- assert (x = c) by (apply Hc; exact Hlt). subst x. destruct w as [|y w].
           ++ assert (i = first).
              { destruct (Z.eq_dec i first); [assumption|]. pose proof (Hsort first i _ _ ltac:(lia) Ew Ei) as L. apply lex_app in L.
                inversion L as [|? ? ? ? LL|? ? ? LL]; subst; [lia|inversion LL]. }
              subst i. rewrite Ew in Ei. injection Ei as Ei. apply app_inv_head in Ei. injection Ei as Ei.
              apply spells_end with sub. left. f_equal. apply Hterm. exact Ei.
           ++ apply spells_step with term sub; [left; reflexivity|]. apply Ssub. split; [discriminate|]. exists i.
              rewrite <- app_assoc. split; [|exact Ei]. split; [|lia].
              unfold first'. destruct term eqn:Et; [|lia]. destruct (Z.eq_dec i first) as [->|]; [|lia].
              exfalso. rewrite Ew in Ei. injection Ei as Ei. apply app_inv_head in Ei. injection Ei as Ei.
              assert (s = []) by (apply Hterm; reflexivity). congruence.
        -- assert (spells rest (x :: w)) as Hr' by (apply Srest; split; [discriminate|exists i; split; [lia|exact Ei]]).
           inversion Hr'; subst.
           ++ apply spells_end with kids. right. assumption.
           ++ apply spells_step with b kids; [right; assumption|assumption].
    + intros n [<-|Hn].
      * exists first, s. split; [lia|exact Ew].
      * destruct (Vrest n Hn) as (i & si & Hi & Ei). exists i, si. split; [lia|exact Ei].
    + change (trie_count (TN c term sub :: rest)) with (node_count (TN c term sub) + trie_count rest).
      rewrite node_count_eq. cbn [tkids]. rewrite (letters_split words first middle last) by lia.
      rewrite Hpc in Csub. pose proof (letters_one words first _ Ew) as L1. rewrite Hsz in L1.
      unfold first' in Csub. destruct term.
      * rewrite (letters_split words first (first + 1) middle) by lia. assert (s = []) by (apply Hterm; reflexivity). subst s.
        change (vsize (@nil Z)) with 0 in L1. rewrite L1. clear -Csub Crest Hfm Hp0. nia.
      * clear -Csub Crest Hfm Hp0. nia.
Qed.

Lemma rd_In {A} (l : list A) i a : rd l i = Ok a -> In a l.
Proof. intros H. apply rd_inv in H. destruct H as [_ H]. apply nth_error_In in H. exact H. Qed.
Lemma In_rd {A} (l : list A) a : In a l -> exists i, 0 <= i < vsize l /\ rd l i = Ok a.
Proof.
  intros H. apply In_nth_error in H. destruct H as [n H]. exists (Z.of_nat n).
  pose proof (proj1 (nth_error_Some l n) ltac:(congruence)). unfold vsize. split; [lia|].
  apply rd_ok; [lia|]. rewrite Nat2Z.id. exact H.
Qed.

Lemma length_le_letters (words : list (list Z)) w : In w words -> vsize w <= letters words.
Proof.
  unfold letters, vsize. intros H. apply in_split in H. destruct H as (a & b & ->).
  rewrite concat_app. cbn [List.concat]. rewrite !app_length. lia.
Qed.

Lemma make_trie_ok words : StronglySorted lex_lt words -> ~ In [] words ->
  (forall w, In w words -> vsize w < 4294967296) ->
  exists t, make_trie words = Ok t /\ well_ordered t /\ (forall w, spells t w <-> In w words) /\
    (forall n, In n t -> exists s, In (tvalue n :: s) words) /\ trie_count t <= letters words.
Proof.
  intros Hs Hne H32. unfold make_trie.
  destruct (insert_after_ok words) with (fuel := S (List.length words + List.length (List.concat words))) (first := 0) (last := vsize words)
    (p := @nil Z) (nodes := @nil tnode) (M := letters words) as (t & Et & Ot & St & Vt & Ct).
  - intros i j a b Hij Ha Hb. apply rd_inv in Ha. apply rd_inv in Hb. destruct Ha as [Hi Ha], Hb as [Hj Hb].
    assert (X : forall (l : list (list Z)) n m a b, StronglySorted lex_lt l -> (n < m)%nat -> nth_error l n = Some a -> nth_error l m = Some b -> lex_lt a b).
    { clear. intros l n m a b H. revert n m. induction H as [|x l H IH F]; intros n m Hnm Hn Hm; [destruct n; discriminate|].
      destruct m as [|m]; [lia|]. cbn in Hm. destruct n as [|n].
      - cbn in Hn. injection Hn as ->. rewrite Forall_forall in F. apply F. apply nth_error_In in Hm. exact Hm.
      - cbn in Hn. apply (IH n m); [lia|assumption|assumption]. }
    apply (X words (Z.to_nat i) (Z.to_nat j)); [exact Hs|lia|exact Ha|exact Hb].
  - intros i w Hw. apply H32. apply rd_In with i. exact Hw.
  - pose proof (vsize_nonneg words). lia.
  - intros i Hi. destruct (rd_lt words i ltac:(unfold vsize in Hi; lia)) as [w Ew]. pose proof (rd_In _ _ _ Ew) as Hin.
    destruct w as [|c s]; [contradiction|]. exists c, s. split; [exact Ew|]. cbn [app]. apply length_le_letters. exact Hin.
  - pose proof (letters_nonneg words). cbn. lia.
  - unfold letters, vsize. cbn [List.length]. lia.
  - change (vsize (@nil Z)) with 0 in *. rewrite Et. exists t. cbn [app]. split; [reflexivity|]. split; [exact Ot|]. split; [|split].
    + intros w. rewrite St. split.
      * intros (_ & i & _ & Ei). apply rd_In with i. exact Ei.
      * intros Hw. split; [intros ->; contradiction|]. destruct (In_rd _ _ Hw) as (i & Hi & Ei). exists i. split; assumption.
    + intros n Hn. destruct (Vt n Hn) as (i & s & _ & Ei). exists s. apply rd_In with i. exact Ei.
    + unfold letters_in in Ct. rewrite Z.sub_0_r in Ct. unfold vsize in Ct. rewrite Nat2Z.id, firstn_all in Ct. cbn [Z.to_nat skipn] in Ct. lia.
Qed.
