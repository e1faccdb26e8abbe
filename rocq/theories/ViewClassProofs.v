(** Classes of glyphs by their words. *)
From Verif Require Import Base BaseProofs SortModel SortProofs DatasModel TrieSpec TrieProofs IndexModel IndexSpec IndexProofs.
From Coq Require Import Permutation Sorted.

Definition vkey (g : list oview) : list Z := Z.of_nat (List.length g) :: words_of g.

Lemma lt_same_size_lex a b : List.length a = List.length b ->
  lt_same_size a b = list_ltb Z.ltb (words_of a) (words_of b).
Proof.
  revert b. induction a as [|x a IH]; intros [|y b] H; try discriminate; [reflexivity|].
  injection H as H. cbn. fold (words_of a) (words_of b). rewrite <- IH by exact H.
  destruct (Z.eqb_spec (ov_word x) (ov_word y)) as [->|]; [now rewrite Z.ltb_irrefl|].
  destruct (Z.ltb_spec (ov_word x) (ov_word y)); [reflexivity|].
  destruct (Z.ltb_spec (ov_word y) (ov_word x)); [reflexivity|lia].
Qed.

Lemma lt_views_key a b : lt_views a b = list_ltb Z.ltb (vkey a) (vkey b).
Proof.
  unfold lt_views, vkey. cbn [list_ltb].
  destruct (Nat.ltb_spec (List.length a) (List.length b)), (Z.ltb_spec (Z.of_nat (List.length a)) (Z.of_nat (List.length b))); try lia; try reflexivity.
  destruct (Nat.ltb_spec (List.length b) (List.length a)), (Z.ltb_spec (Z.of_nat (List.length b)) (Z.of_nat (List.length a))); try lia; try reflexivity.
  apply lt_same_size_lex. lia.
Qed.

Lemma vkey_eq a b : vkey a = vkey b <-> words_of a = words_of b.
Proof.
  unfold vkey. split; [now injection 1|]. intros E. rewrite E. f_equal.
  apply (f_equal (@List.length Z)) in E. unfold words_of in E. rewrite !map_length in E. lia.
Qed.

Lemma eq_views_words a b : eq_views a b = true <-> words_of a = words_of b.
Proof.
  revert b. induction a as [|x a IH]; intros [|y b]; cbn; try (split; congruence).
  rewrite andb_true_iff, IH, Z.eqb_eq. unfold words_of. split; [intros [-> ->]; reflexivity|now injection 1].
Qed.

Lemma lt_views_antisym a b : lt_views a b = false -> lt_views b a = false -> words_of a = words_of b.
Proof.
  rewrite !lt_views_key. intros H1 H2. apply vkey_eq.
  destruct (lex_total (vkey a) (vkey b)) as [L|[E|L]]; [|exact E|]; apply list_ltb_lex in L; congruence.
Qed.

Lemma lt_views_words a b c : words_of a = words_of b -> lt_views a c = lt_views b c /\ lt_views c a = lt_views c b.
Proof. intros E. apply vkey_eq in E. rewrite !lt_views_key, E. now split. Qed.

Lemma ref_lt_strict_weak glyphs l : strict_weak (ref_lt glyphs) l.
Proof.
  unfold ref_lt.
  assert (K : forall i j, lt_views (glyph_at glyphs i) (glyph_at glyphs j) =
    list_ltb Z.ltb (vkey (glyph_at glyphs i)) (vkey (glyph_at glyphs j))) by (intros; apply lt_views_key).
  destruct (list_ltb_strict_weak (map (fun i => vkey (glyph_at glyphs i)) l)) as (S1 & S2 & S3).
  split; [|split].
  - intros a Ha. rewrite K. apply S1. apply (in_map (fun i => vkey (glyph_at glyphs i))). exact Ha.
  - intros a b c Ha Hb Hc. rewrite !K. apply S2; apply (in_map (fun i => vkey (glyph_at glyphs i))); assumption.
  - intros a b c Ha Hb Hc. rewrite !K. apply S3; apply (in_map (fun i => vkey (glyph_at glyphs i))); assumption.
Qed.

Lemma words_before_lex a b : words_before (words_of a) (words_of b) <-> lt_views a b = true.
Proof.
  rewrite lt_views_key, list_ltb_lex. unfold vkey, words_before.
  assert (La : List.length (words_of a) = List.length a) by apply map_length.
  assert (Lb : List.length (words_of b) = List.length b) by apply map_length.
  rewrite <- La, <- Lb. generalize (words_of a) (words_of b). clear. intros a b. split.
  - intros [H|(H & p & x & y & s & t & -> & -> & L)]; [apply lex_head; lia|].
    rewrite H. apply lex_tail. clear H. induction p; cbn; [now apply lex_head|now apply lex_tail].
  - intros H. inversion H as [|? ? ? ? L|? ? ? L]; subst; [left; lia|right]. split; [lia|].
    assert (E : List.length a = List.length b) by lia. clear - L E.
    induction L as [y b|x y a b L|x a b L IH]; [discriminate| |].
    + exists [], x, y, a, b. now repeat split.
    + injection E as E. destruct (IH E) as (p & u & v & s & t & -> & -> & L').
      exists (x :: p), u, v, s, t. now repeat split.
Qed.

Section Classes.
Context (glyphs : list (list oview)).
Let W (i : Z) := words_of (glyph_at glyphs i).

Lemma sorted_between a b c :
  ref_lt glyphs b a = false -> ref_lt glyphs c b = false -> W a = W c -> W a = W b.
Proof.
  unfold ref_lt. intros H1 H2 E. apply lt_views_antisym; [|exact H1].
  destruct (lt_views_words _ _ (glyph_at glyphs b) E) as [-> _]. exact H2.
Qed.

Lemma reassign_ok refs : forall prev,
  StronglySorted (fun a b => ref_lt glyphs b a = false) (prev :: refs) ->
  List.length (reassign glyphs prev refs) = List.length refs /\
  (forall k c r, nth_error (reassign glyphs prev refs) k = Some c -> nth_error refs k = Some r ->
     W c = W r /\ (W r = W prev -> c = prev)) /\
  (forall k k' c c' r r', nth_error (reassign glyphs prev refs) k = Some c -> nth_error refs k = Some r ->
     nth_error (reassign glyphs prev refs) k' = Some c' -> nth_error refs k' = Some r' ->
     W r = W r' -> c = c').
Proof.
  induction refs as [|r0 refs IH]; intros prev S.
  - split; [reflexivity|]. split; intros k; destruct k; discriminate.
  - inversion S as [|? ? S1 F1]; subst. inversion S1 as [|? ? S2 F2]; subst. inversion F1 as [|? ? L01 F1']; subst.
    cbn [reassign]. set (r' := if eq_views (glyph_at glyphs r0) (glyph_at glyphs prev) then prev else r0).
    assert (E' : W r' = W r0 /\ (W r0 = W prev -> r' = prev)).
    { unfold r'. destruct (eq_views (glyph_at glyphs r0) (glyph_at glyphs prev)) eqn:E.
      - apply eq_views_words in E. now split.
      - split; [reflexivity|]. intros C. apply eq_views_words in C. congruence. }
    clearbody r'. destruct E' as (E1 & E2).
    assert (S' : StronglySorted (fun a b => ref_lt glyphs b a = false) (r' :: refs)).
    { constructor; [exact S2|]. eapply Forall_impl; [|exact F2]. intros c. cbn. unfold ref_lt.
      destruct (lt_views_words _ _ (glyph_at glyphs c) E1) as [_ ->]. auto. }
    destruct (IH r' S') as (L & A & B). split; [cbn; now rewrite L|]. split.
    + intros [|k] c r Ec Er; cbn in Ec, Er.
      * injection Ec as <-. injection Er as <-. now split.
      * destruct (A k c r Ec Er) as (A1 & A2). split; [exact A1|]. intros E.
        assert (Hr0 : W prev = W r0).
        { apply (sorted_between prev r0 r); [exact L01| |now symmetry].
          rewrite Forall_forall in F2. apply F2. eapply nth_error_In; eauto. }
        rewrite <- E2 by (now symmetry). apply A2. rewrite E1. congruence.
    + intros [|k] [|k'] c c' r r2 Ec Er Ec' Er' E; cbn in Ec, Er, Ec', Er'.
      * congruence.
      * injection Ec as <-. injection Er as <-. destruct (A k' c' r2 Ec' Er') as (_ & A2).
        symmetry. apply A2. congruence.
      * injection Ec' as <-. injection Er' as <-. destruct (A k c r Ec Er) as (_ & A2).
        apply A2. congruence.
      * eapply B; eauto.
Qed.

Context (sort : list Z -> list Z).
Hypothesis Hsort : is_std_sort (ref_lt glyphs) sort.
Let n := Z.of_nat (List.length glyphs).
Let refs := sort (zrange n).

Lemma classes_rank :
  Permutation (zrange n) refs /\ sorted_by (ref_lt glyphs) refs /\
  List.length (views_indexes_ordered sort glyphs) = List.length glyphs /\
  (forall k c r, nth_error (views_indexes_ordered sort glyphs) k = Some c -> nth_error refs k = Some r -> W c = W r) /\
  (forall k k' c c' r r', nth_error (views_indexes_ordered sort glyphs) k = Some c -> nth_error refs k = Some r ->
     nth_error (views_indexes_ordered sort glyphs) k' = Some c' -> nth_error refs k' = Some r' ->
     (c = c' <-> W r = W r')).
Proof.
  destruct (Hsort (zrange n) (ref_lt_strict_weak _ _)) as (P & S).
  split; [exact P|]. split; [exact S|].
  assert (L : List.length refs = List.length glyphs).
  { unfold refs. rewrite <- (Permutation_length P), zrange_length. unfold n. lia. }
  unfold views_indexes_ordered. fold n. fold refs in P, S |- *. clearbody refs.
  destruct refs as [|r0 rs]; [split; [exact L|]; split; intros [|k]; discriminate|].
  destruct (reassign_ok rs r0 S) as (L' & A & B).
  split; [cbn in *; lia|].
  assert (Keep : forall k c r, nth_error (r0 :: reassign glyphs r0 rs) k = Some c -> nth_error (r0 :: rs) k = Some r -> W c = W r).
  { intros [|k] c r Ec Er; cbn in Ec, Er; [congruence|]. now apply (A k). }
  split; [exact Keep|].
  intros k k' c c' r r' Ec Er Ec' Er'. split.
  - intros <-. rewrite <- (Keep k c r Ec Er). now apply (Keep k').
  - intros E. destruct k as [|k], k' as [|k']; cbn in Ec, Er, Ec', Er'.
    + congruence.
    + injection Ec as <-. injection Er as <-. symmetry. apply (A k' c' r' Ec' Er'). now symmetry.
    + injection Ec' as <-. injection Er' as <-. apply (A k c r Ec Er). exact E.
    + eapply B; eauto.
Qed.
End Classes.

(** Two permutations of the same elements sorted by the same order have the same
    keys at each rank. *)
Lemma sorted_keys_unique (l l' : list (list Z)) :
  Permutation l l' -> StronglySorted (fun a b => ~ lex_lt b a) l -> StronglySorted (fun a b => ~ lex_lt b a) l' -> l = l'.
Proof.
  revert l'. induction l as [|a l IH]; intros l' P S S'.
  - symmetry. now apply Permutation_nil.
  - destruct l' as [|b l']; [apply Permutation_sym, Permutation_nil in P; discriminate|].
    inversion S as [|? ? S1 F1]; subst. inversion S' as [|? ? S1' F1']; subst.
    assert (E : a = b).
    { destruct (lex_total a b) as [L|[E|L]]; [|exact E|]; exfalso.
      - assert (H : In a (b :: l')) by (apply (Permutation_in a P); now left).
        destruct H as [->|H]; [eapply lex_irrefl; eauto|]. rewrite Forall_forall in F1'. eapply F1'; eauto.
      - assert (H : In b (a :: l)) by (apply (Permutation_in b (Permutation_sym P)); now left).
        destruct H as [->|H]; [eapply lex_irrefl; eauto|]. rewrite Forall_forall in F1. eapply F1; eauto. }
    subst b. f_equal. apply IH; auto. eapply Permutation_cons_inv; eauto.
Qed.

Lemma SS_map {A B} (f : A -> B) (R : B -> B -> Prop) l :
  StronglySorted (fun a b => R (f a) (f b)) l -> StronglySorted R (map f l).
Proof.
  induction 1 as [|a l H IH F]; cbn; constructor; auto. apply Forall_map. exact F.
Qed.

Lemma SS_nth {A} (R : A -> A -> Prop) l :
  (forall i j a b, (i < j)%nat -> nth_error l i = Some a -> nth_error l j = Some b -> R a b) -> StronglySorted R l.
Proof.
  induction l as [|a l IH]; intros H; constructor.
  - apply IH. intros i j x y Hij Hx Hy. apply (H (S i) (S j)); auto. lia.
  - apply Forall_forall. intros x Hx. apply In_nth_error in Hx as (k & Hk). apply (H 0%nat (S k)); auto. lia.
Qed.

Lemma classes_ordered sort glyphs :
  is_std_sort (ref_lt glyphs) sort -> ordered_glyphs glyphs ->
  List.length (views_indexes_ordered sort glyphs) = List.length glyphs /\
  forall i j, 0 <= i < Z.of_nat (List.length glyphs) -> 0 <= j < Z.of_nat (List.length glyphs) ->
    (nth (Z.to_nat i) (views_indexes_ordered sort glyphs) 0 = nth (Z.to_nat j) (views_indexes_ordered sort glyphs) 0 <->
     words_of (nth (Z.to_nat i) glyphs []) = words_of (nth (Z.to_nat j) glyphs [])).
Proof.
  intros Hs Ho. destruct (classes_rank glyphs sort Hs) as (P & S & L & _ & B).
  set (n := Z.of_nat (List.length glyphs)) in *. set (refs := sort (zrange n)) in *.
  split; [exact L|].
  set (key := fun i => vkey (glyph_at glyphs i)).
  assert (K : map key (zrange n) = map key refs).
  { apply sorted_keys_unique.
    - now apply Permutation_map.
    - apply SS_map, SS_nth. intros i j a b Hij Ha Hb.
      assert (Hj : (j < Z.to_nat n)%nat) by (rewrite <- zrange_length; apply nth_error_Some; congruence).
      rewrite zrange_nth in Ha by lia. rewrite zrange_nth in Hb by lia. injection Ha as <-. injection Hb as <-.
      rewrite <- list_ltb_lex. unfold key. rewrite <- lt_views_key, <- words_before_lex.
      apply Ho; unfold n in Hj; lia.
    - apply SS_map. unfold sorted_by in S. clear - S. induction S as [|a l H IH F]; constructor; auto.
      eapply Forall_impl; [|exact F]. cbn. intros b Hb. unfold key. rewrite <- list_ltb_lex, <- lt_views_key.
      unfold ref_lt in Hb. congruence. }
  assert (R : forall i, 0 <= i < n -> exists r, nth_error refs (Z.to_nat i) = Some r /\
    words_of (glyph_at glyphs r) = words_of (glyph_at glyphs i)).
  { intros i Hi. pose proof (f_equal (fun l => nth_error l (Z.to_nat i)) K) as E. cbn beta in E.
    rewrite (map_nth_error key (Z.to_nat i) (zrange n) (zrange_nth n (Z.to_nat i) ltac:(lia))) in E.
    destruct (nth_error refs (Z.to_nat i)) as [r|] eqn:Er.
    - rewrite (map_nth_error key _ _ Er) in E. exists r. split; [reflexivity|].
      apply vkey_eq. rewrite Z2Nat.id in E by lia. symmetry. change (key i = key r). congruence.
    - exfalso. apply nth_error_None in Er. rewrite <- (Permutation_length P), zrange_length in Er. lia. }
  intros i j Hi Hj. destruct (R i Hi) as (r & Er & Wr). destruct (R j Hj) as (r' & Er' & Wr').
  change (nth (Z.to_nat i) glyphs []) with (glyph_at glyphs i). change (nth (Z.to_nat j) glyphs []) with (glyph_at glyphs j).
  rewrite <- Wr, <- Wr'.
  eapply B; try eassumption; apply nth_error_nth'; unfold n in *; lia.
Qed.

(** Words B, A, A: the classes are attributed by rank. *)
Definition baa : list (list oview) := [[mkov 2 0]; [mkov 1 0]; [mkov 1 0]].
Lemma classes_by_rank_wrong sort : is_std_sort (ref_lt baa) sort ->
  let cls := views_indexes_ordered sort baa in
  nth 0 cls 0 = nth 1 cls 0 /\ words_of (nth 0 baa []) <> words_of (nth 1 baa []) /\
  nth 1 cls 0 <> nth 2 cls 0 /\ words_of (nth 1 baa []) = words_of (nth 2 baa []).
Proof.
  intros Hs. destruct (Hs (zrange 3) (ref_lt_strict_weak _ _)) as (P & S).
  assert (C : sort (zrange 3) = [1; 2; 0] \/ sort (zrange 3) = [2; 1; 0]).
  { change (zrange 3) with [0; 1; 2] in *. set (l := sort [0; 1; 2]) in *. clearbody l.
    assert (Ln : List.length l = 3%nat) by (rewrite <- (Permutation_length P); reflexivity).
    destruct l as [|a [|b [|c [|]]]]; try discriminate Ln. clear Ln.
    assert (I : forall x, In x [a; b; c] -> x = 0 \/ x = 1 \/ x = 2).
    { intros x Hx. apply (Permutation_in x (Permutation_sym P)) in Hx. cbn in Hx. intuition. }
    assert (ND : NoDup [a; b; c]).
    { apply (Permutation_NoDup P). repeat constructor; cbn; intuition discriminate. }
    inversion ND as [|? ? N1 ND2]; subst. inversion ND2 as [|? ? N2 _]; subst. cbn in N1, N2.
    inversion S as [|? ? S1 F1]; subst. inversion S1 as [|? ? S2 F2]; subst.
    inversion F1 as [|? ? Fb F1']; subst. inversion F1' as [|? ? Fc _]; subst. inversion F2 as [|? ? Fbc _]; subst.
    destruct (I a) as [->|[->| ->]]; [now left|..]; destruct (I b) as [->|[->| ->]]; try (right; now left);
      destruct (I c) as [->|[->| ->]]; try (right; right; now left); try tauto; try discriminate;
      exfalso; (apply N1; tauto) || (apply N2; tauto). }
  cbv zeta. unfold views_indexes_ordered. change (Z.of_nat (List.length baa)) with 3.
  destruct C as [-> | ->]; vm_compute; repeat split; discriminate.
Qed.

(** In general the class of a position tells the words of that rank. *)
Lemma words_before_key a b : words_before a b <-> lex_lt (Z.of_nat (List.length a) :: a) (Z.of_nat (List.length b) :: b).
Proof.
  pose proof (words_before_lex (map (fun w => mkov w 0) a) (map (fun w => mkov w 0) b)) as H.
  rewrite lt_views_key, list_ltb_lex in H. unfold vkey, words_of in H. rewrite !map_length, !map_map, !map_id in H. exact H.
Qed.
Lemma map_nth_seq_words {A} (l : list (list A)) : map (fun k => nth k l []) (seq 0 (List.length l)) = l.
Proof.
  induction l as [|a l IH]; [reflexivity|]. cbn [List.length seq map nth]. f_equal. rewrite <- seq_shift, map_map. exact IH.
Qed.
Lemma classes_by_rank sort glyphs ws :
  is_std_sort (ref_lt glyphs) sort -> Permutation (map words_of glyphs) ws -> StronglySorted (fun a b => ~ words_before b a) ws ->
  List.length (views_indexes_ordered sort glyphs) = List.length glyphs /\
  forall i j, 0 <= i < Z.of_nat (List.length glyphs) -> 0 <= j < Z.of_nat (List.length glyphs) ->
    words_of (nth (Z.to_nat (nth (Z.to_nat i) (views_indexes_ordered sort glyphs) 0)) glyphs []) = nth (Z.to_nat i) ws [] /\
    (nth (Z.to_nat i) (views_indexes_ordered sort glyphs) 0 = nth (Z.to_nat j) (views_indexes_ordered sort glyphs) 0 <->
     nth (Z.to_nat i) ws [] = nth (Z.to_nat j) ws []).
Proof.
  intros Hs Hp Ho. destruct (classes_rank glyphs sort Hs) as (P & S & L & A & B).
  set (n := Z.of_nat (List.length glyphs)) in *. set (refs := sort (zrange n)) in *.
  split; [exact L|].
  assert (Eg : map (fun i => words_of (glyph_at glyphs i)) (zrange n) = map words_of glyphs).
  { unfold zrange, n, glyph_at. rewrite Nat2Z.id, map_map. rewrite <- (map_nth_seq_words glyphs) at 2. rewrite map_map. apply map_ext. intros k. now rewrite Nat2Z.id. }
  assert (K : map (fun i => words_of (glyph_at glyphs i)) refs = ws).
  { assert (Kk : map (fun w => Z.of_nat (List.length w) :: w) (map (fun i => words_of (glyph_at glyphs i)) refs) = map (fun w => Z.of_nat (List.length w) :: w) ws).
    { apply sorted_keys_unique.
      - apply Permutation_map. etransitivity; [apply Permutation_map; symmetry; exact P|]. now rewrite Eg.
      - rewrite map_map. apply SS_map. unfold sorted_by in S. clear - S. induction S as [|a l H IH F]; constructor; auto.
        eapply Forall_impl; [|exact F]. cbn. intros b Hb. rewrite <- words_before_key, words_before_lex. unfold ref_lt in Hb. congruence.
      - apply SS_map. clear - Ho. induction Ho as [|a l H IH F]; constructor; auto. eapply Forall_impl; [|exact F]. cbn. intros b Hb. now rewrite <- words_before_key. }
    apply (f_equal (map (@tl Z))) in Kk. rewrite !map_map in Kk. cbn [tl] in Kk. rewrite map_id in Kk. exact Kk. }
  assert (Ln : List.length refs = List.length glyphs) by (rewrite <- (Permutation_length P), zrange_length; unfold n; lia).
  assert (R : forall i, 0 <= i < n -> exists r, nth_error refs (Z.to_nat i) = Some r /\ words_of (glyph_at glyphs r) = nth (Z.to_nat i) ws []).
  { intros i Hi. destruct (nth_error refs (Z.to_nat i)) as [r|] eqn:Er.
    - exists r. split; [reflexivity|]. rewrite <- K. symmetry. apply nth_error_nth. apply (map_nth_error (fun i => words_of (glyph_at glyphs i)) _ _ Er).
    - apply nth_error_None in Er. unfold n in Hi. lia. }
  intros i j Hi Hj. destruct (R i Hi) as (r & Er & Wr). destruct (R j Hj) as (r' & Er' & Wr').
  assert (Ei : nth_error (views_indexes_ordered sort glyphs) (Z.to_nat i) = Some (nth (Z.to_nat i) (views_indexes_ordered sort glyphs) 0)) by (apply nth_error_nth'; unfold n in *; lia).
  assert (Ej : nth_error (views_indexes_ordered sort glyphs) (Z.to_nat j) = Some (nth (Z.to_nat j) (views_indexes_ordered sort glyphs) 0)) by (apply nth_error_nth'; unfold n in *; lia).
  split.
  - rewrite <- Wr. exact (A _ _ _ Ei Er).
  - rewrite <- Wr, <- Wr'. exact (B _ _ _ _ _ _ Ei Er Ej Er').
Qed.
