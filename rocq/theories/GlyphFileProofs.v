(** The glyph loader on a file of any bytes. *)
From Verif Require Import Base BaseProofs ProofTools SortModel SortProofs DatasModel StreamModel StreamProofs
  GlyphIoModel GlyphIoSpec GlyphIoProofs TrieModel TrieSpec TrieProofs FlatTrieProofs DictionaryProofs
  IndexModel IndexProofs GlyphsModel GlyphsSpec GlyphsProofs GlyphsProofs2 GlyphsProofs3 RefuseSpec RefuseProofs GlyphFileSpec.
From Coq Require Import Sorted Permutation.

Notation on t b := (mkis t b false true).
Definition ended_at (t : list Z) (b : bool) : Prop := b = true -> t = [].

(** * Stream operations *)
Lemma blank_spaces p : blank p <-> spaces p.
Proof. unfold blank, spaces. rewrite Forall_forall. reflexivity. Qed.
Lemma drop_split l : exists p, blank p /\ l = p ++ drop_spaces l /\ stops is_space (drop_spaces l).
Proof.
  induction l as [|c l (p & B & E & S)]; [exists []; split; [intros x []|split; [reflexivity|exact I]]|]. cbn [drop_spaces]. destruct (is_space c) eqn:Hc.
  - exists (c :: p). split; [intros x [<-|Hx]; [exact Hc|exact (B x Hx)]|]. split; [cbn [app]; rewrite <- E; reflexivity|exact S].
  - exists []. split; [intros x []|]. split; [reflexivity|exact Hc].
Qed.
Lemma span_word_inv l : forall w r, span_word l = (w, r) -> l = w ++ r /\ Forall (fun c => is_space c = false) w /\ match r with c :: _ => is_space c = true | [] => True end.
Proof.
  induction l as [|c l IH]; intros w r H; cbn [span_word] in H; [injection H as <- <-; split; [reflexivity|]; split; [constructor|exact I]|].
  destruct (is_space c) eqn:E; [injection H as <- <-; split; [reflexivity|]; split; [constructor|exact E]|].
  destruct (span_word l) as [w' r'] eqn:Es. injection H as <- <-. destruct (IH _ _ eq_refl) as (-> & F & S). split; [reflexivity|]. split; [constructor; assumption|exact S].
Qed.
Lemma plain_iff w : plain_text w <-> w <> [] /\ Forall (fun c => is_space c = false) w.
Proof.
  unfold plain_text. rewrite Forall_forall. split; intros [N H]; (split; [exact N|]); intros c Hc; specialize (H c Hc); unfold is_space in *.
  - destruct H as [H1 H2]. apply orb_false_iff. split; [apply Z.eqb_neq; exact H1|]. destruct (Z.leb_spec 9 c), (Z.leb_spec c 13); cbn; try reflexivity. exfalso. apply H2. lia.
  - apply orb_false_iff in H. destruct H as [H1 H2]. apply Z.eqb_neq in H1. split; [exact H1|]. intros [L1 L2].
    rewrite (proj2 (Z.leb_le 9 c) L1), (proj2 (Z.leb_le c 13) L2) in H2. discriminate H2.
Qed.

Lemma get_word_fail old s : is_fail s = true -> is_fail (snd (get_word old s)) = true.
Proof. intros H. unfold get_word. rewrite sentry_bad by (rewrite H; apply orb_true_r). cbn [snd]. apply set_state_fail. Qed.
Lemma ignore_line_fail s : is_fail s = true -> is_fail (ignore_line s) = true.
Proof. intros H. unfold ignore_line. rewrite sentry_bad by (rewrite H; apply orb_true_r). apply set_state_fail. Qed.

(** A word, or the end of the text. *)
Lemma get_word_cases t b : ended_at t b ->
  (exists p w r, blank p /\ plain_text w /\ t = p ++ w ++ r /\ match r with c :: _ => is_space c = true | [] => True end /\
     get_word [] (on t b) = (w, on r (null r))) \/
  (blank t /\ exists s, get_word [] (on t b) = ([], s) /\ is_fail s = true /\ is_eof s = true).
Proof.
  intros He. destruct b.
  { rewrite (He eq_refl). right. split; [intros c []|]. eexists. split; [reflexivity|]. split; reflexivity. }
  destruct (drop_split t) as (p & B & E & S). destruct (drop_spaces t) as [|c l] eqn:Ed.
  - right. rewrite app_nil_r in E. subst p. split; [exact B|]. unfold get_word. rewrite (sentry_spaces t) by (apply blank_spaces, B). eexists. split; [reflexivity|]. split; reflexivity.
  - left. destruct (span_word (c :: l)) as [w r] eqn:Ew. destruct (span_word_inv _ _ _ Ew) as (E2 & F & Sr).
    assert (NW : w <> []). { intros ->. cbn [app] in E2. subst r. cbn in S. congruence. }
    exists p, w, r. split; [exact B|]. split; [apply plain_iff; split; assumption|]. split; [rewrite <- E2; exact E|]. split; [exact Sr|].
    rewrite E, E2. apply get_word_written; [apply blank_spaces, B|exact NW|exact F|exact Sr].
Qed.

Lemma next_line_cases t : exists r b, next_line t r /\ ignore_line (on t false) = on r b /\ ended_at r b.
Proof.
  unfold ignore_line, sentry. cbn [is_eof is_fail is_rest is_skipws orb negb andb].
  assert (K : match after_newline t with Some r => exists x, ~ In 10 x /\ t = x ++ 10 :: r | None => ~ In 10 t end).
  { induction t as [|c t IH]; [intros []|]. cbn [after_newline]. destruct (Z.eqb_spec c 10) as [->|Ne].
    - exists []. split; [intros []|reflexivity].
    - destruct (after_newline t) as [r|].
      + destruct IH as (x & N & ->). exists (c :: x). split; [|reflexivity]. intros [H|H]; [exact (Ne H)|exact (N H)].
      + intros [H|H]; [exact (Ne H)|exact (IH H)]. }
  destruct (after_newline t) as [r|].
  - destruct K as (x & N & ->). exists r, false. split; [constructor; exact N|]. split; [reflexivity|intros H; discriminate H].
  - exists [], true. split; [constructor; exact K|]. split; [reflexivity|intros _; reflexivity].
Qed.
Lemma next_line_unique t r r' : next_line t r -> next_line t r' -> r = r'.
Proof.
  intros H1 H2. destruct (next_line_cases t) as (r0 & b & _ & _ & _).
  assert (K : forall t r, next_line t r -> match after_newline t with Some x => r = x | None => r = [] end).
  { clear. intros t r H. destruct H as [x r N|x N].
    - induction x as [|c x IH]; [reflexivity|]. cbn [app after_newline]. destruct (Z.eqb_spec c 10) as [->|]; [exfalso; apply N; left; reflexivity|]. apply IH. intros H. apply N. right. exact H.
    - induction x as [|c x IH]; [reflexivity|]. cbn [after_newline]. destruct (Z.eqb_spec c 10) as [->|]; [exfalso; apply N; left; reflexivity|]. apply IH. intros H. apply N. right. exact H. }
  apply K in H1, H2. destruct (after_newline t); congruence.
Qed.
Lemma next_line_run t r : next_line t r -> exists b, ignore_line (on t false) = on r b /\ ended_at r b.
Proof. intros H. destruct (next_line_cases t) as (r' & b & H' & E & Hb). rewrite (next_line_unique _ _ _ H H'). exists b. split; assumption. Qed.
Lemma next_line_length t r : next_line t r -> (List.length r <= List.length t)%nat.
Proof. intros [x r' _|x _]; [rewrite app_length; cbn [List.length]; lia|cbn; lia]. Qed.

(** * A label *)
Lemma label_run t w f r b : starts_label t w f r -> ended_at t b ->
  b = false /\ exists s1 s2 b', get_word [] (on t b) = (w, s1) /\ get_word [] s1 = (f, s2) /\ ignore_line s2 = on r b' /\ ended_at r b'.
Proof.
  intros (p & q & c & x & Hp & Hw & Nq & Hq & Hf & Hc & -> & Hn) He. assert (Eb : b = false).
  { destruct b; [|reflexivity]. specialize (He eq_refl). exfalso. apply app_eq_nil in He. destruct He as [_ He]. apply app_eq_nil in He. apply (proj1 Hw). apply He. }
  split; [exact Eb|]. subst b. destruct (next_line_run _ _ Hn) as (b' & E' & Hb'). apply plain_iff in Hw, Hf.
  exists (on (q ++ f ++ c :: x) false), (on (c :: x) false), b'. split; [|split; [|split; assumption]].
  - rewrite get_word_written; [|apply blank_spaces, Hp|apply Hw|apply Hw|destruct q as [|d q]; [congruence|apply Hq; left; reflexivity]]. destruct q; [congruence|reflexivity].
  - rewrite get_word_written; [|apply blank_spaces, Hq|apply Hf|apply Hf|exact Hc]. reflexivity.
Qed.
Lemma label_cases t b : ended_at t b ->
  (exists w f r, starts_label t w f r) \/
  ((forall w f r, ~ starts_label t w f r) /\ forall w f s1 s2, get_word [] (on t b) = (w, s1) -> get_word [] s1 = (f, s2) -> is_fail (ignore_line s2) = true /\ is_eof (ignore_line s2) = true).
Proof.
  intros He.
  assert (K : (exists w f r, starts_label t w f r) \/ forall w f s1 s2, get_word [] (on t b) = (w, s1) -> get_word [] s1 = (f, s2) -> is_fail (ignore_line s2) = true /\ is_eof (ignore_line s2) = true).
  { destruct (get_word_cases t b He) as [(p & w & r & Hp & Hw & Et & Sr & E1)|(_ & s & E1 & F1 & F1')].
    2: { right. intros w f s1 s2 H1 H2. rewrite E1 in H1. injection H1 as _ <-. unfold get_word in H2. rewrite sentry_bad in H2 by (rewrite F1; apply orb_true_r).
         injection H2 as _ <-. unfold ignore_line. rewrite sentry_bad by (cbn; rewrite orb_true_r; apply orb_true_r). split; [apply set_state_fail|]. cbn. rewrite F1'. reflexivity. }
    destruct r as [|d r].
    { right. intros w' f s1 s2 H1 H2. rewrite E1 in H1. injection H1 as _ <-. cbn in H2. injection H2 as _ <-. split; reflexivity. }
    destruct (get_word_cases (d :: r) false) as [(q & f & r2 & Hq & Hf & Et2 & Sr2 & E2)|(_ & s & E2 & F2 & F2')]; [intros H; discriminate H| |].
    2: { right. intros w' f s1 s2 H1 H2. rewrite E1 in H1. injection H1 as _ <-. cbn [null] in H2. rewrite E2 in H2. injection H2 as _ <-.
         unfold ignore_line. rewrite sentry_bad by (rewrite F2; apply orb_true_r). split; [apply set_state_fail|]. cbn. rewrite F2'. reflexivity. }
    destruct r2 as [|c x].
    { right. intros w' f' s1 s2 H1 H2. rewrite E1 in H1. injection H1 as _ <-. cbn [null] in H2. rewrite E2 in H2. injection H2 as _ <-. split; reflexivity. }
    left. destruct (next_line_cases (c :: x)) as (r3 & b3 & Hn & _). exists w, f, r3, p, q, c, x. split; [exact Hp|]. split; [exact Hw|]. split.
    { intros ->. cbn [app] in Et2. apply plain_iff in Hf. destruct Hf as [Nf Ff]. destruct f as [|e f]; [congruence|]. cbn [app] in Et2. injection Et2 as <- _. inversion Ff. congruence. }
    split; [exact Hq|]. split; [exact Hf|]. split; [exact Sr2|]. split; [rewrite Et, Et2; reflexivity|exact Hn]. }
  destruct K as [K|K]; [left; exact K|right]. split; [|exact K]. intros w f r H. destruct (label_run t w f r b H He) as (_ & s1 & s2 & b' & E1 & E2 & E3 & _).
  destruct (K w f s1 s2 E1 E2) as [K' _]. rewrite E3 in K'. discriminate K'.
Qed.
Lemma label_length t w f r : starts_label t w f r -> (List.length r < List.length t)%nat.
Proof.
  intros (p & q & c & x & _ & [Nw _] & _ & _ & _ & _ & -> & Hn). apply next_line_length in Hn. rewrite !app_length. destruct w; [congruence|]. cbn [List.length] in *. lia.
Qed.

(** * A number *)
Lemma number_first n f : number_text 4294967296 n f -> exists c l, f = c :: l /\ is_space c = false.
Proof.
  intros (sign & ds & -> & [[->|[->| ->]] D] & N & _); cbn [app]; [|eauto|eauto]. destruct ds as [|d ds]; [congruence|]. exists d, ds. split; [reflexivity|].
  specialize (D d (or_introl eq_refl)). unfold is_digit, is_space in *. apply andb_true_iff in D. destruct D as [D1 D2]. apply Z.leb_le in D1, D2.
  apply orb_false_iff. split; [apply Z.eqb_neq; lia|]. apply andb_false_iff. right. apply Z.leb_gt. lia.
Qed.
Lemma get_uint_on l : stops is_space l -> l <> [] -> forall p, blank p -> get_unsigned 0 (on (p ++ l) false) =
  let '(neg, ds, r) := span_int l in
  if null ds then (0, mkis r (null r) true true)
  else if 4294967296 <=? digits_value ds then (4294967295, mkis r (null r) true true)
  else (if neg : bool then (- digits_value ds) mod 4294967296 else digits_value ds, on r (null r)).
Proof.
  intros S N p Hp. unfold get_unsigned, get_uint. rewrite sentry_good by (try apply blank_spaces; assumption || discriminate). cbn [is_rest].
  destruct (span_int l) as [[neg ds] r]. unfold set_state, set_rest. cbn [is_rest is_eof is_fail is_skipws orb]. rewrite ?orb_false_r.
  destruct (null ds); [reflexivity|]. destruct (4294967296 <=? digits_value ds); reflexivity.
Qed.
Lemma number_run t n r b : starts_number t n r -> ended_at t b -> b = false /\ get_unsigned 0 (on t b) = (n, on r (null r)).
Proof.
  intros (p & f & Hp & Hf & -> & Sr) He. destruct (number_first _ _ Hf) as (c & l & Ef & Sc). assert (Eb : b = false).
  { destruct b; [|reflexivity]. specialize (He eq_refl). exfalso. apply app_eq_nil in He. destruct He as [_ He]. rewrite Ef in He. discriminate He. }
  split; [exact Eb|]. subst b. rewrite get_uint_on; [|rewrite Ef; exact Sc|rewrite Ef; discriminate|exact Hp].
  destruct Hf as (sign & ds & Ef2 & Hs & Hn & Hb & Ev). rewrite Ef2. rewrite <- app_assoc, (span_int_signed sign ds r Hs Sr (or_introl Hn)).
  destruct ds as [|d ds]; [congruence|]. cbn [null]. destruct (Z.leb_spec 4294967296 (digits_value (d :: ds))); [lia|]. subst n. destruct Hs as [[->|[->| ->]] _]; reflexivity.
Qed.
Lemma number_cases t b : ended_at t b ->
  (exists n r, starts_number t n r) \/
  ((forall n r, ~ starts_number t n r) /\ exists v s, get_unsigned 0 (on t b) = (v, s) /\ is_fail s = true /\
     (is_eof s = true <-> exists p sign ds, blank p /\ signed sign ds /\ t = p ++ sign ++ ds)).
Proof.
  intros He.
  assert (K : (exists n r, starts_number t n r) \/ exists v s, get_unsigned 0 (on t b) = (v, s) /\ is_fail s = true /\
     (is_eof s = true <-> exists p sign ds, blank p /\ signed sign ds /\ t = p ++ sign ++ ds)).
  { destruct b.
    { right. rewrite (He eq_refl). eexists. eexists. split; [reflexivity|]. split; [reflexivity|]. split; [intros _|reflexivity]. exists [], [], []. split; [intros c []|]. split; [split; [auto|intros c []]|reflexivity]. }
    destruct (drop_split t) as (p & B & E & S). destruct (drop_spaces t) as [|c l] eqn:Ed.
    { right. rewrite app_nil_r in E. subst p. unfold get_unsigned, get_uint. rewrite (sentry_spaces t) by (apply blank_spaces, B). eexists. eexists. split; [reflexivity|]. split; [reflexivity|].
      split; [intros _|reflexivity]. exists t, [], []. split; [exact B|]. split; [split; [auto|intros x []]|]. rewrite !app_nil_r. reflexivity. }
    pose proof (get_uint_on (c :: l) S ltac:(discriminate) p B) as R. rewrite <- E in R. destruct (span_int (c :: l)) as [[neg ds] r] eqn:Es.
    destruct (span_int_inv _ _ _ _ Es) as (sign & Hs & E2 & Hr & ->).
    assert (KE : null r = true <-> exists p sign ds, blank p /\ signed sign ds /\ t = p ++ sign ++ ds).
    { split.
      - intros Hnull. destruct r; [|discriminate Hnull]. exists p, sign, ds. split; [exact B|]. split; [exact Hs|]. rewrite E, E2, app_nil_r. reflexivity.
      - intros (p' & sign' & ds' & B' & Hs' & E'). assert (NS : sign' ++ ds' <> [] -> stops is_space (sign' ++ ds')).
        { intros NE. destruct Hs' as [[->|[->| ->]] D']; cbn [app]; [|reflexivity|reflexivity]. destruct ds' as [|d ds']; [exfalso; apply NE; reflexivity|].
          cbn. specialize (D' d (or_introl eq_refl)). apply digit_not_space. exact D'. }
        assert (DS : drop_spaces t = sign' ++ ds').
        { destruct (sign' ++ ds') as [|d0 l0] eqn:E0.
          - rewrite E', app_nil_r. rewrite <- (app_nil_r p'), drop_spaces_app; [reflexivity|apply blank_spaces, B'|exact I].
          - rewrite E'. apply drop_spaces_app; [apply blank_spaces, B'|]. apply NS. discriminate. }
        rewrite Ed in DS. rewrite DS in Es. rewrite <- (app_nil_r ds') in Es. rewrite (span_int_signed sign' ds' [] Hs' I) in Es by (right; right; reflexivity).
        injection Es as _ _ <-. reflexivity. }
    destruct (null ds) eqn:En; [right; eexists; eexists; split; [exact R|]; split; [reflexivity|exact KE]|].
    destruct (Z.leb_spec 4294967296 (digits_value ds)) as [L|L]; [right; eexists; eexists; split; [exact R|]; split; [reflexivity|exact KE]|].
    left. eexists. exists r, p, (sign ++ ds). split; [exact B|]. split; [|split; [rewrite E, E2, <- app_assoc; reflexivity|exact Hr]].
    exists sign, ds. split; [reflexivity|]. split; [exact Hs|]. split; [intros ->; discriminate En|]. split; [exact L|reflexivity]. }
  destruct K as [K|K]; [left; exact K|right]. split; [|exact K]. intros n r H. destruct (number_run t n r b H He) as [_ R]. destruct K as (v & s & E & F & _).
  rewrite R in E. injection E as _ <-. discriminate F.
Qed.
Lemma number_length t n r : starts_number t n r -> (List.length r < List.length t)%nat.
Proof. intros (p & f & _ & Hf & -> & _). destruct (number_first _ _ Hf) as (c & l & -> & _). rewrite !app_length. cbn [List.length]. lia. Qed.
Lemma number_range t n r : starts_number t n r -> 0 <= n.
Proof.
  intros (p & f & _ & (sign & ds & _ & Hs & _ & _ & ->) & _). assert (G : 0 <= digits_value ds).
  { assert (G : forall l a, 0 <= a -> (forall c, In c l -> is_digit c = true) -> 0 <= fold_left (fun a d => a * 10 + (d - 48)) l a).
    { induction l as [|d l IH]; intros a Ha H; [exact Ha|]. cbn [fold_left]. apply IH; [|intros c Hc; apply H; right; exact Hc].
      specialize (H d (or_introl eq_refl)). unfold is_digit in H. apply andb_true_iff in H. destruct H as [H _]. apply Z.leb_le in H. lia. }
    apply G; [lia|]. apply Hs. }
  destruct Hs as [[->|[->| ->]] _]; cbn iota; try exact G. apply Z.mod_pos_bound. lia.
Qed.

(** * Existence *)
Lemma labels_exist : forall k t n, (List.length t <= k)%nat -> 0 <= n -> exists ls o, labels_in n t ls o.
Proof.
  induction k as [|k IH]; intros t n L H; (destruct (Z.eq_dec n 0) as [->|Nz]; [exists [], (Some t); constructor|]);
    (destruct (label_cases t false ltac:(intros X; discriminate X)) as [(w & f & r & Hl)|[N _]]; [|exists [], None; constructor; [lia|exact N]]).
  - apply label_length in Hl. lia.
  - pose proof (label_length _ _ _ _ Hl). destruct (IH r (n - 1)) as (ls & o & Ho); [lia|lia|]. exists ((w, f) :: ls), o.
    replace n with (n - 1 + 1) by lia. econstructor; [lia|exact Hl|exact Ho].
Qed.
Lemma labels_rest n t ls o : labels_in n t ls o -> match o with Some r => (List.length r + List.length ls <= List.length t)%nat | None => (List.length ls <= List.length t)%nat end.
Proof.
  induction 1 as [t|n t w f r ls o Hn Hl H IH|n t Hn N]; [cbn; lia| |cbn; lia]. apply label_length in Hl. destruct o; cbn [List.length]; lia.
Qed.
Lemma labels_count n t ls o : labels_in n t ls o -> 0 <= n.
Proof. induction 1; lia. Qed.

Lemma glyphs_exist : forall k t, (List.length t <= k)%nat -> exists es b, glyphs_in t es b.
Proof.
  assert (St : forall t, (exists es b, glyphs_in t es b) \/ exists r n r' ls r'', next_line t r /\ starts_number r n r' /\ labels_in n r' ls (Some r'')).
  { intros t. destruct (next_line_cases t) as (r & b0 & Hn & _ & He). destruct (number_cases r b0 He) as [(n & r' & Hs)|[N (v & s & _ & _ & K)]].
    - destruct (labels_exist (List.length r') r' n (le_n _) (number_range _ _ _ Hs)) as (ls & [r''|] & Ho).
      + right. exists r, n, r', ls, r''. auto.
      + left. exists [mkentry n ls], true. econstructor; eassumption.
    - left. exists [], (is_eof s). econstructor; eassumption. }
  induction k as [|k IH]; intros t L; (destruct (St t) as [E|(r & n & r' & ls & r'' & H1 & H2 & H3)]; [exact E|]);
    pose proof (next_line_length _ _ H1); pose proof (number_length _ _ _ H2); pose proof (labels_rest _ _ _ _ H3) as H4; cbn iota in H4.
  - lia.
  - destruct (IH r'') as (es & b & H5); [lia|]. exists (mkentry n ls :: es), b. econstructor; eassumption.
Qed.

(** * The tables of names *)
Notation mkp w f := (fun p : list Z * list Z => mkov (idf w (fst p)) (idf f (snd p))).
Record grown (w f : names) (ls : list (list Z * list Z)) (w' f' : names) : Prop := {
  gr_w : good_map w'; gr_f : good_map f';
  gr_xw : extends w w'; gr_xf : extends f f';
  gr_vw : vsize w' <= vsize w + vsize ls; gr_vf : vsize f' <= vsize f + vsize ls;
  gr_kw : forall x, In x (keys w') <-> In x (map fst ls) \/ In x (keys w);
  gr_kf : forall x, In x (keys f') <-> In x (map snd ls) \/ In x (keys f);
  gr_0 : w = [] -> f = [] -> match ls with (a, b) :: _ => names_find a w' = Some 0 /\ names_find b f' = Some 0 | [] => w' = [] /\ f' = [] end }.
Lemma grown_nil w f : good_map w -> good_map f -> grown w f [] w f.
Proof.
  intros Gw Gf. constructor; try assumption; try (intros ? ? ?; assumption); try (cbn; lia); try (intros x; cbn; tauto).
Qed.
Lemma grown_cons w f a b ls w' f' : good_map w -> good_map f -> vsize w < 4294967296 -> vsize f < 4294967296 ->
  exists i j w1 f1, names_get a w = (i, w1) /\ names_get b f = (j, f1) /\ good_map w1 /\ good_map f1 /\
    vsize w1 <= vsize w + 1 /\ vsize f1 <= vsize f + 1 /\
    (grown w1 f1 ls w' f' -> grown w f ((a, b) :: ls) w' f' /\ mkp w' f' (a, b) = mkov i j).
Proof.
  intros Gw Gf Vw Vf. destruct (names_get_ok a w Gw Vw) as (i & w1 & E1 & Gw1 & X1 & F1 & V1 & K1).
  destruct (names_get_ok b f Gf Vf) as (j & f1 & E2 & Gf1 & X2 & F2 & V2 & K2).
  exists i, j, w1, f1. do 6 (split; [assumption|]). intros [A1 A2 A3 A4 A5 A6 A7 A8 A9]. split.
  - constructor; try assumption.
    + eapply extends_trans; eassumption.
    + eapply extends_trans; eassumption.
    + rewrite vsize_cons. lia.
    + rewrite vsize_cons. lia.
    + intros x. rewrite A7, K1. cbn [map In fst]. intuition.
    + intros x. rewrite A8, K2. cbn [map In snd]. intuition.
    + intros -> ->. cbn in E1, E2. injection E1 as <- _. injection E2 as <- _. split; [apply A3, F1|apply A4, F2].
  - cbn [fst snd]. unfold idf. rewrite (A3 _ _ F1), (A4 _ _ F2). reflexivity.
Qed.
Lemma grown_app w f ls w1 f1 ls' w' f' : grown w f ls w1 f1 -> grown w1 f1 ls' w' f' -> grown w f (ls ++ ls') w' f'.
Proof.
  intros [A1 A2 A3 A4 A5 A6 A7 A8 A9] [B1 B2 B3 B4 B5 B6 B7 B8 B9]. constructor; try assumption.
  - eapply extends_trans; eassumption.
  - eapply extends_trans; eassumption.
  - rewrite vsize_app. lia.
  - rewrite vsize_app. lia.
  - intros x. rewrite B7, A7, map_app, in_app_iff. tauto.
  - intros x. rewrite B8, A8, map_app, in_app_iff. tauto.
  - intros Ew Ef. specialize (A9 Ew Ef). destruct ls as [|[a b] ls]; [exact (B9 (proj1 A9) (proj2 A9))|]. cbn [app]. split; [apply B3, A9|apply B4, A9].
Qed.
Lemma mkp_grown w f ls w1 f1 ls' w' f' : grown w f ls w1 f1 -> grown w1 f1 ls' w' f' -> map (mkp w' f') ls = map (mkp w1 f1) ls.
Proof.
  intros A B. apply map_ext_in. intros [a b] Hp. cbn [fst snd]. rewrite (extends_idf w1 w'), (extends_idf f1 f'); [reflexivity| | | |].
  - apply B.
  - apply (gr_kf _ _ _ _ _ A). left. exact (in_map snd _ _ Hp).
  - apply B.
  - apply (gr_kw _ _ _ _ _ A). left. exact (in_map fst _ _ Hp).
Qed.

(** * The labels of a glyph *)
Lemma views_run n t ls o b words fonts : labels_in n t ls o -> ended_at t b -> good_map words -> good_map fonts ->
  vsize words + vsize ls < 4294967296 -> vsize fonts + vsize ls < 4294967296 ->
  exists words' fonts' s, read_ocr_views n (on t b) words fonts =
      Ok (map (mkp words' fonts') ls ++ repeat (mkov 0 0) (Z.to_nat n - List.length ls), s, words', fonts') /\
    match o with Some r => exists b', s = on r b' /\ ended_at r b' | None => is_fail s = true /\ is_eof s = true end /\
    grown words fonts ls words' fonts'.
Proof.
  intros HL He Gw Gf Vw Vf. unfold read_ocr_views. match goal with |- context [loop ?x ?y _] => set (fuel := x); set (body := y) end.
  assert (Hf : (List.length ls < fuel)%nat).
  { pose proof (labels_rest _ _ _ _ HL) as Hr. unfold fuel. cbn [is_rest]. destruct o; lia. }
  clearbody fuel.
  assert (M : forall k t ls o, labels_in k t ls o -> forall i done b words fonts fuel, i + k = n -> i = vsize done -> (List.length ls < fuel)%nat ->
    ended_at t b -> good_map words -> good_map fonts -> vsize words + vsize ls < 4294967296 -> vsize fonts + vsize ls < 4294967296 ->
    exists words' fonts' s, loop fuel body (i, done ++ repeat (mkov 0 0) (Z.to_nat k), on t b, words, fonts) =
      Ok (done ++ map (mkp words' fonts') ls ++ repeat (mkov 0 0) (Z.to_nat k - List.length ls), s, words', fonts') /\
    match o with Some r => exists b', s = on r b' /\ ended_at r b' | None => is_fail s = true /\ is_eof s = true end /\
    grown words fonts ls words' fonts').
  { clear fuel Hf words fonts Gw Gf Vw Vf HL He t ls o b.
    induction 1 as [t|k t w f r ls o Hk Hl H IH|k t Hk N]; intros i done b words fonts fuel Ei Ed Hf He Gw Gf Vw Vf.
    - destruct fuel as [|fuel]; [inversion Hf|]. cbn [loop]. unfold body at 1. rewrite (proj2 (Z.ltb_ge i n)) by lia. cbn [bind].
      exists words, fonts. eexists. split; [reflexivity|]. split; [exists b; split; [reflexivity|exact He]|]. apply grown_nil; assumption.
    - destruct fuel as [|fuel]; [inversion Hf|]. cbn [loop List.length] in Hf |- *. unfold body at 1.
      rewrite (proj2 (Z.ltb_lt i n)) by lia. destruct (label_run _ _ _ _ _ Hl He) as (_ & s1 & s2 & b' & E1 & E2 & E3 & Hb'). rewrite E1, E2, E3.
      cbn [is_ok is_fail negb]. rewrite vsize_cons in Vw, Vf. pose proof (vsize_nonneg ls).
      destruct (grown_cons words fonts w f [] words fonts Gw Gf ltac:(lia) ltac:(lia)) as (wi & fi & w1 & f1 & N1 & N2 & G1 & G2 & V1 & V2 & _). rewrite N1, N2.
      replace (Z.to_nat (k + 1)) with (Datatypes.S (Z.to_nat k)) by lia. cbn [repeat]. rewrite wr_mid by exact Ed. cbn [bind].
      specialize (IH (i + 1) (done ++ [mkov wi fi]) b' w1 f1 fuel). rewrite <- !app_assoc in IH. cbn [app] in IH.
      destruct IH as (w' & f' & s & L & Hs & Hg); try assumption; try lia.
      { rewrite vsize_app. change (vsize [mkov wi fi]) with 1. lia. }
      destruct (grown_cons words fonts w f ls w' f' Gw Gf ltac:(lia) ltac:(lia)) as (wi2 & fi2 & w2 & f2 & N1' & N2' & _ & _ & _ & _ & K).
      rewrite N1 in N1'. rewrite N2 in N2'. injection N1' as <- <-. injection N2' as <- <-. destruct (K Hg) as [Hg' Ek].
      exists w', f', s. split; [|split; assumption]. rewrite L. cbn [map]. rewrite Ek, <- (app_assoc done). reflexivity.
    - destruct fuel as [|fuel]; [inversion Hf|]. cbn [loop]. unfold body at 1. rewrite (proj2 (Z.ltb_lt i n)) by lia.
      destruct (label_cases t b He) as [(w & f & r & Hl)|[_ K]]; [destruct (N _ _ _ Hl)|].
      destruct (get_word [] (on t b)) as [w s1] eqn:E1. destruct (get_word [] s1) as [f s2] eqn:E2. destruct (K w f s1 s2 eq_refl E2) as [K1 K2].
      unfold is_ok. rewrite K1. cbn [negb bind]. exists words, fonts. eexists. split; [cbn [map app List.length]; rewrite Nat.sub_0_r; reflexivity|].
      split; [split; assumption|]. apply grown_nil; assumption. }
  exact (M n t ls o HL 0 [] b words fonts fuel ltac:(lia) eq_refl Hf He Gw Gf Vw Vf).
Qed.

(** * The glyphs *)
Definition raw (w f : names) (e : entry) : list oview :=
  map (mkp w f) (en_labels e) ++ repeat (mkov 0 0) (Z.to_nat (en_count e) - List.length (en_labels e)).
Lemma raw_grown w f es w1 f1 ls' w' f' e : grown w f es w1 f1 -> grown w1 f1 ls' w' f' -> (forall x, In x (en_labels e) -> In x es) -> raw w' f' e = raw w1 f1 e.
Proof.
  intros A B H. unfold raw. f_equal. pose proof (mkp_grown _ _ _ _ _ _ _ _ A B) as E. apply map_ext_in. intros x Hx.
  apply H in Hx. clear -E Hx. induction es as [|y es IH]; [destruct Hx|]. cbn [map] in E. injection E as E1 E2 E3. destruct Hx as [->|Hx]; [rewrite E1, E2; reflexivity|].
  apply IH; assumption.
Qed.
Lemma glyphs_length t es b : glyphs_in t es b -> (List.length es <= List.length t)%nat.
Proof.
  induction 1 as [t r b Hn N K|t r n r' ls Hn Hs Hl|t r n r' ls r'' es b Hn Hs Hl H IH]; [cbn; lia| |]; apply next_line_length in Hn; apply number_length in Hs; cbn [List.length].
  - lia.
  - pose proof (labels_rest _ _ _ _ Hl) as H4; cbn iota in H4. lia.
Qed.
Lemma glyphs_counts t es b : glyphs_in t es b -> forall e, In e es -> 0 <= en_count e.
Proof.
  induction 1 as [t r b Hn N K|t r n r' ls Hn Hs Hl|t r n r' ls r'' es b Hn Hs Hl H IH]; intros e He; [destruct He| |].
  - destruct He as [<-|[]]. exact (number_range _ _ _ Hs).
  - destruct He as [<-|He]; [exact (number_range _ _ _ Hs)|exact (IH e He)].
Qed.

Lemma glyphs_run text es b : glyphs_in text es b -> vsize (found es) < 4294967296 ->
  exists words fonts s, read_ocr_glyphs (open_stream text) = Ok (map (raw words fonts) es, s, words) /\ is_eof s = b /\ grown [] [] (found es) words fonts.
Proof.
  intros HG V. unfold read_ocr_glyphs, open_stream. match goal with |- context [loop ?x ?y _] => set (fuel := x); set (body := y) end.
  assert (Hf : (List.length es < fuel)%nat) by (unfold fuel; cbn [is_rest]; pose proof (glyphs_length _ _ _ HG); lia). clearbody fuel.
  assert (M : forall t es b, glyphs_in t es b -> forall done b0 words fonts fuel, ended_at t b0 -> (List.length es < fuel)%nat ->
    good_map words -> good_map fonts -> vsize words + vsize (found es) < 4294967296 -> vsize fonts + vsize (found es) < 4294967296 ->
    exists words' fonts' s, loop fuel body (done, on t b0, words, fonts) = Ok (done ++ map (raw words' fonts') es, s, words') /\ is_eof s = b /\ grown words fonts (found es) words' fonts').
  { clear text es b HG V fuel Hf.
    assert (F : forall t b0 r, ended_at t b0 -> next_line t r -> r <> [] -> exists b1, ignore_line (on t b0) = on r b1 /\ ended_at r b1).
    { intros t b0 r He Hn Nr. destruct b0; [|apply next_line_run, Hn]. rewrite (He eq_refl) in Hn. apply next_line_length in Hn. destruct r; [congruence|cbn in Hn; lia]. }
    assert (NE : forall r n r', starts_number r n r' -> r <> []) by (intros r n r' H ->; apply number_length in H; cbn in H; lia).
    induction 1 as [t r b Hn N K|t r n r' ls Hn Hs Hl|t r n r' ls r'' es b Hn Hs Hl H IH]; intros done b0 words fonts fuel He Hf Gw Gf Vw Vf;
      (destruct fuel as [|fuel]; [inversion Hf|]); cbn [loop List.length] in Hf |- *; unfold body at 1.
    - cbn [map]. rewrite app_nil_r. exists words, fonts. destruct b0.
      + rewrite (He eq_refl) in *. cbn [ignore_line sentry is_eof is_fail orb]. eexists. split; [reflexivity|]. split; [|apply grown_nil; assumption].
        symmetry. apply K. assert (r = []) as -> by (apply next_line_length in Hn; destruct r; [reflexivity|cbn in Hn; lia]).
        exists [], [], []. split; [intros c []|]. split; [split; [auto|intros c []]|reflexivity].
      + destruct (next_line_run _ _ Hn) as (b1 & -> & He1). cbn [is_ok is_fail negb].
        destruct (number_cases r b1 He1) as [(n & r' & Hs)|[_ (v & s & -> & F1 & K')]]; [destruct (N _ _ Hs)|].
        unfold is_ok. rewrite F1. cbn [negb bind]. exists s. split; [reflexivity|]. split; [|apply grown_nil; assumption].
        rewrite <- K' in K. destruct b, (is_eof s); try reflexivity; [apply (proj1 K); reflexivity|symmetry; apply (proj2 K); reflexivity].
    - destruct (F _ _ _ He Hn (NE _ _ _ Hs)) as (b1 & -> & He1). cbn [is_ok is_fail negb]. destruct (number_run _ _ _ _ Hs He1) as [_ ->]. cbn [is_ok is_fail negb].
      unfold found in *. cbn [flat_map en_labels] in *. rewrite app_nil_r in *.
      destruct (views_run n r' ls None (null r') words fonts Hl) as (w' & f' & s & -> & [F1 F2] & G); try assumption.
      { intros X. destruct r'; [reflexivity|discriminate X]. }
      cbn [bind]. destruct fuel as [|fuel]; [lia|]. cbn [loop]. unfold body at 1.
      unfold is_ok at 1. rewrite (ignore_line_fail _ F1). cbn [negb bind]. exists w', f'. eexists. split; [reflexivity|]. split; [|exact G].
      unfold ignore_line. rewrite sentry_bad by (rewrite F1; apply orb_true_r). cbn. rewrite F2. reflexivity.
    - destruct (F _ _ _ He Hn (NE _ _ _ Hs)) as (b1 & -> & He1). cbn [is_ok is_fail negb]. destruct (number_run _ _ _ _ Hs He1) as [_ ->]. cbn [is_ok is_fail negb].
      unfold found in *. cbn [flat_map en_labels] in *. rewrite vsize_app in Vw, Vf. pose proof (vsize_nonneg ls). pose proof (vsize_nonneg (flat_map en_labels es)).
      destruct (views_run n r' ls (Some r'') (null r') words fonts Hl) as (w1 & f1 & s & -> & (b' & -> & He2) & G); try assumption; try lia.
      { intros X. destruct r'; [reflexivity|discriminate X]. }
      cbn [bind]. pose proof (gr_vw _ _ _ _ _ G). pose proof (gr_vf _ _ _ _ _ G).
      match goal with |- context [loop fuel body (?d, _, _, _)] => destruct (IH d b' w1 f1 fuel) as (w' & f' & s & L & Es & G') end; try assumption; try lia; try apply G.
      exists w', f', s. split; [|split; [exact Es|exact (grown_app _ _ _ _ _ _ _ _ G G')]]. rewrite L. cbn [map]. rewrite <- app_assoc. cbn [app].
      rewrite (raw_grown _ _ _ _ _ _ _ _ (mkentry n ls) G G') by (intros x Hx; exact Hx). reflexivity. }
  destruct (M text es b HG [] false [] [] fuel ltac:(intros X; discriminate X) Hf good_nil good_nil) as (w & f & s & L & R); [exact V|exact V|]. exists w, f, s. split; [exact L|exact R].
Qed.

(** * The table *)
Lemma map_repeat {A B} (g : A -> B) x n : map g (repeat x n) = repeat (g x) n.
Proof. induction n as [|n IH]; [reflexivity|]. cbn [repeat map]. rewrite IH. reflexivity. Qed.
Lemma raw_views w f es : grown [] [] (found es) w f -> forall views, completed es = Some views -> (forall e, In e es -> 0 <= en_count e) ->
  map (raw w f) es = map (map (mkp w f)) views /\ forall v p, In v views -> In p v -> In p (found es).
Proof.
  intros G views H C. unfold completed in H. pose proof (gr_0 _ _ _ _ _ G eq_refl eq_refl) as G0. destruct (found es) as [|[a b] l] eqn:E.
  - destruct (forallb _ es) eqn:A; [|discriminate H]. injection H as <-. rewrite forallb_forall in A. split.
    + rewrite map_map. apply map_ext_in. intros e He. specialize (A e He). apply Z.eqb_eq in A. unfold raw. rewrite A.
      assert (L : en_labels e = []).
      { destruct (en_labels e) as [|p q] eqn:El; [reflexivity|]. exfalso. assert (X : In p (found es)) by (apply in_flat_map; exists e; rewrite El; split; [exact He|left; reflexivity]). rewrite E in X. destruct X. }
      rewrite L. reflexivity.
    + intros v p Hv Hp. apply in_map_iff in Hv. destruct Hv as (e & <- & _). destruct Hp.
  - destruct G0 as [Z1 Z2]. injection H as <-. split.
    + rewrite map_map. apply map_ext_in. intros e He. rewrite map_app, map_repeat. cbn [fst snd]. unfold raw. f_equal. f_equal.
      unfold idf. rewrite Z1, Z2. reflexivity.
    + intros v p Hv Hp. apply in_map_iff in Hv. destruct Hv as (e & <- & He). apply in_app_or in Hp. destruct Hp as [Hp|Hp].
      * rewrite <- E. apply in_flat_map. exists e. split; assumption.
      * apply repeat_spec in Hp. subst p. left. reflexivity.
Qed.
Lemma raw_missing (w f : names) es (h : oview -> res oview) : completed es = None -> (forall e, In e es -> 0 <= en_count e) -> h (mkov 0 0) = UB ->
  map_res (map_res h) (map (raw w f) es) = UB.
Proof.
  intros H C U. unfold completed in H. destruct (found es) eqn:E; [|discriminate H]. destruct (forallb _ es) eqn:A; [discriminate H|]. clear H.
  induction es as [|e es IH]; [discriminate A|]. cbn [found flat_map] in E. apply app_eq_nil in E. destruct E as [E1 E2]. cbn [forallb] in A.
  cbn [map map_res]. assert (R : raw w f e = repeat (mkov 0 0) (Z.to_nat (en_count e))) by (unfold raw; rewrite E1; cbn [map app List.length]; rewrite Nat.sub_0_r; reflexivity).
  rewrite R. pose proof (C e (or_introl eq_refl)). destruct (Z.eqb_spec (en_count e) 0) as [Z0|Nz].
  - rewrite Z0. cbn [Z.to_nat repeat map_res bind]. rewrite IH; first [reflexivity | assumption | intros x Hx; apply C; right; exact Hx].
  - replace (Z.to_nat (en_count e)) with (Datatypes.S (Z.to_nat (en_count e - 1))) by lia. cbn [repeat map_res]. rewrite U. reflexivity.
Qed.

Lemma end_greatest (m : names) ws : StronglySorted lex_lt (keys m) -> (forall x, In x (keys m) <-> In x ws) ->
  (good_end m = true <-> forall w, greatest ws w -> vsize w mod 4 <> 0) /\ (good_end m = false -> exists w, greatest ws w /\ vsize w mod 4 = 0).
Proof.
  intros S K. destruct (snoc_cases m) as [->|(m1 & [w i] & E)].
  - split; [|intros H; discriminate H]. split; [|reflexivity]. intros _ w [Hw _]. apply K in Hw. destruct Hw.
  - destruct (sorted_split m S m1 w i [] E) as (P & _ & _). assert (G : greatest ws w).
    { split; [apply K; rewrite E; unfold keys; rewrite map_app; apply in_or_app; right; left; reflexivity|].
      intros w' Hw'. apply K in Hw'. rewrite E in Hw'. unfold keys in Hw'. rewrite map_app in Hw'.
      apply in_app_or in Hw'. destruct Hw' as [Hw'|[<-|[]]]; [right; apply P, Hw'|left; reflexivity]. }
    assert (GE : good_end m = negb (vsize w mod 4 =? 0)).
    { rewrite E. clear. induction m1 as [|p m1 IH]; [reflexivity|]. cbn [app good_end]. rewrite IH. destruct m1; reflexivity. }
    rewrite GE. split.
    + split.
      * intros H w' Gw'. rewrite (greatest_unique _ _ _ Gw' G). destruct (Z.eqb_spec (vsize w mod 4) 0); [discriminate|assumption].
      * intros H. specialize (H w G). rewrite (proj2 (Z.eqb_neq _ _) H). reflexivity.
    + intros H. exists w. split; [exact G|]. destruct (Z.eqb_spec (vsize w mod 4) 0); [assumption|discriminate H].
Qed.

(** C43. *)
(** The words of the block, in order. *)
Definition blocked (ls : list (list Z * list Z)) (t : glyphs_table) (m : names) : Prop :=
  gt_mem t = image_of m /\ gt_sz t = total m /\ StronglySorted lex_lt (keys m) /\ (forall w, In w (keys m) -> vsize w < 4294967296) /\ total m < 4294967296 /\
  forall w, In w (keys m) <-> In w (map fst ls).
Lemma load_block text es b : glyphs_in text es b -> fits es ->
  match completed es with
  | None => load_glyphs (open_stream text) = UB
  | Some views =>
    ((exists w, greatest (map fst (found es)) w /\ vsize w mod 4 = 0) /\ load_glyphs (open_stream text) = UB) \/
    ((forall w, greatest (map fst (found es)) w -> vsize w mod 4 <> 0) /\
     exists t s, load_glyphs (open_stream text) = Ok (t, s) /\ is_eof s = b /\ exists m fid, blocked (found es) t m /\ resolved_by (found es) views t (offs m) fid)
  end.
Proof.
  intros HG (V & B & W). destruct (glyphs_run text es b HG V) as (m & fonts & s & R & Es & G). pose proof (glyphs_counts _ _ _ HG) as HC.
  assert (Km : forall x, In x (keys m) <-> In x (map fst (found es))) by (intros x; rewrite (gr_kw _ _ _ _ _ G); cbn; tauto).
  assert (Kf : forall x, In x (keys fonts) <-> In x (map snd (found es))) by (intros x; rewrite (gr_kf _ _ _ _ _ G); cbn; tauto).
  destruct (gr_w _ _ _ _ _ G) as [S N I]. pose proof (gr_f _ _ _ _ _ G) as Gf. pose proof (sorted_NoDup _ S) as NK.
  assert (BT : total m < 4294967296) by (rewrite <- (block_total m (map fst (found es))) by assumption; exact B).
  assert (SZ : forall w, In w (keys m) -> vsize w < 4294967296) by (intros w Hw; apply W, Km, Hw).
  destruct (completed es) as [views|] eqn:EC.
  2: { unfold load_glyphs. rewrite R. cbn [bind]. assert (m = []) as ->.
       { unfold completed in EC. pose proof (gr_0 _ _ _ _ _ G eq_refl eq_refl) as G0. destruct (found es); [apply G0|discriminate EC]. }
       cbn [word_offsets List.length repeat bind]. rewrite raw_missing; [reflexivity|exact EC|exact HC|reflexivity]. }
  destruct (raw_views m fonts es G views EC HC) as [RV RI].
  assert (LR : vsize (repeat 0 (List.length m)) = vsize m) by (unfold vsize; rewrite repeat_length; reflexivity).
  destruct (word_offsets_ok m 0 (repeat 0 (List.length m)) NK N) as (R' & RO & RL & RVV & _); [|lia|lia|].
  { intros i Hi. rewrite LR. apply I, Hi. }
  pose (out := map (map (fun p : list Z * list Z => mkov (offs m (fst p)) (idf fonts (snd p)))) views).
  assert (L : load_glyphs (open_stream text) = if good_end m then Ok (mkgt out (image_of m) (total m), s) else UB).
  { unfold load_glyphs. rewrite R. cbn [bind]. rewrite RO. cbn [bind]. rewrite Z.add_0_l.
    assert (PT : forall v p, In v views -> In p v -> rd R' (idf m (fst p)) = Ok (offs m (fst p))).
    { intros v p Hv Hp. assert (K : In (fst p) (keys m)) by (apply Km, in_map, (RI v p Hv Hp)).
      unfold idf. destruct (names_find (fst p) m) as [i|] eqn:E; [|apply find_none in E; contradiction].
      apply find_key in E; [|exact S]. rewrite (RVV _ _ E), Z.add_0_l. reflexivity. }
    assert (ER : map_res (map_res (fun v => id <- rd R' (ov_word v) ;; Ok (mkov id (ov_font v)))) (map (raw m fonts) es) = Ok out).
    { rewrite RV, (map_res_ok _ (map (fun v => mkov (match rd R' (ov_word v) with Ok x => x | _ => 0 end) (ov_font v)))).
      - rewrite map_map. unfold out. f_equal. apply map_ext_in. intros v Hv. rewrite map_map. apply map_ext_in. intros p Hp.
        cbn [ov_word ov_font]. rewrite (PT v p Hv Hp). reflexivity.
      - intros vs Hvs. apply map_res_ok. intros x Hx. apply in_map_iff in Hvs. destruct Hvs as (v & <- & Hv).
        apply in_map_iff in Hx. destruct Hx as (p & <- & Hp). cbn [ov_word ov_font]. rewrite (PT v p Hv Hp). reflexivity. }
    rewrite ER. cbn [bind].
    assert (EM : repeat None (Z.to_nat (4 * total m)) = [] ++ rest_of m None).
    { cbn [app]. destruct m as [|[w i] m']; [reflexivity|]. cbn [rest_of]. set (m := (w, i) :: m') in *.
      assert (1 <= total m) by (unfold m; rewrite total_cons; pose proof (width_pos w); pose proof (total_nonneg m'); lia).
      replace (Z.to_nat (4 * total m)) with (Datatypes.S (Z.to_nat (4 * total m - 1))) by lia. reflexivity. }
    rewrite EM, (fill_words_ok m [] None 0); [|reflexivity|exact SZ].
    destruct (good_end m); reflexivity. }
  destruct (end_greatest m (map fst (found es)) S Km) as [GE GE']. destruct (good_end m) eqn:Eg.
  2: { left. split; [exact (GE' eq_refl)|exact L]. }
  right. split; [exact (proj1 GE eq_refl)|]. exists (mkgt out (image_of m) (total m)), s. split; [exact L|]. split; [exact Es|].
  exists m, (idf fonts). split; [unfold blocked; repeat split; auto; apply Km|]. split; [|split].
  - unfold out. cbn [gt_views]. apply map_ext. intros v. apply map_ext. intros [a c]. reflexivity.
  - intros w Hw. apply Km in Hw. pose proof Hw as Hw'. unfold keys in Hw'. apply in_map_iff in Hw'. destruct Hw' as ([k i] & Ek & Hk).
    cbn [fst] in Ek. subst k. apply in_split in Hk. destruct Hk as (m1 & m2 & E).
    destruct (sorted_split m S m1 w i m2 E) as (_ & _ & ->).
    apply (word_text_ok m (mkgt out (image_of m) (total m)) eq_refl SZ m1 w i m2 E).
  - intros f f' Hf Hf' E. apply Kf in Hf, Hf'. destruct Gf as [Sf Nf If]. unfold idf in E.
    destruct (names_find f fonts) as [i|] eqn:E1; [|apply find_none in E1; contradiction].
    destruct (names_find f' fonts) as [i'|] eqn:E2; [|apply find_none in E2; contradiction].
    subst i'. apply find_key in E1, E2; try exact Sf. clear -Nf E1 E2.
    induction fonts as [|[k j] fonts IH]; [destruct E1|]. cbn [ids map snd] in Nf. inversion Nf as [|? ? N1 N2]; subst.
    destruct E1 as [E1|E1], E2 as [E2|E2].
    + congruence.
    + exfalso. injection E1 as _ ->. apply N1. exact (in_map snd _ _ E2).
    + exfalso. injection E2 as _ ->. apply N1. exact (in_map snd _ _ E1).
    + apply IH; assumption.
Qed.
Lemma load_any text es b : glyphs_in text es b -> fits es ->
  match completed es with
  | None => load_glyphs (open_stream text) = UB
  | Some views =>
    ((exists w, greatest (map fst (found es)) w /\ vsize w mod 4 = 0) /\ load_glyphs (open_stream text) = UB) \/
    ((forall w, greatest (map fst (found es)) w -> vsize w mod 4 <> 0) /\
     exists t s, load_glyphs (open_stream text) = Ok (t, s) /\ is_eof s = b /\ resolved (found es) views t)
  end.
Proof.
  intros HG HF. pose proof (load_block text es b HG HF) as H. destruct (completed es) as [views|]; [|exact H]. destruct H as [H|(H & t & s & L & Es & m & fid & _ & R)]; [now left|].
  right. split; [exact H|]. exists t, s. split; [exact L|]. split; [exact Es|]. now exists (offs m), fid.
Qed.
Lemma load_described text : exists es b, glyphs_in text es b.
Proof. exact (glyphs_exist _ text (le_n _)). Qed.

(** The glyphs of a text are determined. *)
Lemma no_label t : is_fail (ignore_line (snd (get_word [] (snd (get_word [] (on t false)))))) = true -> forall w f r, ~ starts_label t w f r.
Proof.
  intros H w f r Hl. destruct (label_run _ _ _ _ false Hl ltac:(intros X; discriminate X)) as (_ & s1 & s2 & b' & E1 & E2 & E3 & _).
  rewrite E1 in H. cbn [snd] in H. rewrite E2 in H. cbn [snd] in H. rewrite E3 in H. discriminate H.
Qed.
Lemma label_unique t w f r w' f' r' : starts_label t w f r -> starts_label t w' f' r' -> w = w' /\ f = f' /\ r = r'.
Proof.
  intros H H'. destruct (label_run _ _ _ _ false H ltac:(intros X; discriminate X)) as (_ & s1 & s2 & b & E1 & E2 & E3 & _).
  destruct (label_run _ _ _ _ false H' ltac:(intros X; discriminate X)) as (_ & s1' & s2' & b' & E1' & E2' & E3' & _).
  rewrite E1 in E1'. injection E1' as -> <-. rewrite E2 in E2'. injection E2' as -> <-. rewrite E3 in E3'. injection E3' as -> _. auto.
Qed.
Lemma number_unique t n r n' r' : starts_number t n r -> starts_number t n' r' -> n = n' /\ r = r'.
Proof.
  intros H H'. destruct (number_run _ _ _ false H ltac:(intros X; discriminate X)) as (_ & E).
  destruct (number_run _ _ _ false H' ltac:(intros X; discriminate X)) as (_ & E'). rewrite E in E'. injection E' as -> ->. auto.
Qed.
Lemma labels_unique n t ls o : labels_in n t ls o -> forall ls' o', labels_in n t ls' o' -> ls = ls' /\ o = o'.
Proof.
  induction 1 as [t|n t w f r ls o Hn Hl H IH|n t Hn N]; intros ls' o' H'; inversion H' as [t0|n0 t0 w0 f0 r0 ls0 o0 Hn0 Hl0 H0|n0 t0 Hn0 N0]; subst; try lia; auto.
  - replace n0 with n in H0 by lia. destruct (label_unique _ _ _ _ _ _ _ Hl Hl0) as (<- & <- & <-). destruct (IH _ _ H0) as [<- <-]. auto.
  - destruct (N0 _ _ _ Hl).
  - destruct (N _ _ _ Hl0).
Qed.
Lemma glyphs_unique t es b : glyphs_in t es b -> forall es' b', glyphs_in t es' b' -> es = es' /\ b = b'.
Proof.
  induction 1 as [t r b Hn N K|t r n r' ls Hn Hs Hl|t r n r' ls r'' es b Hn Hs Hl H IH]; intros es' b' H';
    inversion H' as [t0 r0 b0 Hn0 N0 K0|t0 r0 n0 r0' ls0 Hn0 Hs0 Hl0|t0 r0 n0 r0' ls0 r0'' es0 b0 Hn0 Hs0 Hl0 H0]; subst; pose proof (next_line_unique _ _ _ Hn Hn0) as <-;
    try (destruct (N _ _ Hs0)); try (destruct (N0 _ _ Hs)); try (destruct (number_unique _ _ _ _ _ Hs Hs0) as [<- <-]; destruct (labels_unique _ _ _ _ Hl _ _ Hl0) as [<- Eo]; try discriminate Eo); auto.
  - rewrite <- K0 in K. split; [reflexivity|]. destruct b, b'; try reflexivity; [symmetry; apply (proj1 K); reflexivity|apply (proj2 K); reflexivity].
  - injection Eo as <-. destruct (IH _ _ H0) as [<- <-]. auto.
Qed.
Lemma load_outcome_any text : exists es b, glyphs_in text es b /\ (forall es' b', glyphs_in text es' b' -> es = es' /\ b = b') /\
  (fits es ->
   match completed es with
   | None => load_glyphs (open_stream text) = UB
   | Some views =>
     ((exists w, greatest (map fst (found es)) w /\ vsize w mod 4 = 0) /\ load_glyphs (open_stream text) = UB) \/
     ((forall w, greatest (map fst (found es)) w -> vsize w mod 4 <> 0) /\
      exists t s, load_glyphs (open_stream text) = Ok (t, s) /\ is_eof s = b /\ resolved (found es) views t)
   end).
Proof.
  destruct (load_described text) as (es & b & H). exists es, b. split; [exact H|]. split; [exact (glyphs_unique _ _ _ H)|]. exact (load_any _ _ _ H).
Qed.
