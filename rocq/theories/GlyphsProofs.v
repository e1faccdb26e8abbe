(** The glyph table holds the words of the file. *)
From Verif Require Import Base BaseProofs ProofTools SortModel SortProofs DatasModel StreamModel StreamProofs
  GlyphIoModel GlyphIoSpec GlyphIoProofs TrieModel TrieSpec TrieProofs FlatTrieProofs DictionaryProofs
  IndexModel IndexProofs GlyphsModel GlyphsSpec.
From Coq Require Import Sorted Permutation.

(** Maps of names. *)
Definition keys (m : list (list Z * Z)) : list (list Z) := map fst m.
Definition ids (m : list (list Z * Z)) : list Z := map snd m.
Record good_map (m : list (list Z * Z)) : Prop := {
  gm_sorted : StronglySorted lex_lt (keys m);
  gm_nodup : NoDup (ids m);
  gm_ids : forall i, In i (ids m) <-> 0 <= i < vsize m }.

Lemma find_key w m id : StronglySorted lex_lt (keys m) -> (names_find w m = Some id <-> In (w, id) m).
Proof.
  induction m as [|[k i] m IH]; intros S; [cbn; split; [discriminate|tauto]|].
  cbn [keys map fst] in S. apply StronglySorted_inv in S. destruct S as [S F]. specialize (IH S).
  cbn [names_find In]. destruct (list_eqb k w) eqn:E.
  - apply list_eqb_eq in E. subst w. split; [intros X; injection X as ->; auto|].
    intros [X|X]; [injection X as ->; reflexivity|]. exfalso. rewrite Forall_forall in F.
    apply (lex_irrefl k), F. apply (in_map fst) in X. exact X.
  - rewrite IH. split; [auto|]. intros [X|X]; [|exact X]. injection X as -> ->.
    assert (list_eqb w w = true) by (apply list_eqb_eq; reflexivity). congruence.
Qed.
Lemma find_none w m : names_find w m = None <-> ~ In w (keys m).
Proof.
  induction m as [|[k i] m IH]; [cbn; tauto|]. cbn [names_find keys map fst In]. destruct (list_eqb k w) eqn:E.
  - apply list_eqb_eq in E. split; [discriminate|]. intros X. destruct X; auto.
  - fold (keys m). rewrite IH. split; [|tauto]. intros X [Y|Y]; [|tauto]. subst k.
    assert (list_eqb w w = true) by (apply list_eqb_eq; reflexivity). congruence.
Qed.
Lemma insert_perm w id m : Permutation ((w, id) :: m) (names_insert w id m).
Proof.
  induction m as [|[k i] m IH]; [reflexivity|]. cbn [names_insert]. destruct (list_ltb Z.ltb w k); [reflexivity|].
  rewrite <- IH. apply perm_swap.
Qed.
Lemma insert_sorted w id m : StronglySorted lex_lt (keys m) -> ~ In w (keys m) ->
  StronglySorted lex_lt (keys (names_insert w id m)).
Proof.
  induction m as [|[k i] m IH]; intros S N; [constructor; constructor|].
  cbn [keys map fst] in S, N. apply StronglySorted_inv in S. destruct S as [S F]. fold (keys m) in *.
  cbn [names_insert]. destruct (list_ltb Z.ltb w k) eqn:E.
  - apply list_ltb_lex in E. cbn [keys map fst]. fold (keys m). constructor; [constructor; assumption|].
    constructor; [exact E|]. rewrite Forall_forall in *. intros x Hx. eapply lex_trans; eauto.
  - cbn [keys map fst]. fold (keys (names_insert w id m)). constructor; [apply IH; [assumption|firstorder]|].
    assert (L : lex_lt k w).
    { destruct (lex_total k w) as [H|[H|H]]; [exact H|subst; exfalso; apply N; left; reflexivity|].
      apply list_ltb_lex in H. congruence. }
    rewrite Forall_forall in *. intros x Hx.
    assert (P : Permutation (w :: keys m) (keys (names_insert w id m)))
      by (exact (Permutation_map fst (insert_perm w id m))).
    apply (Permutation_in _ (Permutation_sym P)) in Hx. destruct Hx as [<-|Hx]; [exact L|apply F; exact Hx].
Qed.

Definition idf (m : list (list Z * Z)) (w : list Z) : Z := match names_find w m with Some i => i | None => 0 end.
Definition extends (m m' : list (list Z * Z)) : Prop := forall w i, names_find w m = Some i -> names_find w m' = Some i.

Lemma names_get_ok w m : good_map m -> vsize m < 4294967296 ->
  exists id m', names_get w m = (id, m') /\ good_map m' /\ extends m m' /\ names_find w m' = Some id /\
    vsize m' <= vsize m + 1 /\ forall x, In x (keys m') <-> x = w \/ In x (keys m).
Proof.
  intros [S N I] L. unfold names_get. destruct (names_find w m) as [id|] eqn:E.
  - exists id, m. split; [reflexivity|]. split; [constructor; assumption|]. split; [intros ? ? H; exact H|].
    split; [exact E|]. split; [lia|]. intros x. split; [auto|]. intros [->|H]; [|exact H].
    apply find_key in E; [|exact S]. exact (in_map fst _ _ E).
  - apply find_none in E. rewrite u32_small by (pose proof (vsize_nonneg m); lia).
    exists (vsize m), (names_insert w (vsize m) m). split; [reflexivity|].
    pose proof (insert_perm w (vsize m) m) as P. pose proof (insert_sorted w (vsize m) m S E) as S'.
    assert (V : vsize (names_insert w (vsize m) m) = vsize m + 1).
    { unfold vsize at 1. rewrite <- (Permutation_length P). unfold vsize. cbn [List.length]. lia. }
    assert (PI : Permutation (vsize m :: ids m) (ids (names_insert w (vsize m) m))) by exact (Permutation_map snd P).
    assert (PK : Permutation (w :: keys m) (keys (names_insert w (vsize m) m))) by exact (Permutation_map fst P).
    split; [constructor|].
    + exact S'.
    + apply (Permutation_NoDup PI). constructor; [rewrite I; lia|exact N].
    + intros i. rewrite V. split.
      * intros H. apply (Permutation_in _ (Permutation_sym PI)) in H. destruct H as [<-|H]; [pose proof (vsize_nonneg m); lia|].
        apply I in H. lia.
      * intros H. apply (Permutation_in _ PI). destruct (Z.eq_dec i (vsize m)) as [->|D]; [left; reflexivity|right; apply I; lia].
    + split; [|split; [|split; [lia|]]].
      * intros x i H. apply find_key; [exact S'|]. apply find_key in H; [|exact S].
        apply (Permutation_in _ P). right. exact H.
      * apply find_key; [exact S'|]. apply (Permutation_in _ P). left. reflexivity.
      * intros x. split; intros H.
        -- apply (Permutation_in _ (Permutation_sym PK)) in H. destruct H as [<-|H]; auto.
        -- apply (Permutation_in _ PK). destruct H as [->|H]; [left; reflexivity|right; exact H].
Qed.
Lemma extends_trans a b c : extends a b -> extends b c -> extends a c.
Proof. intros H K w i X. apply K, H, X. Qed.
Lemma extends_idf a b w : extends a b -> In w (keys a) -> idf b w = idf a w.
Proof.
  intros X H. unfold idf. destruct (names_find w a) as [i|] eqn:E; [rewrite (X _ _ E); reflexivity|].
  apply find_none in E. contradiction.
Qed.
Lemma good_nil : good_map [].
Proof. constructor; [constructor|constructor|]. intros i. cbn. lia. Qed.

(** Reading the file. *)
Lemma ignore_line_text x r : ~ In 10 x -> ignore_line (good (x ++ 10 :: r)) = good r.
Proof.
  intros H. assert (E : after_newline (x ++ 10 :: r) = Some r).
  { induction x as [|c x IH]; [reflexivity|]. cbn [app after_newline]. destruct (Z.eqb_spec c 10); [subst; exfalso; apply H; left; reflexivity|].
    apply IH. intros X. apply H. right. exact X. }
  unfold ignore_line, sentry. cbn [is_eof is_fail is_rest is_skipws orb negb andb]. rewrite E. reflexivity.
Qed.
Lemma read_label_text p l r : spaces p -> good_label l ->
  get_word [] (good (p ++ label_text l ++ r)) = (fl_word l, good ([32] ++ fl_font l ++ fl_rest l ++ 10 :: r)) /\
  get_word [] (good ([32] ++ fl_font l ++ fl_rest l ++ 10 :: r)) = (fl_font l, good (fl_rest l ++ 10 :: r)) /\
  ignore_line (good (fl_rest l ++ 10 :: r)) = good r.
Proof.
  intros S (W & _ & F & N & R). unfold label_text. rewrite <- !app_assoc. split; [|split].
  - apply get_word_text; [exact S|exact W|reflexivity].
  - apply get_word_text; [apply spaces_1; reflexivity|exact F|]. destruct (fl_rest l); [reflexivity|exact R].
  - apply ignore_line_text, N.
Qed.

Notation mk w f := (fun l => mkov (idf w (fl_word l)) (idf f (fl_font l))).
Definition known_labels (w f : list (list Z * Z)) (ls : list flabel) : Prop :=
  forall l, In l ls -> In (fl_word l) (keys w) /\ In (fl_font l) (keys f).
Lemma mk_ext w f w' f' ls : extends w w' -> extends f f' -> known_labels w f ls -> map (mk w' f') ls = map (mk w f) ls.
Proof.
  intros A B K. apply map_ext_in. intros l Hl. destruct (K l Hl) as [P Q].
  rewrite (extends_idf w w'), (extends_idf f f') by assumption. reflexivity.
Qed.

Lemma label_length l : (1 <= List.length (label_text l))%nat.
Proof. unfold label_text. rewrite !app_length. cbn [List.length]. lia. Qed.
Lemma labels_length ls : (List.length ls <= List.length (flat_map label_text ls))%nat.
Proof. induction ls as [|l ls IH]; [apply le_n|]. cbn [flat_map List.length]. rewrite app_length. pose proof (label_length l). lia. Qed.

Lemma read_ocr_views_text p ls r words fonts B :
  spaces p -> Forall good_label ls -> good_map words -> good_map fonts ->
  vsize words + vsize ls <= B -> vsize fonts + vsize ls <= B -> B < 4294967296 ->
  exists words' fonts',
    read_ocr_views (vsize ls) (good (p ++ flat_map label_text ls ++ r)) words fonts =
      Ok (map (mk words' fonts') ls, good ((match ls with [] => p | _ => [] end) ++ r), words', fonts') /\
    good_map words' /\ good_map fonts' /\ extends words words' /\ extends fonts fonts' /\
    vsize words' <= vsize words + vsize ls /\ vsize fonts' <= vsize fonts + vsize ls /\
    known_labels words' fonts' ls /\
    (forall w, In w (keys words') <-> In w (map fl_word ls) \/ In w (keys words)) /\
    (forall f, In f (keys fonts') <-> In f (map fl_font ls) \/ In f (keys fonts)).
Proof.
  intros S G Gw Gf Bw Bf HB. unfold read_ocr_views. match goal with |- context [loop ?n ?b _] => set (fuel := n); set (body := b) end.
  assert (Hf : (List.length ls < fuel)%nat).
  { unfold fuel. cbn [is_rest]. rewrite !app_length. pose proof (labels_length ls). lia. }
  clearbody fuel.
  assert (M : forall ls2 ls1 p words fonts fuel, ls = ls1 ++ ls2 -> (List.length ls2 < fuel)%nat -> spaces p ->
    good_map words -> good_map fonts -> vsize words + vsize ls2 <= B -> vsize fonts + vsize ls2 <= B -> known_labels words fonts ls1 ->
    exists words' fonts',
      loop fuel body (vsize ls1, map (mk words fonts) ls1 ++ repeat (mkov 0 0) (List.length ls2),
        good (p ++ flat_map label_text ls2 ++ r), words, fonts) =
        Ok (map (mk words' fonts') ls, good ((match ls2 with [] => p | _ => [] end) ++ r), words', fonts') /\
      good_map words' /\ good_map fonts' /\ extends words words' /\ extends fonts fonts' /\
      vsize words' <= vsize words + vsize ls2 /\ vsize fonts' <= vsize fonts + vsize ls2 /\
      known_labels words' fonts' ls /\
      (forall w, In w (keys words') <-> In w (map fl_word ls2) \/ In w (keys words)) /\
      (forall f, In f (keys fonts') <-> In f (map fl_font ls2) \/ In f (keys fonts))).
  { clear p words fonts fuel S Gw Gf Bw Bf Hf. induction ls2 as [|l ls2 IH]; intros ls1 p words fonts fuel E Hf S Gw Gf Bw Bf K.
    - rewrite app_nil_r in E. subst ls1. destruct fuel as [|fuel]; [inversion Hf|]. cbn [loop]. unfold body at 1.
      rewrite Z.ltb_irrefl. cbn [bind List.length repeat]. rewrite app_nil_r. exists words, fonts.
      split; [reflexivity|]. repeat (split; [assumption || (intros ? ? ?; assumption) || (cbn; lia)|]).
      split; intros; cbn; tauto.
    - destruct fuel as [|fuel]; [inversion Hf|]. cbn [loop List.length] in Hf |- *. unfold body at 1.
      assert (V : vsize ls1 < vsize ls) by (rewrite E, vsize_app, vsize_cons; pose proof (vsize_nonneg ls2); lia).
      rewrite (proj2 (Z.ltb_lt _ _) V). cbn [flat_map]. rewrite <- app_assoc.
      assert (Gl : good_label l) by (rewrite E in G; apply Forall_app in G; destruct G as [_ G]; inversion G; assumption).
      destruct (read_label_text p l (flat_map label_text ls2 ++ r) S Gl) as (R1 & R2 & R3). rewrite R1, R2, R3.
      cbn [is_ok is_fail negb].
      rewrite vsize_cons in Bw, Bf. pose proof (vsize_nonneg ls2).
      destruct (names_get_ok (fl_word l) words Gw ltac:(lia)) as (wi & words1 & -> & Gw1 & Xw & Fw & Vw & Kw).
      destruct (names_get_ok (fl_font l) fonts Gf ltac:(lia)) as (fi & fonts1 & -> & Gf1 & Xf & Ff & Vf & Kf).
      cbn [repeat]. rewrite wr_mid by (rewrite vsize_map; reflexivity). cbn [bind].
      assert (K1 : known_labels words1 fonts1 (ls1 ++ [l])).
      { intros x Hx. rewrite Kw, Kf. apply in_app_or in Hx. destruct Hx as [Hx|[<-|[]]]; [|auto].
        destruct (K x Hx). auto. }
      specialize (IH (ls1 ++ [l]) [] words1 fonts1 fuel). cbn [app] in IH.
      rewrite map_app, vsize_app in IH. cbn [map] in IH. rewrite (mk_ext words fonts words1 fonts1 ls1) in IH by assumption.
      assert (Ew : idf words1 (fl_word l) = wi) by (unfold idf; rewrite Fw; reflexivity).
      assert (Ef : idf fonts1 (fl_font l) = fi) by (unfold idf; rewrite Ff; reflexivity).
      rewrite Ew, Ef in IH. rewrite <- !app_assoc in IH. cbn [app] in IH.
      change (vsize [l]) with 1 in IH.
      destruct IH as (words' & fonts' & L & A1 & A2 & A3 & A4 & A5 & A6 & A7 & A8 & A9).
      + exact E.
      + lia.
      + constructor.
      + assumption.
      + assumption.
      + lia.
      + lia.
      + exact K1.
      + exists words', fonts'. split; [rewrite L; destruct ls2; reflexivity|].
        split; [exact A1|]. split; [exact A2|]. split; [eapply extends_trans; eassumption|]. split; [eapply extends_trans; eassumption|].
        rewrite vsize_cons. split; [lia|]. split; [lia|]. split; [exact A7|].
        split; intros x; [rewrite A8, Kw|rewrite A9, Kf]; cbn [map In]; intuition. }
  destruct (M ls [] p words fonts fuel eq_refl Hf S Gw Gf Bw Bf ltac:(intros ? [])) as (words' & fonts' & L & A).
  exists words', fonts'. split; [|exact A]. unfold vsize at 1 in L. cbn [List.length Z.of_nat map app] in L.
  unfold vsize at 1. rewrite Nat2Z.id. exact L.
Qed.

Lemma glyph_text_length g : (1 <= List.length (fglyph_text g))%nat.
Proof. unfold fglyph_text. rewrite !app_length. cbn [List.length]. lia. Qed.
Lemma file_length gs : (List.length gs <= List.length (file_text gs))%nat.
Proof. induction gs as [|g gs IH]; [apply le_n|]. unfold file_text. cbn [flat_map List.length]. rewrite app_length. pose proof (glyph_text_length g). fold (file_text gs). lia. Qed.

Notation mkg w f := (fun g => map (mk w f) (fg_labels g)).
Definition all_labels (gs : list fglyph) : list flabel := flat_map fg_labels gs.
Lemma words_of_labels gs : words_of gs = map fl_word (all_labels gs).
Proof. unfold words_of, all_labels. induction gs as [|g gs IH]; [reflexivity|]. cbn [flat_map]. rewrite map_app, IH. reflexivity. Qed.
Lemma fonts_of_labels gs : fonts_of gs = map fl_font (all_labels gs).
Proof. unfold fonts_of, all_labels. induction gs as [|g gs IH]; [reflexivity|]. cbn [flat_map]. rewrite map_app, IH. reflexivity. Qed.
Lemma mkg_ext w f w' f' gs : extends w w' -> extends f f' -> known_labels w f (all_labels gs) -> map (mkg w' f') gs = map (mkg w f) gs.
Proof.
  intros A B K. apply map_ext_in. intros g Hg. apply mk_ext; [assumption|assumption|].
  intros l Hl. apply K. apply in_flat_map. eauto.
Qed.

Lemma print_uint_good (l : list flabel) r : 0 <= vsize l < 4294967296 ->
  get_unsigned 0 (good (print_uint (vsize l) ++ [10] ++ r)) = (vsize l, good ([10] ++ r)).
Proof. intros H. apply (get_unsigned_print 0 [] (vsize l) ([10] ++ r)); [constructor|exact H|reflexivity|reflexivity]. Qed.

Lemma read_ocr_glyphs_text gs : Forall good_glyph gs -> vsize (all_labels gs) < 4294967296 ->
  exists words fonts s,
    read_ocr_glyphs (open_stream (file_text gs)) = Ok (map (mkg words fonts) gs, s, words) /\ is_eof s = true /\
    good_map words /\ good_map fonts /\
    (forall w, In w (keys words) <-> In w (words_of gs)) /\ (forall f, In f (keys fonts) <-> In f (fonts_of gs)).
Proof.
  intros G B. unfold read_ocr_glyphs, open_stream. match goal with |- context [loop ?n ?b _] => set (fuel := n); set (body := b) end.
  assert (Hf : (List.length gs < fuel)%nat) by (unfold fuel; cbn [is_rest]; pose proof (file_length gs); lia).
  clearbody fuel.
  assert (M : forall gs2 gs1 words fonts fuel, gs = gs1 ++ gs2 -> (List.length gs2 < fuel)%nat ->
    good_map words -> good_map fonts -> vsize words + vsize (all_labels gs2) < 4294967296 ->
    vsize fonts + vsize (all_labels gs2) < 4294967296 -> known_labels words fonts (all_labels gs1) ->
    exists words' fonts' s,
      loop fuel body (map (mkg words fonts) gs1, good (file_text gs2), words, fonts) =
        Ok (map (mkg words' fonts') gs, s, words') /\ is_eof s = true /\
      good_map words' /\ good_map fonts' /\
      (forall w, In w (keys words') <-> In w (words_of gs2) \/ In w (keys words)) /\
      (forall f, In f (keys fonts') <-> In f (fonts_of gs2) \/ In f (keys fonts))).
  { clear fuel Hf B. induction gs2 as [|g gs2 IH]; intros gs1 words fonts fuel E Hf Gw Gf Bw Bf K.
    - rewrite app_nil_r in E. subst gs1. destruct fuel as [|fuel]; [inversion Hf|]. cbn [loop]. unfold body at 1.
      exists words, fonts. eexists. split; [reflexivity|]. split; [reflexivity|]. split; [assumption|]. split; [assumption|].
      split; intros; cbn; tauto.
    - destruct fuel as [|fuel]; [inversion Hf|]. cbn [loop List.length] in Hf |- *. unfold body at 1.
      assert (Gg : good_glyph g) by (rewrite E in G; apply Forall_app in G; destruct G as [_ G]; inversion G; assumption).
      destruct Gg as (N & NE & GL).
      change (all_labels (g :: gs2)) with (fg_labels g ++ all_labels gs2) in Bw, Bf. rewrite vsize_app in Bw, Bf.
      assert (ET : file_text (g :: gs2) = fg_head g ++ 10 :: print_uint (vsize (fg_labels g)) ++ [10] ++
        flat_map label_text (fg_labels g) ++ file_text gs2).
      { change (file_text (g :: gs2)) with (fglyph_text g ++ file_text gs2). unfold fglyph_text. rewrite <- !app_assoc. reflexivity. }
      rewrite ET, ignore_line_text by exact N. cbn [is_ok is_fail negb].
      pose proof (vsize_nonneg (fg_labels g)). pose proof (vsize_nonneg words). pose proof (vsize_nonneg fonts). pose proof (vsize_nonneg (all_labels gs2)).
      rewrite print_uint_good by lia. cbn [is_ok is_fail negb].
      destruct (read_ocr_views_text [10] (fg_labels g) (file_text gs2) words fonts 4294967295)
        as (words1 & fonts1 & -> & Gw1 & Gf1 & Xw & Xf & Vw & Vf & K1 & Kw & Kf); try assumption; try lia.
      { apply spaces_1. reflexivity. }
      cbn [bind].
      assert (Es : (match fg_labels g with [] => [10] | _ => [] end) ++ file_text gs2 = file_text gs2)
        by (destruct (fg_labels g); [congruence|reflexivity]).
      rewrite Es. specialize (IH (gs1 ++ [g]) words1 fonts1 fuel).
      rewrite map_app in IH. cbn [map] in IH. rewrite (mkg_ext words fonts words1 fonts1 gs1) in IH by assumption.
      destruct IH as (words' & fonts' & s & L & A1 & A2 & A3 & A4 & A5).
      + rewrite <- app_assoc. exact E.
      + lia.
      + assumption.
      + assumption.
      + lia.
      + lia.
      + intros l Hl. unfold all_labels in Hl. rewrite flat_map_app in Hl. apply in_app_or in Hl. destruct Hl as [Hl|Hl].
        * destruct (K l Hl) as [P Q]. rewrite Kw, Kf. auto.
        * cbn [flat_map] in Hl. rewrite app_nil_r in Hl. exact (K1 l Hl).
      + exists words', fonts', s. split; [exact L|]. split; [exact A1|]. split; [exact A2|]. split; [exact A3|].
        split; intros x; [rewrite A4, Kw|rewrite A5, Kf]; [change (words_of (g :: gs2)) with (map fl_word (fg_labels g) ++ words_of gs2)
          |change (fonts_of (g :: gs2)) with (map fl_font (fg_labels g) ++ fonts_of gs2)]; rewrite in_app_iff; tauto. }
  destruct (M gs [] [] [] fuel eq_refl Hf good_nil good_nil) as (words & fonts & s & L & A1 & A2 & A3 & A4 & A5).
  - change (vsize (@nil (list Z * Z))) with 0. lia.
  - change (vsize (@nil (list Z * Z))) with 0. lia.
  - intros ? [].
  - exists words, fonts, s. cbn [map] in L. split; [exact L|]. split; [exact A1|]. split; [exact A2|]. split; [exact A3|].
    split; intros x; [rewrite A4|rewrite A5]; cbn; tauto.
Qed.
