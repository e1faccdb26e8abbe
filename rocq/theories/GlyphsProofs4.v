(** The table of a glyph file depends on its labels only. *)
From Verif Require Import Base BaseProofs ProofTools SortModel SortProofs DatasModel StreamModel StreamProofs TrieProofs FlatTrieProofs DictionaryProofs IndexProofs GlyphIoModel GlyphIoSpec GlyphIoProofs TrieModel TrieSpec IndexModel GlyphsModel GlyphsSpec GlyphsProofs GlyphsProofs3.

Definition label_step (st : list oview * list (list Z * Z) * list (list Z * Z)) (l : flabel) :=
  let '(vs, words, fonts) := st in
  let '(wi, words) := names_get (fl_word l) words in
  let '(fi, fonts) := names_get (fl_font l) fonts in
  (vs ++ [mkov wi fi], words, fonts).
Definition labels_run (ls : list flabel) words fonts := fold_left label_step ls ([], words, fonts).
Definition glyph_step (st : list (list oview) * list (list Z * Z) * list (list Z * Z)) (ls : list flabel) :=
  let '(gs, words, fonts) := st in
  let '(vs, words, fonts) := labels_run ls words fonts in
  (gs ++ [vs], words, fonts).

Lemma views_run p ls r words fonts : spaces p -> Forall good_label ls -> ls <> [] ->
  read_ocr_views (vsize ls) (good (p ++ flat_map label_text ls ++ r)) words fonts =
    let '(vs, words, fonts) := labels_run ls words fonts in Ok (vs, good r, words, fonts).
Proof.
  intros S G NE. unfold read_ocr_views, labels_run. match goal with |- context [loop ?n ?b _] => set (fuel := n); set (body := b) end.
  assert (Hf : (List.length ls < fuel)%nat).
  { unfold fuel. cbn [is_rest]. rewrite !app_length. pose proof (labels_length ls). lia. }
  clearbody fuel.
  assert (M : forall ls2 ls1 p vs words fonts fuel, ls = ls1 ++ ls2 -> (List.length ls2 < fuel)%nat -> spaces p -> vsize vs = vsize ls1 ->
      loop fuel body (vsize ls1, vs ++ repeat (mkov 0 0) (List.length ls2), good (p ++ flat_map label_text ls2 ++ r), words, fonts) =
        let '(vs, words, fonts) := fold_left label_step ls2 (vs, words, fonts) in
        Ok (vs, good ((match ls2 with [] => p | _ => [] end) ++ r), words, fonts)).
  { clear p words fonts fuel S Hf. induction ls2 as [|l ls2 IH]; intros ls1 p vs words fonts fuel E Hf S V.
    - rewrite app_nil_r in E. subst ls1. destruct fuel as [|fuel]; [inversion Hf|]. cbn [loop]. unfold body at 1.
      rewrite Z.ltb_irrefl. cbn [bind List.length repeat fold_left]. rewrite app_nil_r. reflexivity.
    - destruct fuel as [|fuel]; [inversion Hf|]. cbn [loop List.length] in Hf |- *. unfold body at 1.
      assert (V' : vsize ls1 < vsize ls) by (rewrite E, vsize_app, vsize_cons; pose proof (vsize_nonneg ls2); lia).
      rewrite (proj2 (Z.ltb_lt _ _) V'). cbn [flat_map]. rewrite <- app_assoc.
      assert (Gl : good_label l) by (rewrite E in G; apply Forall_app in G; destruct G as [_ G]; inversion G; assumption).
      destruct (read_label_text p l (flat_map label_text ls2 ++ r) S Gl) as (R1 & R2 & R3). rewrite R1, R2, R3.
      cbn [is_ok is_fail negb fold_left label_step].
      destruct (names_get (fl_word l) words) as [wi words1]. destruct (names_get (fl_font l) fonts) as [fi fonts1].
      cbn [repeat]. rewrite wr_mid by (symmetry; exact V). cbn [bind].
      specialize (IH (ls1 ++ [l]) [] (vs ++ [mkov wi fi]) words1 fonts1 fuel). cbn [app] in IH.
      rewrite !vsize_app, <- !app_assoc in IH. cbn [app] in IH. change (vsize [l]) with 1 in IH. change (vsize [mkov wi fi]) with 1 in IH.
      rewrite IH; [|exact E|lia|constructor|lia]. destruct (fold_left label_step ls2 (vs ++ [mkov wi fi], words1, fonts1)) as [[vs' words'] fonts'].
      destruct ls2; reflexivity. }
  specialize (M ls [] p [] words fonts fuel eq_refl Hf S eq_refl). unfold vsize at 1 in M. cbn [List.length Z.of_nat app] in M.
  unfold vsize at 1. rewrite Nat2Z.id. rewrite M. destruct (fold_left label_step ls ([], words, fonts)) as [[vs' words'] fonts'].
  destruct ls; [congruence|reflexivity].
Qed.

Lemma glyphs_run gs : Forall good_glyph gs -> (forall g, In g gs -> vsize (fg_labels g) < 4294967296) ->
  read_ocr_glyphs (open_stream (file_text gs)) =
    let '(views, words, _) := fold_left glyph_step (map fg_labels gs) ([], [], []) in Ok (views, snd (get_unsigned 0 (ignore_line (good []))), words).
Proof.
  intros G B. unfold read_ocr_glyphs, open_stream. match goal with |- context [loop ?n ?b _] => set (fuel := n); set (body := b) end.
  assert (Hf : (List.length gs < fuel)%nat) by (unfold fuel; cbn [is_rest]; pose proof (file_length gs); lia).
  clearbody fuel.
  cut (forall vss words fonts, loop fuel body (vss, good (file_text gs), words, fonts) =
    let '(views, words, _) := fold_left glyph_step (map fg_labels gs) (vss, words, fonts) in Ok (views, snd (get_unsigned 0 (ignore_line (good []))), words)).
  { intros M. exact (M [] [] []). }
  intros vss words fonts. revert vss words fonts fuel G B Hf.
  induction gs as [|g gs IH]; intros vss words fonts fuel G B Hf.
  - destruct fuel as [|fuel]; [inversion Hf|]. reflexivity.
  - destruct fuel as [|fuel]; [inversion Hf|]. cbn [loop List.length] in Hf |- *. unfold body at 1.
    inversion G as [|? ? (N & NE & GL) G']; subst.
    assert (ET : file_text (g :: gs) = fg_head g ++ 10 :: print_uint (vsize (fg_labels g)) ++ [10] ++
        flat_map label_text (fg_labels g) ++ file_text gs).
    { change (file_text (g :: gs)) with (fglyph_text g ++ file_text gs). unfold fglyph_text. rewrite <- !app_assoc. reflexivity. }
    rewrite ET, ignore_line_text by exact N. cbn [is_ok is_fail negb].
    pose proof (vsize_nonneg (fg_labels g)). pose proof (B g (or_introl eq_refl)).
    rewrite print_uint_good by lia. cbn [is_ok is_fail negb].
    rewrite (views_run [10] (fg_labels g) (file_text gs) words fonts); [|apply spaces_1; reflexivity|exact GL|exact NE].
    cbn [map fold_left glyph_step]. destruct (labels_run (fg_labels g) words fonts) as [[vs words1] fonts1]. cbn [bind].
    apply IH; [exact G'|intros g' Hg'; apply B; right; exact Hg'|lia].
Qed.

(** The lines of the images are not looked at. *)
Lemma load_labels gs gs' : Forall good_glyph gs -> Forall good_glyph gs' -> (forall g, In g gs -> vsize (fg_labels g) < 4294967296) ->
  map fg_labels gs = map fg_labels gs' -> load_glyphs (open_stream (file_text gs)) = load_glyphs (open_stream (file_text gs')).
Proof.
  intros G G' B E. unfold load_glyphs. rewrite glyphs_run by assumption. rewrite (glyphs_run gs'), <- E; [reflexivity|exact G'|].
  intros g Hg. assert (In (fg_labels g) (map fg_labels gs)) as H by (rewrite E; apply in_map; exact Hg).
  apply in_map_iff in H. destruct H as (g0 & <- & Hg0). exact (B g0 Hg0).
Qed.
