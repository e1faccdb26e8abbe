(** The table of ocr2_extract_text only depends on the words and fonts. *)
From Verif Require Import Base BaseProofs ProofTools SortModel SortProofs ImageModel DatasModel StreamModel StreamProofs GlyphIoModel GlyphIoSpec GlyphIoProofs TrieModel TrieSpec TrieProofs FlatTrieProofs DictionaryProofs IndexModel IndexProofs GlyphsModel GlyphsSpec GlyphsProofs GlyphsProofs3 PipelineModel PrintModel TaughtSpec.

Definition named (l : flabel) : list Z * list Z := (fl_word l, fl_font l).
Fixpoint number (ps : list (list Z * list Z)) (words fonts : names) : list oview * names * names :=
  match ps with
  | [] => ([], words, fonts)
  | (w, f) :: ps' =>
    let '(wid, words) := names_get w words in
    let '(fid, fonts) := names_get f fonts in
    let '(vs, words, fonts) := number ps' words fonts in (mkov wid fid :: vs, words, fonts)
  end.

Lemma views_number p ls r words fonts : spaces p -> Forall good_label ls ->
  read_ocr_views (vsize ls) (good (p ++ flat_map label_text ls ++ r)) words fonts =
    (let '(vs, words, fonts) := number (map named ls) words fonts in Ok (vs, good ((match ls with [] => p | _ => [] end) ++ r), words, fonts)).
Proof.
  intros S G. unfold read_ocr_views. match goal with |- context [loop ?n ?b _] => set (fuel := n); set (body := b) end.
  assert (Hf : (List.length ls < fuel)%nat).
  { unfold fuel. cbn [is_rest]. rewrite !app_length. pose proof (labels_length ls). lia. }
  clearbody fuel.
  assert (M : forall ls2 ws p words fonts fuel, vsize ls = vsize ws + vsize ls2 -> (List.length ls2 < fuel)%nat -> spaces p -> Forall good_label ls2 ->
      loop fuel body (vsize ws, ws ++ repeat (mkov 0 0) (List.length ls2), good (p ++ flat_map label_text ls2 ++ r), words, fonts) =
      (let '(vs, words, fonts) := number (map named ls2) words fonts in Ok (ws ++ vs, good ((match ls2 with [] => p | _ => [] end) ++ r), words, fonts))).
  { clear p words fonts fuel S Hf G. induction ls2 as [|l ls2 IH]; intros ws p words fonts fuel E Hf S G.
    - destruct fuel as [|fuel]; [inversion Hf|]. cbn [loop]. unfold body at 1. change (vsize (@nil flabel)) with 0 in E. rewrite Z.add_0_r in E. rewrite E, Z.ltb_irrefl.
      cbn [bind List.length repeat map number flat_map]. rewrite app_nil_r. reflexivity.
    - destruct fuel as [|fuel]; [inversion Hf|]. cbn [loop List.length] in Hf |- *. unfold body at 1. rewrite vsize_cons in E.
      assert (V : vsize ws < vsize ls) by (pose proof (vsize_nonneg ls2); lia).
      rewrite (proj2 (Z.ltb_lt _ _) V). cbn [flat_map]. rewrite <- app_assoc. inversion G as [|? ? Gl G']; subst.
      destruct (read_label_text p l (flat_map label_text ls2 ++ r) S Gl) as (R1 & R2 & R3). rewrite R1, R2, R3.
      cbn [is_ok is_fail negb map number named].
      destruct (names_get (fl_word l) words) as [wi words1]. destruct (names_get (fl_font l) fonts) as [fi fonts1].
      cbn [repeat]. rewrite wr_mid by reflexivity. cbn [bind].
      specialize (IH (ws ++ [mkov wi fi]) [] words1 fonts1 fuel). rewrite vsize_app in IH. change (vsize [mkov wi fi]) with 1 in IH.
      rewrite <- app_assoc in IH. cbn [app] in IH. rewrite IH; [|lia|lia|constructor|exact G'].
      destruct (number (map named ls2) words1 fonts1) as [[vs w2] f2]. rewrite <- app_assoc. cbn [app]. destruct ls2; reflexivity. }
  pose proof (M ls [] p words fonts fuel eq_refl Hf S G) as L. unfold vsize at 1 in L. cbn [List.length Z.of_nat app] in L.
  unfold vsize at 1. rewrite Nat2Z.id. exact L.
Qed.

Definition named_glyph (g : fglyph) : list (list Z * list Z) := map named (fg_labels g).
Fixpoint number_all (gs : list (list (list Z * list Z))) (words fonts : names) : list (list oview) * names :=
  match gs with
  | [] => ([], words)
  | g :: gs' => let '(vs, words, fonts) := number g words fonts in let '(vss, words) := number_all gs' words fonts in (vs :: vss, words)
  end.
Lemma glyphs_number gs : Forall good_glyph gs -> Forall (fun g => vsize (fg_labels g) < 4294967296) gs ->
  read_ocr_glyphs (open_stream (file_text gs)) = (let '(vss, words) := number_all (map named_glyph gs) [] [] in Ok (vss, snd (get_unsigned 0 (ignore_line (good []))), words)).
Proof.
  intros G B. unfold read_ocr_glyphs, open_stream. match goal with |- context [loop ?n ?b _] => set (fuel := n); set (body := b) end.
  assert (Hf : (List.length gs < fuel)%nat) by (unfold fuel; cbn [is_rest]; pose proof (file_length gs); lia).
  clearbody fuel.
  assert (M : forall gs done words fonts fuel, (List.length gs < fuel)%nat -> Forall good_glyph gs -> Forall (fun g => vsize (fg_labels g) < 4294967296) gs ->
    loop fuel body (done, good (file_text gs), words, fonts) =
    (let '(vss, words) := number_all (map named_glyph gs) words fonts in Ok (done ++ vss, snd (get_unsigned 0 (ignore_line (good []))), words))).
  { clear gs fuel Hf G B. induction gs as [|g gs IH]; intros done words fonts fuel Hf G B.
    - destruct fuel as [|fuel]; [inversion Hf|]. cbn [loop]. unfold body at 1. cbn [map number_all]. rewrite app_nil_r. reflexivity.
    - destruct fuel as [|fuel]; [inversion Hf|]. cbn [loop List.length] in Hf |- *. unfold body at 1.
      inversion G as [|? ? (N & NE & GL) G']; subst. inversion B as [|? ? B1 B']; subst.
      assert (ET : file_text (g :: gs) = fg_head g ++ 10 :: print_uint (vsize (fg_labels g)) ++ [10] ++ flat_map label_text (fg_labels g) ++ file_text gs).
      { change (file_text (g :: gs)) with (fglyph_text g ++ file_text gs). unfold fglyph_text. rewrite <- !app_assoc. reflexivity. }
      rewrite ET, ignore_line_text by exact N. cbn [is_ok is_fail negb]. pose proof (vsize_nonneg (fg_labels g)).
      rewrite print_uint_good by lia. cbn [is_ok is_fail negb]. rewrite views_number by (assumption || (apply spaces_1; reflexivity)).
      cbn [map number_all]. change (map named (fg_labels g)) with (named_glyph g). destruct (number (named_glyph g) words fonts) as [[vs w1] f1]. cbn [bind].
      assert (Es : (match fg_labels g with [] => [10] | _ => [] end) ++ file_text gs = file_text gs) by (destruct (fg_labels g); [congruence|reflexivity]).
      rewrite Es, IH by (assumption || lia). destruct (number_all (map named_glyph gs) w1 f1) as [vss w2]. rewrite <- app_assoc. reflexivity. }
  rewrite (M gs [] [] [] fuel Hf G B). destruct (number_all _ _ _). reflexivity.
Qed.
Lemma tables_same gs gs' : Forall good_glyph gs -> Forall good_glyph gs' -> Forall (fun g => vsize (fg_labels g) < 4294967296) gs ->
  map named_glyph gs = map named_glyph gs' -> load_file load_glyphs (file_text gs) = load_file load_glyphs (file_text gs').
Proof.
  intros G G' B E.
  assert (B' : Forall (fun g => vsize (fg_labels g) < 4294967296) gs').
  { apply Forall_forall. intros g Hg. apply (in_map named_glyph) in Hg. rewrite <- E in Hg. apply in_map_iff in Hg as (h & Eh & Hh).
    rewrite Forall_forall in B. specialize (B h Hh). apply (f_equal (@List.length _)) in Eh. unfold named_glyph in Eh. rewrite !map_length in Eh. unfold vsize in *. lia. }
  unfold load_file, load_glyphs. now rewrite !glyphs_number, E by assumption.
Qed.

Lemma written_same gs gs' : Forall tellable gs -> Forall tellable gs' -> told_alike gs gs' ->
  load_file load_glyphs (write_glyphs gs) = load_file load_glyphs (write_glyphs gs').
Proof.
  intros T T' A. rewrite Forall_forall in T, T'. destruct (written_files gs T) as (-> & G). destruct (written_files gs' T') as (-> & G').
  apply tables_same; [exact G|exact G'| |].
  - apply Forall_forall. intros f Hf. apply in_map_iff in Hf as (g & <- & Hg). cbn [fg_labels fglyph_of]. rewrite vsize_map. apply (T g Hg).
  - rewrite !map_map. clear - A. induction A as [|g g' gs gs' E A IH]; [reflexivity|]. cbn [map]. rewrite IH. f_equal.
    unfold named_glyph. cbn [fg_labels fglyph_of]. rewrite !map_map. exact E.
Qed.
Lemma told_text rt cx gs gs' datas image lines dict : Forall tellable gs -> Forall tellable gs' -> told_alike gs gs' ->
  extract_text rt cx (write_glyphs gs) datas image lines dict = extract_text rt cx (write_glyphs gs') datas image lines dict.
Proof. intros T T' A. unfold extract_text, load_all. now rewrite (written_same gs gs' T T' A). Qed.
Lemma told_main rt nan cx disk prog prog' name name' rest gs gs' : Forall tellable gs -> Forall tellable gs' -> told_alike gs gs' ->
  disk name = Some (write_glyphs gs) -> disk name' = Some (write_glyphs gs') ->
  ocr2_main rt nan cx disk (prog :: name :: rest) = ocr2_main rt nan cx disk (prog' :: name' :: rest).
Proof.
  intros T T' A D D'. assert (E : load_disk disk load_glyphs name = load_disk disk load_glyphs name') by (unfold load_disk; rewrite D, D'; now apply written_same).
  destruct rest as [|datas [|image options]]; [reflexivity..|]. cbn [ocr2_main]. now rewrite E.
Qed.
