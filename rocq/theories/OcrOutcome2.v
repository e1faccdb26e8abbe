(** extract_text6 and extract_text8: exactly when the programs have a result. *)
From Verif Require Import Base BaseProofs SortModel SortProofs ImageModel ImageSpec ImageProofs PnmModel BoxModel BoxSpec BoxProofs StratModel ZoneModel DatasModel DatasSpec DatasProofs UtfSpec StreamModel GlyphIoModel GlyphIoSpec GlyphIoProofs DatasIoModel DatasIoSpec DatasIoProofs DictIoModel DictIoProofs TrieModel TrieSpec TrieProofs FlatTrieProofs SpellModel SpellSpec SpellProofs UtilModel UtilProofs IndexModel IndexProofs FloatModel RecogModel RecogSpec RecogProofs GlyphsModel GlyphsProofs3 ExtractModel ExtractSpec ExtractProofs AssembleSpec LearnModel LearnSpec LearnProofs2 LearnProofs3 PipelineModel PipelineSpec PipelineProofs2 PipelineProofs4 ReadSpec ReadProofs Ocr6Model Ocr6Spec Ocr6Proofs Ocr6Proofs2 Ocr6Proofs3 Ocr6Proofs4 UtilSpec RecogProofs2 Ocr6Proofs5 OcrProofs Ocr8Model Ocr8Spec Ocr8Proofs Ocr8Proofs2 Ocr8Proofs3 Ocr8Proofs4 OcrOutcome.
From Coq Require Import Sorted Permutation.

(** The spelling of the line of a program whose words are those of the glyphs. *)
Lemma assemble_line rec img gs boxes fs amb dict spell nodes : steady rec -> Forall (small_character img) boxes -> line6 rec img 0 [] boxes fs amb ->
  (forall im f w, recognisable im -> recognised6 rec im f -> In w (f6_words f) -> w = unknown \/ In w (labels gs)) ->
  dict_spell (labels gs) dict spell -> load_optional read_dict [] dict = Ok nodes -> assemble6 nodes amb = Ok (text6 spell amb).
Proof.
  intros HS F L HN Hd En. apply assemble6_exact. destruct Hd as [(-> & ->)|(sort & words & nodes' & -> & D1 & D2 & D3 & D4 & D5 & D6 & ->)].
  - cbn in En. injection En as <-. intros ps out Ne _. destruct ps; [congruence|reflexivity].
  - assert (nodes' = nodes).
    { cbn [load_optional] in En. pose proof (dict_file_round_trip nodes' (LearnProofs2.dictionary_storable sort words nodes' D1 D2 D3 D4 D5)) as Rt. congruence. }
    subst nodes'. intros ps out Ne P. destruct (disambiguous_first_single sort words ps out D1 D2 D3 D4) as (n' & X1 & X2); [|congruence].
    apply Forall_forall. intros l Hl. apply Forall_forall. intros w Hw. apply P in Hl. destruct (line6_words _ _ _ _ _ _ _ L l Hl) as [->|(f & Hf & El)].
    + destruct Hw as [<-|[]]. exists 32. split; [unfold is_char; lia|reflexivity].
    + assert (Hn : exists im, recognisable im /\ recognised6 rec im f).
      { pose proof (line6_found _ _ _ _ _ _ _ L) as F2. clear - F2 F Hf. induction F2 as [|b f' boxes fs (im & Ci & Rf) F2 IH]; [destruct Hf|]. inversion F as [|? ? Fb F']; subst. destruct Hf as [->|Hf]; [|now apply IH].
        exists im. split; [apply (Fb im Ci)|exact Rf]. }
      destruct Hn as (im & Ri & Rf). assert (Hw' : In w (f6_words f) \/ w = unknown).
      { destruct (steady_shape _ HS 0 im f Ri (Rf 0)) as (_ & _ & [A|(A & B)]); destruct El as [->| ->]; rewrite ?A in Hw; auto. destruct Hw. }
      assert (D : w = unknown \/ In w (labels gs)) by (destruct Hw' as [Hw'|Hw']; [exact (HN im f w Ri Rf Hw')|now left]).
      destruct D as [->|D]; [exists 95; split; [unfold is_char; lia|reflexivity]|]. rewrite Forall_forall in D6. apply D6. exact D.
Qed.
Lemma line6_each rec img (good : image -> found6 -> Prop) x before boxes fs amb : line6 rec img x before boxes fs amb -> Forall (small_character img) boxes ->
  (forall im f, recognisable im -> recognised6 rec im f -> good im f) -> Forall2 (fun b f => forall im, char_image img b im -> good im f) boxes fs.
Proof.
  intros L Sm HG. pose proof (line6_found _ _ _ _ _ _ _ L) as F2. clear L. induction F2 as [|b f boxes fs (im & Ci & Rf) F2 IH]; constructor; inversion Sm as [|? ? Sb Sm']; subst; [|auto].
  intros im' Ci'. rewrite (char_image_unique img b im' im Ci' Ci). apply HG; [apply (Sb im Ci)|exact Rf].
Qed.

Theorem read6_outcome rt gs junk z cx0 datas bytes img boxes dict spell : legal6 rt -> trainable6 gs -> is_std_sort Z.ltb z ->
  write_datas_file junk z cx0 (write_glyphs gs) = Ok (Some datas) -> image_of_bytes bytes 128 = Ok img -> box_searchable img -> segment img = Ok boxes ->
  Forall (small_character img) boxes -> dict_spell (labels gs) dict spell ->
  exists e, built6 z gs e /\
    let bad im := undefined6 (r6_zones rt) im (e6_cols e) (e6_words e) in
    ((exists b im, In b boxes /\ char_image img b im /\ bad im) /\ extract_text6 rt (write_glyphs gs) datas bytes dict = UB) \/
    (~ (exists b im, In b boxes /\ char_image img b im /\ bad im) /\
     exists fs amb, line6 (recognise6 e) img 0 [] boxes fs amb /\
       Forall2 (fun b f => forall im, char_image img b im -> outcome6 (r6_zones rt) im (e6_cols e) (e6_words e) f) boxes fs /\
       extract_text6 rt (write_glyphs gs) datas bytes dict = Ok (spaced f6_r1 fs, spaced f6_r2 fs, text6 spell amb)).
Proof.
  intros HL HT Hz ED EI Hs Eb Sm Hd. destruct (load_all6_ok rt HL gs HT junk z Hz cx0 datas ED (labels gs) dict (spell_file _ _ _ Hd)) as (nodes & e & EL & En & HB & Er).
  exists e. split; [exact HB|]. cbv zeta. subst rt. pose proof HB as (HE & _). pose proof (recognise6_steady e HE) as HS.
  unfold extract_text6. rewrite EL. cbn [bind]. rewrite EI. cbn [bind].
  assert (HO : forall n im, recognisable im -> (undefined6 (r6_zones (e6_rt e)) im (e6_cols e) (e6_words e) /\ recognise6 e n im = UB) \/ (~ undefined6 (r6_zones (e6_rt e)) im (e6_cols e) (e6_words e) /\ exists f, recognise6 e n im = Ok f)).
  { intros n im R. destruct (recognise6_defined e n im HE R) as [H|(H & f & E & _)]; [now left|right; eauto]. }
  destruct (read_line6_defined _ HS _ HO img Hs boxes Eb Sm) as [(B & ->)|(B & s & fs & -> & L & Q1 & Q2)]; [left; split; [exact B|reflexivity]|right]. split; [exact B|]. exists fs, (q_amb s). split; [exact L|]. split.
  - apply (line6_each _ _ _ _ _ _ _ _ L Sm). intros im f R Rf. exact (proj1 (recognise6_exact e 0 im HE R) f (Rf 0)).
  - cbn [bind]. rewrite (assemble_line _ img gs boxes fs (q_amb s) dict spell nodes HS Sm L); [cbn [bind]; rewrite Q1, Q2; reflexivity| |exact Hd|exact En].
    intros im f w R Rf Hw. destruct (found_named z Hz gs e HB im f R Rf w Hw) as [->|(g & Hg & _ & Hv)]; [now left|right]. apply in_map_iff in Hv as (v & <- & Hv). exact (label_in gs g v Hg Hv).
Qed.
Theorem read8_outcome rt gs junk z cx0 datas bytes img boxes nodes e : legal8 rt -> trainable6 gs -> is_std_sort Z.ltb z ->
  write_datas_file junk z cx0 (write_glyphs gs) = Ok (Some datas) -> load_all8 rt (write_glyphs gs) datas None = Ok (nodes, e) ->
  image_of_bytes bytes 128 = Ok img -> box_searchable img -> segment img = Ok boxes -> Forall (small_character img) boxes ->
  let bad im := undefined8 (r6_zones (e8_rt e)) im (e8_cols e) (e8_words e) in
  ((exists b im, In b boxes /\ char_image img b im /\ bad im) /\ extract_text8 rt (write_glyphs gs) datas bytes None = UB) \/
  (~ (exists b im, In b boxes /\ char_image img b im /\ bad im) /\
   exists fs amb, line6 (recognise8 e) img 0 [] boxes fs amb /\
     Forall2 (fun b f => forall im, char_image img b im -> outcome8 (r6_zones (e8_rt e)) im (e8_cols e) (e8_words e) f) boxes fs /\
     extract_text8 rt (write_glyphs gs) datas bytes None = Ok (spaced f6_r1 fs, spaced f6_r2 fs, text6 (fun _ => None) amb)).
Proof.
  intros HL HT Hz ED EL EI Hs Eb Sm bad. unfold bad. clear bad. destruct (load8_sound rt HL gs HT junk z Hz cx0 datas ED (labels gs) None nodes e) as (HE & En & _); [now left|exact EL|].
  pose proof (recognise8_steady e HE) as HS. cbn in En. injection En as <-.
  unfold extract_text8. rewrite EL. cbn [bind]. rewrite EI. cbn [bind].
  assert (HO : forall n im, recognisable im -> (undefined8 (r6_zones (e8_rt e)) im (e8_cols e) (e8_words e) /\ recognise8 e n im = UB) \/ (~ undefined8 (r6_zones (e8_rt e)) im (e8_cols e) (e8_words e) /\ exists f, recognise8 e n im = Ok f)).
  { intros n im R. destruct (recognise8_outcome e n im HE R) as [H|(H & f & E & _)]; [now left|right; eauto]. }
  destruct (read_line6_defined _ HS _ HO img Hs boxes Eb Sm) as [(B & ->)|(B & s & fs & -> & L & Q1 & Q2)]; [left; split; [exact B|reflexivity]|right]. split; [exact B|]. exists fs, (q_amb s). split; [exact L|]. split.
  - apply (line6_each _ _ _ _ _ _ _ _ L Sm). intros im f R Rf. exact (proj1 (recognise8_exact e 0 im HE R) f (Rf 0)).
  - cbn [bind]. rewrite (assemble6_exact [] (fun _ => None) (q_amb s)); [cbn [bind]; rewrite Q1, Q2; reflexivity|]. intros ps out Ne _. destruct ps; [congruence|reflexivity].
Qed.
