(** What changes when the dictionary has more or fewer words. *)
From Verif Require Import Base BaseProofs SortModel SortProofs ImageModel ImageSpec ImageProofs PnmModel BoxModel BoxSpec BoxProofs StratModel ZoneModel DatasModel DatasSpec DatasProofs UtfSpec StreamModel GlyphIoModel GlyphIoSpec GlyphIoProofs DatasIoModel DatasIoSpec DatasIoProofs DictIoModel DictIoProofs TrieModel TrieSpec TrieProofs FlatTrieProofs SpellModel SpellSpec SpellProofs UtilModel UtilProofs IndexModel IndexProofs FloatModel RecogModel RecogSpec RecogProofs GlyphsModel GlyphsProofs3 ExtractModel ExtractSpec ExtractProofs AssembleSpec LearnModel LearnSpec LearnProofs2 LearnProofs3 PipelineModel PipelineSpec PipelineProofs2 PipelineProofs4 ReadSpec ReadProofs Ocr6Model Ocr6Spec Ocr6Proofs Ocr6Proofs2 Ocr6Proofs3 Ocr6Proofs4 UtilSpec RecogProofs2 Ocr6Proofs5 OcrProofs Ocr8Model Ocr8Spec Ocr8Proofs Ocr8Proofs2 Ocr8Proofs3 Ocr8Proofs4 OcrOutcome OcrOutcome2 MoreWordsSpec.
From Coq Require Import Sorted Permutation.

(** * Spelling *)
Notation spelling := SpellSpec.first_word.
Lemma known_iff words w : existsb (TrieModel.list_eqb w) words = true <-> In w words.
Proof.
  rewrite existsb_exists. split.
  - intros (x & Hx & E). apply eqb_word in E. now subst x.
  - intros H. exists w. split; [exact H|now apply eqb_word].
Qed.
Lemma find_more {A} (p q : A -> bool) l : (forall x, p x = true -> q x = true) ->
  find q l = find p l \/ exists a w b, l = a ++ w :: b /\ (forall x, In x a -> q x = false) /\ find q l = Some w /\ q w = true /\ p w = false.
Proof.
  intros H. induction l as [|x l IH]; [now left|]. cbn [find]. destruct (q x) eqn:Q, (p x) eqn:P.
  - now left.
  - right. exists [], x, l. repeat split; auto. intros y [].
  - rewrite (H x P) in Q. discriminate.
  - destruct IH as [IH|(a & w & b & -> & F & E)]; [now left|right]. exists (x :: a), w, b. split; [reflexivity|]. split; [|exact E]. intros y [<-|Hy]; auto.
Qed.
Lemma more_spelling words words' ps : incl words words' ->
  spelling words' ps = spelling words ps \/
  exists a w b, choices ps = a ++ w :: b /\ (forall v, In v a -> ~ In v words') /\ spelling words' ps = Some w /\ In w words' /\ ~ In w words.
Proof.
  intros I. unfold spelling. destruct (find_more (fun w => existsb (TrieModel.list_eqb w) words) (fun w => existsb (TrieModel.list_eqb w) words') (choices ps)) as [E|(a & w & b & E & F & S & Q & P)].
  - intros x. rewrite !known_iff. apply I.
  - now left.
  - right. exists a, w, b. split; [exact E|]. split.
    + intros v Hv Iv. specialize (F v Hv). cbv beta in F. apply known_iff in Iv. congruence.
    + split; [exact S|]. split; [now apply known_iff|]. intros N. apply known_iff in N. congruence.
Qed.
Lemma choices_written ls ps : Forall (Forall (fun w => In w ls)) ps -> forall w, In w (choices ps) -> written ls w.
Proof.
  induction 1 as [|c ps Hc _ IH]; intros w Hw.
  - destruct Hw as [<-|[]]. exists []. split; [constructor|reflexivity].
  - cbn [choices] in Hw. apply in_flat_map in Hw as (s & Hs & Hw). apply in_map_iff in Hw as (v & <- & Hv). destruct (IH v Hv) as (l & Fl & ->).
    exists (s :: l). split; [constructor; [|exact Fl]; rewrite Forall_forall in Hc; now apply Hc|reflexivity].
Qed.
Lemma find_ext_in {A} (p q : A -> bool) l : (forall x, In x l -> p x = q x) -> find p l = find q l.
Proof. induction l as [|x l IH]; intros H; [reflexivity|]. cbn [find]. rewrite (H x (or_introl eq_refl)), IH; [reflexivity|]. intros y Hy. apply H. now right. Qed.
Lemma agree_spelling ls words words' ps : agree_on ls words words' -> Forall (Forall (fun w => In w ls)) ps -> spelling words ps = spelling words' ps.
Proof.
  intros A F. unfold spelling. apply find_ext_in. intros w Hw. apply Bool.eq_true_iff_eq. rewrite !known_iff. apply A. exact (choices_written ls ps F w Hw).
Qed.
Lemma no_words ps : spelling [] ps = None.
Proof. unfold spelling. induction (choices ps) as [|x l IH]; [reflexivity|exact IH]. Qed.

(** * Texts *)
Lemma flush_ext sp sp' w : sp w = sp' w -> flush sp w = flush sp' w.
Proof. intros E. unfold flush. now rewrite E. Qed.
Lemma render6_ext sp sp' line : forall word, (forall ps, incl ps (word ++ line) -> sp ps = sp' ps) -> render6 sp word line = render6 sp' word line.
Proof.
  induction line as [|c line IH]; intros word H; cbn [render6].
  - apply flush_ext, H. rewrite app_nil_r. apply incl_refl.
  - rewrite (flush_ext sp sp' word) by (apply H; apply incl_appl, incl_refl). destruct (mark6 c).
    + rewrite (IH []); [reflexivity|]. intros ps I. apply H. intros x Hx. apply in_or_app. right. right. exact (I x Hx).
    + apply IH. intros ps I. apply H. now rewrite <- app_assoc in I.
Qed.
Lemma without_incl line : incl (without_leading line) line.
Proof. induction line as [|c line IH]; [apply incl_refl|]. cbn [without_leading]. destruct (mark6 c); [now apply incl_tl|apply incl_refl]. Qed.
Lemma text6_ext sp sp' line : (forall ps, incl ps line -> sp ps = sp' ps) -> text6 sp line = text6 sp' line.
Proof. intros H. apply render6_ext. intros ps I. apply H. intros x Hx. apply without_incl, I, Hx. Qed.
Lemma incl_signs {A} (P : A -> Prop) ps line : incl ps line -> Forall P line -> Forall P ps.
Proof. intros I F. rewrite Forall_forall in *. auto. Qed.
Lemma agree_text6 ls words words' line : agree_on ls words words' -> Forall (Forall (fun w => In w ls)) line -> text6 (spelling words) line = text6 (spelling words') line.
Proof. intros A F. apply text6_ext. intros ps I. apply (agree_spelling ls); [exact A|exact (incl_signs _ _ _ I F)]. Qed.

(** * The programs *)
Lemma file_spell ws file words : Forall one_char ws -> dictionary_file file words -> exists spell, dict_spell ws file spell /\ forall ps, spell ps = spelling words ps.
Proof.
  intros F [(-> & ->)|(sort & nodes & -> & H1 & H2 & H3 & H4 & H5)].
  - exists (fun _ => None). split; [left; auto|]. intros ps. now rewrite no_words.
  - exists (spelling words). split; [|reflexivity]. right. exists sort, words, nodes. exact (conj eq_refl (conj H1 (conj H2 (conj H3 (conj H4 (conj H5 (conj F eq_refl))))))).
Qed.
Lemma line_signs rec img gs boxes fs amb : steady rec -> Forall (small_character img) boxes -> line6 rec img 0 [] boxes fs amb ->
  (forall im f w, recognisable im -> recognised6 rec im f -> In w (f6_words f) -> w = unknown \/ In w (labels gs)) -> Forall (Forall (fun w => In w (signs (labels gs)))) amb.
Proof.
  intros HS F L HN. apply Forall_forall. intros l Hl. apply Forall_forall. intros w Hw. destruct (line6_words _ _ _ _ _ _ _ L l Hl) as [->|(f & Hf & El)].
  - destruct Hw as [<-|[]]. right. now left.
  - assert (Hn : exists im, recognisable im /\ recognised6 rec im f).
    { pose proof (line6_found _ _ _ _ _ _ _ L) as F2. clear - F2 F Hf. induction F2 as [|b f' boxes fs (im & Ci & Rf) F2 IH]; [destruct Hf|]. inversion F as [|? ? Fb F']; subst. destruct Hf as [->|Hf]; [|now apply IH].
      exists im. split; [apply (Fb im Ci)|exact Rf]. }
    destruct Hn as (im & Ri & Rf). assert (Hw' : In w (f6_words f) \/ w = unknown).
    { destruct (steady_shape _ HS 0 im f Ri (Rf 0)) as (_ & _ & [A|(A & B)]); destruct El as [->| ->]; rewrite ?A in Hw; auto. destruct Hw. }
    assert (D : w = unknown \/ In w (labels gs)) by (destruct Hw' as [Hw'|Hw']; [exact (HN im f w Ri Rf Hw')|now left]).
    destruct D as [->|D]; [now left|]. right. now right.
Qed.
Lemma load6_env rt glyphs datas dict dict' n n' e : load_all6 rt glyphs datas dict = Ok (n, e) -> load_optional read_dict [] dict' = Ok n' -> load_all6 rt glyphs datas dict' = Ok (n', e).
Proof.
  intros H E. unfold load_all6 in *. rewrite E. cbn [bind]. apply bind_Ok in H as (m & _ & H). apply bind_Ok in H as (cols & -> & H). cbn [bind]. apply bind_Ok in H as (gs & -> & H). cbn [bind].
  destruct (negb _); [discriminate|]. apply bind_Ok in H as ((c & w) & -> & H). cbn [bind]. apply bind_Ok in H as (bw & -> & H). cbn [bind]. apply bind_Ok in H as (sd & -> & H). cbn [bind]. injection H as _ <-. reflexivity.
Qed.
Lemma load8_env rt glyphs datas dict dict' n n' e : load_all8 rt glyphs datas dict = Ok (n, e) -> load_optional read_dict [] dict' = Ok n' -> load_all8 rt glyphs datas dict' = Ok (n', e).
Proof.
  intros H E. unfold load_all8 in *. rewrite E. cbn [bind]. apply bind_Ok in H as (m & _ & H). apply bind_Ok in H as (cols & -> & H). cbn [bind]. apply bind_Ok in H as (gs & -> & H). cbn [bind].
  destruct (negb _); [discriminate|]. apply bind_Ok in H as ((c & w) & -> & H). cbn [bind]. apply bind_Ok in H as (bw & -> & H). cbn [bind]. injection H as _ <-. reflexivity.
Qed.
(** Whatever the files. *)
Lemma first_results6 rt glyphs datas image dict dict' a b c a' b' c' :
  extract_text6 rt glyphs datas image dict = Ok (a, b, c) -> extract_text6 rt glyphs datas image dict' = Ok (a', b', c') -> a' = a /\ b' = b.
Proof.
  intros H H'. unfold extract_text6 in *. apply bind_Ok in H as ((n & e) & L & H). apply bind_Ok in H' as ((n' & e') & L' & H').
  assert (E : e' = e).
  { unfold load_all6 in L'. apply bind_Ok in L' as (m & M & L2). pose proof (load6_env rt glyphs datas dict dict' n m e L M) as X. unfold load_all6 in X. rewrite M in X. cbn [bind] in X. rewrite X in L2. now injection L2. }
  subst e'. apply bind_Ok in H as (img & I & H). rewrite I in H'. cbn [bind] in H'. apply bind_Ok in H as (s & S & H). rewrite S in H'. cbn [bind] in H'.
  apply bind_Ok in H as (r & _ & H). apply bind_Ok in H' as (r' & _ & H'). injection H as <- <- _. injection H' as <- <- _. auto.
Qed.
Lemma first_results8 rt glyphs datas image dict dict' a b c a' b' c' :
  extract_text8 rt glyphs datas image dict = Ok (a, b, c) -> extract_text8 rt glyphs datas image dict' = Ok (a', b', c') -> a' = a /\ b' = b.
Proof.
  intros H H'. unfold extract_text8 in *. apply bind_Ok in H as ((n & e) & L & H). apply bind_Ok in H' as ((n' & e') & L' & H').
  assert (E : e' = e).
  { unfold load_all8 in L'. apply bind_Ok in L' as (m & M & L2). pose proof (load8_env rt glyphs datas dict dict' n m e L M) as X. unfold load_all8 in X. rewrite M in X. cbn [bind] in X. rewrite X in L2. now injection L2. }
  subst e'. apply bind_Ok in H as (img & I & H). rewrite I in H'. cbn [bind] in H'. apply bind_Ok in H as (s & S & H). rewrite S in H'. cbn [bind] in H'.
  apply bind_Ok in H as (r & _ & H). apply bind_Ok in H' as (r' & _ & H'). injection H as <- <- _. injection H' as <- <- _. auto.
Qed.
(** With the files of trained glyphs. *)
Theorem words6 rt gs junk z cx0 datas bytes img boxes dict dict' words words' : legal6 rt -> trainable6 gs -> is_std_sort Z.ltb z ->
  write_datas_file junk z cx0 (write_glyphs gs) = Ok (Some datas) -> image_of_bytes bytes 128 = Ok img -> box_searchable img -> segment img = Ok boxes ->
  Forall (small_character img) boxes -> Forall one_char (labels gs) -> dictionary_file dict words -> dictionary_file dict' words' ->
  (extract_text6 rt (write_glyphs gs) datas bytes dict = UB /\ extract_text6 rt (write_glyphs gs) datas bytes dict' = UB) \/
  exists a b line, Forall (Forall (fun w => In w (signs (labels gs)))) line /\
    extract_text6 rt (write_glyphs gs) datas bytes dict = Ok (a, b, text6 (spelling words) line) /\
    extract_text6 rt (write_glyphs gs) datas bytes dict' = Ok (a, b, text6 (spelling words') line).
Proof.
  intros HL HT Hz ED EI Hs Eb Sm H1 D D'. destruct (file_spell _ _ _ H1 D) as (sp & Hd & Es). destruct (file_spell _ _ _ H1 D') as (sp' & Hd' & Es').
  destruct (load_all6_ok rt HL gs HT junk z Hz cx0 datas ED (labels gs) dict (spell_file _ _ _ Hd)) as (nodes & e & EL & En & HB & Er).
  destruct (load_all6_ok rt HL gs HT junk z Hz cx0 datas ED (labels gs) dict' (spell_file _ _ _ Hd')) as (nodes' & e' & EL' & En' & _).
  rewrite (load6_env _ _ _ _ _ _ _ _ EL En') in EL'. injection EL' as <-. pose proof (load6_env _ _ _ _ _ _ _ _ EL En') as EL'.
  subst rt. pose proof HB as (HE & _). pose proof (recognise6_steady e HE) as HS.
  unfold extract_text6. rewrite EL, EL'. cbn [bind]. rewrite EI. cbn [bind].
  assert (HO : forall n im, recognisable im -> (undefined6 (r6_zones (e6_rt e)) im (e6_cols e) (e6_words e) /\ recognise6 e n im = UB) \/ (~ undefined6 (r6_zones (e6_rt e)) im (e6_cols e) (e6_words e) /\ exists f, recognise6 e n im = Ok f)).
  { intros n im R. destruct (recognise6_defined e n im HE R) as [H|(H & f & E & _)]; [now left|right; eauto]. }
  destruct (read_line6_defined _ HS _ HO img Hs boxes Eb Sm) as [(B & ->)|(B & s & fs & -> & L & _)]; [left; split; reflexivity|right]. cbn [bind].
  assert (HN : forall im f w, recognisable im -> recognised6 (recognise6 e) im f -> In w (f6_words f) -> w = unknown \/ In w (labels gs)).
  { intros im f w R Rf Hw. destruct (found_named z Hz gs e HB im f R Rf w Hw) as [->|(g & Hg & _ & Hv)]; [now left|right]. apply in_map_iff in Hv as (v & <- & Hv). exact (label_in gs g v Hg Hv). }
  rewrite (assemble_line _ img gs boxes fs (q_amb s) dict sp nodes HS Sm L HN Hd En), (assemble_line _ img gs boxes fs (q_amb s) dict' sp' nodes' HS Sm L HN Hd' En'). cbn [bind].
  rewrite (text6_ext sp (spelling words)), (text6_ext sp' (spelling words')) by auto.
  exists (q_r1 s), (q_r2 s), (q_amb s). split; [exact (line_signs _ img gs boxes fs _ HS Sm L HN)|]. split; reflexivity.
Qed.
Theorem words8 rt gs junk z cx0 datas bytes img boxes dict dict' words words' : legal8 rt -> trainable6 gs -> is_std_sort Z.ltb z ->
  write_datas_file junk z cx0 (write_glyphs gs) = Ok (Some datas) -> (forall g h, In g gs -> In h gs -> ~ differ_glyphs z g h) ->
  image_of_bytes bytes 128 = Ok img -> box_searchable img -> segment img = Ok boxes ->
  Forall (small_character img) boxes -> Forall one_char (labels gs) -> dictionary_file dict words -> dictionary_file dict' words' ->
  (extract_text8 rt (write_glyphs gs) datas bytes dict = UB /\ extract_text8 rt (write_glyphs gs) datas bytes dict' = UB) \/
  exists a b line, Forall (Forall (fun w => In w (signs (labels gs)))) line /\
    extract_text8 rt (write_glyphs gs) datas bytes dict = Ok (a, b, text6 (spelling words) line) /\
    extract_text8 rt (write_glyphs gs) datas bytes dict' = Ok (a, b, text6 (spelling words') line).
Proof.
  intros HL HT Hz ED HA EI Hs Eb Sm H1 D D'. destruct (file_spell _ _ _ H1 D) as (sp & Hd & Es). destruct (file_spell _ _ _ H1 D') as (sp' & Hd' & Es').
  destruct (load8_alike rt HL gs HT junk z Hz cx0 datas ED (labels gs) dict (spell_file _ _ _ Hd) HA) as (nodes & e & EL & En & HB & _).
  destruct (load8_alike rt HL gs HT junk z Hz cx0 datas ED (labels gs) dict' (spell_file _ _ _ Hd') HA) as (nodes' & e' & EL' & En' & _).
  rewrite (load8_env _ _ _ _ _ _ _ _ EL En') in EL'. injection EL' as <-. pose proof (load8_env _ _ _ _ _ _ _ _ EL En') as EL'.
  pose proof HB as (HE & _). pose proof (recognise8_steady e HE) as HS.
  unfold extract_text8. rewrite EL, EL'. cbn [bind]. rewrite EI. cbn [bind].
  assert (HO : forall n im, recognisable im -> (undefined8 (r6_zones (e8_rt e)) im (e8_cols e) (e8_words e) /\ recognise8 e n im = UB) \/ (~ undefined8 (r6_zones (e8_rt e)) im (e8_cols e) (e8_words e) /\ exists f, recognise8 e n im = Ok f)).
  { intros n im R. destruct (recognise8_outcome e n im HE R) as [H|(H & f & E & _)]; [now left|right; eauto]. }
  destruct (read_line6_defined _ HS _ HO img Hs boxes Eb Sm) as [(B & ->)|(B & s & fs & -> & L & _)]; [left; split; reflexivity|right]. cbn [bind].
  assert (HN : forall im f w, recognisable im -> recognised6 (recognise8 e) im f -> In w (f6_words f) -> w = unknown \/ In w (labels gs)).
  { intros im f w R Rf Hw. destruct (found_named8 z Hz gs e HB im f R Rf w Hw) as [->|(g & Hg & _ & Hv)]; [now left|right]. apply in_map_iff in Hv as (v & <- & Hv). exact (label_in gs g v Hg Hv). }
  rewrite (assemble_line _ img gs boxes fs (q_amb s) dict sp nodes HS Sm L HN Hd En), (assemble_line _ img gs boxes fs (q_amb s) dict' sp' nodes' HS Sm L HN Hd' En'). cbn [bind].
  rewrite (text6_ext sp (spelling words)), (text6_ext sp' (spelling words')) by auto.
  exists (q_r1 s), (q_r2 s), (q_amb s). split; [exact (line_signs _ img gs boxes fs _ HS Sm L HN)|]. split; reflexivity.
Qed.
Lemma same6 rt gs junk z cx0 datas bytes img boxes dict dict' words words' : legal6 rt -> trainable6 gs -> is_std_sort Z.ltb z ->
  write_datas_file junk z cx0 (write_glyphs gs) = Ok (Some datas) -> image_of_bytes bytes 128 = Ok img -> box_searchable img -> segment img = Ok boxes ->
  Forall (small_character img) boxes -> Forall one_char (labels gs) -> dictionary_file dict words -> dictionary_file dict' words' ->
  agree_on (signs (labels gs)) words words' ->
  extract_text6 rt (write_glyphs gs) datas bytes dict' = extract_text6 rt (write_glyphs gs) datas bytes dict.
Proof.
  intros H1 H2 H3 H4 H5 H6 H7 H8 H9 H10 H11 A. destruct (words6 rt gs junk z cx0 datas bytes img boxes dict dict' words words' H1 H2 H3 H4 H5 H6 H7 H8 H9 H10 H11) as [(-> & ->)|(a & b & line & F & -> & ->)]; [reflexivity|].
  now rewrite (agree_text6 _ _ _ _ A F).
Qed.
Lemma same8 rt gs junk z cx0 datas bytes img boxes dict dict' words words' : legal8 rt -> trainable6 gs -> is_std_sort Z.ltb z ->
  write_datas_file junk z cx0 (write_glyphs gs) = Ok (Some datas) -> (forall g h, In g gs -> In h gs -> ~ differ_glyphs z g h) ->
  image_of_bytes bytes 128 = Ok img -> box_searchable img -> segment img = Ok boxes ->
  Forall (small_character img) boxes -> Forall one_char (labels gs) -> dictionary_file dict words -> dictionary_file dict' words' ->
  agree_on (signs (labels gs)) words words' ->
  extract_text8 rt (write_glyphs gs) datas bytes dict' = extract_text8 rt (write_glyphs gs) datas bytes dict.
Proof.
  intros H1 H2 H3 H4 H0 H5 H6 H7 H8 H9 H10 H11 A. destruct (words8 rt gs junk z cx0 datas bytes img boxes dict dict' words words' H1 H2 H3 H4 H0 H5 H6 H7 H8 H9 H10 H11) as [(-> & ->)|(a & b & line & F & -> & ->)]; [reflexivity|].
  now rewrite (agree_text6 _ _ _ _ A F).
Qed.
Lemma more_words sort sort' words words' nodes nodes' positions out : is_std_sort (list_ltb Z.ltb) sort -> is_std_sort (list_ltb Z.ltb) sort' ->
  Forall well_formed words' -> ~ In [] words' -> letters words' < 4294967296 -> letters words < 4294967296 -> incl words words' -> Forall (Forall one_char) positions ->
  make_dictionary sort words = Ok nodes -> make_dictionary sort' words' = Ok nodes' ->
  disambiguous nodes' positions out = disambiguous nodes positions out \/
  exists before w after, choices positions = before ++ w :: after /\ (forall v, In v before -> ~ In v words') /\ In w words' /\ ~ In w words /\
    disambiguous nodes' positions out = Ok (true, out ++ w).
Proof.
  intros Hs Hs' W N L L' I F E E'.
  assert (W0 : Forall well_formed words) by exact (incl_signs _ _ _ I W).
  destruct (disambiguous_first_single sort words positions out Hs W0 (fun H => N (I _ H)) L' F) as (m & Em & D). rewrite E in Em. injection Em as <-.
  destruct (disambiguous_first_single sort' words' positions out Hs' W N L F) as (m & Em & D'). rewrite E' in Em. injection Em as <-.
  rewrite D, D'. destruct (more_spelling words words' positions I) as [->|(a & w & b & C & A & -> & P & Q)]; [now left|right].
  exists a, w, b. repeat split; auto.
Qed.
