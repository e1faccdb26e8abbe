(** More or fewer words in the dictionary of ocr2_extract_text. *)
From Verif Require Import Base BaseProofs SortModel SortProofs ImageModel ImageSpec ImageProofs PnmModel BoxModel BoxSpec BoxProofs StratModel ZoneModel DatasModel DatasSpec DatasProofs
  UtfSpec StreamModel GlyphIoModel GlyphIoSpec DatasIoModel DatasIoSpec DatasIoProofs DictIoModel DictIoProofs TrieModel TrieSpec TrieProofs SpellModel SpellSpec
  IndexModel IndexSpec IndexProofs FloatModel RecogModel RecogSpec RankProofs RecogProofs RecogProofs2 RecogWitness GlyphsModel GlyphsSpec GlyphsProofs3 FilterModel FilterSpec FilterProofs LinesSpec LinesProofs LinesProofs2
  ExtractModel ExtractSpec ExtractProofs AssembleModel AssembleSpec AssembleProofs LearnModel LearnSpec LearnProofs LearnProofs2 LearnProofs3 LearnProofs4
  PipelineModel PipelineSpec PipelineProofs PipelineProofs2 PipelineProofs3 PipelineProofs4 ReadSpec ReadProofs ReadingSpec ReadingProofs Ocr6Proofs5 ReadingProofs2 MoreWordsSpec MoreWordsProofs.

(** * The numbers, whatever the files *)
Lemma marks_count g st amb e fuel : forall i r r' c m s k m' s' k',
  append_marks g st amb fuel i e r c = Ok (m, s, k) -> append_marks g st amb fuel i e r' c = Ok (m', s', k') -> m' = m /\ k' = k.
Proof.
  induction fuel as [|fuel IH]; intros i r r' c m s k m' s' k' H H'; [discriminate|]. cbn [append_marks] in *. destruct (i =? e); [injection H as <- _ <-; injection H' as <- _ <-; auto|].
  apply bind_Ok in H as (l & El & H). rewrite El in H'. cbn [bind] in H'. destruct l as [|v l]; [exact (IH _ _ _ _ _ _ _ _ _ _ H H')|].
  apply bind_Ok in H as (b & Eb & H). rewrite Eb in H'. cbn [bind] in H'. destruct b.
  - apply bind_Ok in H as (x & _ & H). apply bind_Ok in H' as (x' & _ & H'). exact (IH _ _ _ _ _ _ _ _ _ _ H H').
  - injection H as <- _ <-. injection H' as <- _ <-. auto.
Qed.
Lemma assemble_count g dict dict' st amb brks t c t' c' : assemble g dict st amb brks = Ok (t, c) -> assemble g dict' st amb brks = Ok (t', c') -> c' = c.
Proof.
  unfold assemble. intros H H'. cbv zeta in H, H'. apply bind_Ok in H as (e0 & E0 & H). rewrite E0 in H'. cbn [bind] in H'. apply bind_Ok in H as (m & Em & H). rewrite Em in H'. cbn [bind] in H'.
  apply bind_Ok in H as (r & Er & H). rewrite Er in H'. cbn [bind] in H'. set (fuel := S (List.length amb)) in *. set (it := if m =? e0 then 1 else 0) in *.
  clearbody it. revert H H'. set (r' := r) at 2. clearbody r'. generalize 0 as k. generalize (S fuel) as n. clear E0 Em Er. intros n. revert m it r r'.
  induction n as [|n IH]; intros m it r r' k H H'; [discriminate|]. cbn [loop] in H, H'. destruct (m =? vsize amb); [cbn [bind] in H, H'; injection H as _ <-; injection H' as _ <-; reflexivity|].
  apply bind_Ok in H as (x & Hx & H). apply bind_Ok in H' as (x' & Hx' & H').
  apply bind_Ok in Hx as (e & Ee & Hx). rewrite Ee in Hx'. cbn [bind] in Hx'. apply bind_Ok in Hx as (q & Eq & Hx). rewrite Eq in Hx'. cbn [bind] in Hx'.
  apply bind_Ok in Hx as (ps & Ep & Hx). rewrite Ep in Hx'. cbn [bind] in Hx'. apply bind_Ok in Hx as ((fd & r1) & _ & Hx). apply bind_Ok in Hx' as ((fd' & r1') & _ & Hx').
  apply bind_Ok in Hx as (r2 & _ & Hx). apply bind_Ok in Hx' as (r2' & _ & Hx'). apply bind_Ok in Hx as (((q3 & r3) & k3) & A & Hx). apply bind_Ok in Hx' as (((q3' & r3') & k3') & A' & Hx').
  destruct (marks_count _ _ _ _ _ _ _ _ _ _ _ _ _ _ _ A A') as (-> & ->). destruct (_ && _); injection Hx as <-; injection Hx' as <-; exact (IH _ _ _ _ _ H H').
Qed.
Lemma load_env rt glyphs datas lines dict dict' n n' g i t : load_all rt glyphs datas lines dict = Ok (n, g, i, t) -> load_optional read_dict [] dict' = Ok n' ->
  load_all rt glyphs datas lines dict' = Ok (n', g, i, t).
Proof.
  intros H E. unfold load_all in *. rewrite E. cbn [bind]. apply bind_Ok in H as (m & _ & H). apply bind_Ok in H as (cols & -> & H). cbn [bind]. apply bind_Ok in H as (gs & -> & H). cbn [bind].
  destruct (negb _); [discriminate|]. apply bind_Ok in H as (ls & -> & H). cbn [bind]. apply bind_Ok in H as (infos & -> & H). cbn [bind]. apply bind_Ok in H as (t0 & -> & H). cbn [bind]. injection H as _ <- <- <-. reflexivity.
Qed.
Lemma numbers2 rt cx glyphs datas image lines dict dict' a b c a' b' c' :
  extract_text rt cx glyphs datas image lines dict = Ok (a, b, c) -> extract_text rt cx glyphs datas image lines dict' = Ok (a', b', c') -> b' = b /\ c' = c.
Proof.
  intros H H'. unfold extract_text in *. apply bind_Ok in H as ((((n & g) & i) & t) & L & H). apply bind_Ok in H' as ((((n' & g') & i') & t') & L' & H').
  assert (E : g' = g /\ i' = i /\ t' = t).
  { unfold load_all in L'. apply bind_Ok in L' as (m & M & L2). pose proof (load_env _ _ _ _ _ _ _ m _ _ _ L M) as X. unfold load_all in X. rewrite M in X. cbn [bind] in X. rewrite X in L2. now injection L2. }
  destruct E as (-> & -> & ->). apply bind_Ok in H as (img & I & H). rewrite I in H'. cbn [bind] in H'. apply bind_Ok in H as (s & S & H). rewrite S in H'. cbn [bind] in H'.
  apply bind_Ok in H as (st & F & H). rewrite F in H'. cbn [bind] in H'. apply bind_Ok in H as ((st2 & f) & F2 & H). rewrite F2 in H'. cbn [bind] in H'.
  apply bind_Ok in H as ((x & k) & A & H). apply bind_Ok in H' as ((x' & k') & A' & H'). injection H as _ <- <-. injection H' as _ <- <-. split; [|reflexivity]. exact (assemble_count _ _ _ _ _ _ _ _ _ _ A A').
Qed.

(** * The text *)
Lemma render_ext sp sp' line : forall word, (forall ps, incl ps (word ++ map snd line) -> sp ps = sp' ps) -> render sp word line = render sp' word line.
Proof.
  induction line as [|(b & c) line IH]; intros word H; cbn [render map snd] in *.
  - apply flush_ext, H. rewrite app_nil_r. apply incl_refl.
  - assert (Fw : flush sp word = flush sp' word) by (apply flush_ext, H, incl_appl, incl_refl).
    assert (S : forall w, incl w word -> render sp (w ++ [c]) line = render sp' (w ++ [c]) line).
    { intros w Hw. apply IH. intros ps I. apply H. intros x Hx. apply I in Hx. rewrite <- app_assoc in Hx. apply in_app_or in Hx as [Hx|Hx]; apply in_or_app; [left; now apply Hw|right; exact Hx]. }
    assert (N : render sp [] line = render sp' [] line).
    { apply IH. intros ps I. apply H. intros x Hx. apply in_or_app. right. right. exact (I x Hx). }
    destruct b; rewrite ?Fw, N; destruct (separator c); rewrite ?Fw; try reflexivity.
    + now rewrite (S [] ltac:(intros ? [])).
    + now rewrite (S word (incl_refl _)).
Qed.
Lemma clear_snd line : map snd (clear_first line) = map snd line.
Proof. destruct line as [|(b & c) line]; reflexivity. Qed.
Lemma text_of_line_ext sp sp' line : (forall ps, incl ps (map snd line) -> sp ps = sp' ps) -> text_of_line sp line = text_of_line sp' line.
Proof.
  intros H. unfold text_of_line. f_equal. apply render_ext. intros ps I. apply H. cbn [app] in I. rewrite clear_snd in I. intros x Hx. apply I in Hx.
  apply in_map_iff in Hx as (p & <- & Hp). apply in_map. rewrite <- (firstn_skipn (leading line) line). apply in_or_app. now right.
Qed.
Lemma agree_text ls words words' line : agree_on ls words words' -> Forall (fun p => Forall (fun w => In w ls) (snd p)) line -> text_of_line (SpellSpec.first_word words) line = text_of_line (SpellSpec.first_word words') line.
Proof.
  intros A F. apply text_of_line_ext. intros ps I. apply (agree_spelling ls); [exact A|]. apply (incl_signs _ _ _ I). apply Forall_map. exact F.
Qed.
Lemma marked_chars P boxes : forall x cs, Forall P cs -> Forall (fun p : bool * list (list Z) => P (snd p)) (marked x boxes cs).
Proof. induction boxes as [|b boxes IH]; intros x [|c cs] F; cbn [marked]; constructor; inversion F; subst; auto. Qed.

Theorem words2 rt gs junk z cx0 datas cx bytes img boxes file ls dict dict' words words' : legal rt -> trainable gs -> is_std_sort Z.ltb z ->
  write_datas_file junk z cx0 (write_glyphs gs) = Ok (Some datas) -> image_of_bytes bytes 128 = Ok img -> box_searchable img -> segment img = Ok boxes ->
  Forall (small_character img) boxes -> lines_text (labels gs) file ls -> Forall one_char (labels gs) -> dictionary_file dict words -> dictionary_file dict' words' ->
  (extract_text rt cx (write_glyphs gs) datas bytes file dict = UB /\ extract_text rt cx (write_glyphs gs) datas bytes file dict' = UB) \/
  exists line, Forall (fun p => Forall (fun w => In w (labels gs)) (snd p)) line /\
    extract_text rt cx (write_glyphs gs) datas bytes file dict = Ok (text_of_line (SpellSpec.first_word words) line, unknown_of_line line, vsize boxes) /\
    extract_text rt cx (write_glyphs gs) datas bytes file dict' = Ok (text_of_line (SpellSpec.first_word words') line, unknown_of_line line, vsize boxes).
Proof.
  intros HL HT Hz ED EI Hs Eb HRb Hl H1 D D'. destruct (file_spell _ _ _ H1 D) as (spell & Hd & Es0). destruct (file_spell _ _ _ H1 D') as (spell' & Hd' & Es0').
  destruct (load_all_exact rt HL gs HT junk z Hz cx0 datas ED (labels gs) file ls dict Hl (spell_file _ _ _ Hd)) as (nodes & g & infos & t & wid & fid & get & EL & TO & TC & TW & Hget & LG).
  destruct (load_all_exact rt HL gs HT junk z Hz cx0 datas ED (labels gs) file ls dict' Hl (spell_file _ _ _ Hd')) as (nodes' & g' & infos' & t' & ? & ? & ? & EL' & _).
  destruct (load_all_dict _ _ _ _ _ _ _ _ _ EL) as (En & _). destruct (load_all_dict _ _ _ _ _ _ _ _ _ EL') as (En' & _).
  pose proof (load_env _ _ _ _ _ _ _ _ _ _ _ EL En') as X. rewrite X in EL'. clear EL'. rename X into EL'.
  pose proof (tf_sound _ _ _ _ TO) as TS. pose proof (tf_labels _ _ _ _ TO) as TG.
  set (e := mkrec t (rt_views rt) (rt_probs rt) (rt_zones rt) (rt_junk rt)).
  assert (HE : sound_recogniser e) by exact (rt_sound rt HL t TS).
  unfold extract_text. rewrite EL, EL'. cbn [bind]. rewrite EI. cbn [bind]. fold e.
  destruct (read_line_outcome e img HE Hs boxes cx Eb HRb) as [(Bad & ->)|(Good & s & Es)]; [left; split; reflexivity|].
  destruct (read_line_ok e img HE Hs boxes cx Eb HRb) as (_ & RL2). destruct (RL2 s Es) as (Bx & Sp & Hli).
  destruct (boxes_small img boxes Hs Eb) as (SmB & Bn).
  pose proof (Forall2_length' _ _ _ Hli) as Ln.
  assert (V : valid (l_store s) (l_amb s)).
  { clear - Hli. intros r Hr. induction Hli as [|b a boxes amb (H & _) Hli IH]; [destruct Hr|]. destruct Hr as [<-|Hr]; [exact H|exact (IH Hr)]. }
  assert (Ba : vsize (l_amb s) < 2147483648).
  { destruct (segment_order img Hs) as (boxes' & Eb' & _ & Lb & _). assert (boxes' = boxes) by congruence. subst boxes'. pose proof Hs as (_ & Wd0 & Hd0 & Ar0).
    assert (iw img <= iw img * ih img) by nia. unfold vsize in *. lia. }
  assert (Cand : forall b r, In b boxes -> has_list e img (l_store s) b r -> 0 <= r < vsize (l_store s) /\ forall im, char_image img b im -> candidates_of t im (list_at (l_store s) r)).
  { intros b r Hb (Hr & im & Him & Rl). split; [exact Hr|]. intros im' Him'. rewrite (char_image_unique img b im' im Him' Him).
    rewrite Forall_forall in HRb. pose proof (HRb b Hb im Him) as Ri. destruct (Rl (fun _ => 0) new_ctxs) as (i90 & cx' & E90 & Ec).
    cbn [r_sortv r_sortp r_table r_zsort] in Ec. exists (mkin (fun _ => 0) (rt_zones rt) im i90).
    pose proof (inp_sound rt HL (fun _ => 0) im i90 Ri E90) as HI. split; [exact HI|]. split; [reflexivity|].
    destruct (rt_sound rt HL t TS) as (_ & Sv & Sp' & _). cbn [r_sortv r_sortp r_table] in *.
    exact (proj1 (compute_image_outcome _ t HI TS (rt_views rt) (rt_probs rt) Sv Sp' new_ctxs) _ _ Ec). }
  pose proof (filter_by_lines_outcome infos get Hget (l_store s) (l_amb s) boxes V Ln SmB Ba) as LO.
  rewrite Es. cbn [bind]. rewrite Bx, Sp.
  destruct (outcome_below get _ _ _ _ V LO) as [E1|(st1 & E1 & B1)]; rewrite E1; [left; split; reflexivity|right]. cbn [bind].
  assert (V1 : valid st1 (l_amb s)) by (intros r Hr; destruct B1 as [-> _]; exact (V r Hr)).
  destruct (filter_by_font_ok st1 (l_amb s) V1 ltac:(lia)) as (st2 & f & E2 & S2 & C2).
  assert (I2 : forall r, In r (l_amb s) -> incl (list_at st2 r) (list_at (l_store s) r)).
  { intros r Hr v Hv. destruct B1 as [_ B1]. apply (subsequence_incl _ _ (B1 r ltac:(apply V in Hr; lia))).
    destruct (fonts_any st1 (l_amb s) V1 ltac:(lia)) as (st' & f' & E' & _ & C'). rewrite E2 in E'. injection E' as <- <-. apply (proj1 (C' r Hr)). exact Hv. }
  assert (Wd : forall r v, In r (l_amb s) -> In v (list_at st2 r) -> exists w, In w (labels gs) /\ ov_word v = wid w).
  { intros r v Hr Hv. apply (I2 r Hr) in Hv.
    assert (Hb : exists b, In b boxes /\ has_list e img (l_store s) b r).
    { clear - Hli Hr. induction Hli as [|b a boxes amb H Hli IH]; [destruct Hr|]. destruct Hr as [<-|Hr]; [exists b; split; [left; reflexivity|exact H]|].
      destruct (IH Hr) as (b' & Hb & H'). exists b'. split; [right; exact Hb|exact H']. }
    destruct Hb as (b & Hb & HL'). destruct (Cand b r Hb HL') as (_ & Ca). destruct HL' as (_ & im & Him & _). destruct (Ca im Him) as (inp & _ & _ & O).
    destruct (outcome_labels _ _ _ _ O Hv) as (row & Ir & Iv). rewrite TG in Ir. apply in_map_iff in Ir as (g0 & <- & Ig). apply in_map_iff in Iv as (vw & <- & Ivw).
    exists (vw_word vw). split; [exact (label_in gs g0 vw Ig Ivw)|reflexivity]. }
  assert (Res : resolvable g st2 (l_amb s)).
  { intros r Hr. split; [rewrite S2; exact (V1 r Hr)|]. intros v Hv. destruct (Wd r v Hr Hv) as (w & Hw & ->). exists w. exact (TW w Hw). }
  assert (Nm : forall r w, In r (l_amb s) -> In w (character_of g (list_at st2 r)) -> In w (labels gs)).
  { intros r w Hr Hw. destruct (character_in g w _ Hw) as (v & Hv & Ev). destruct (Wd r v Hr Hv) as (w' & Hw' & E'). rewrite E' in Ev. unfold text_of_word in Ev. rewrite (TW w' Hw') in Ev. congruence. }
  rewrite E2. cbn [bind]. rewrite u32_small by (unfold vsize in *; lia).
  pose proof (assemble_named g nodes st2 (l_amb s) boxes (labels gs) dict spell Res Ln ltac:(lia) En Hd) as Ea. cbv zeta in Ea. rewrite Ea by exact Nm.
  pose proof (assemble_named g nodes' st2 (l_amb s) boxes (labels gs) dict' spell' Res Ln ltac:(lia) En' Hd') as Ea'. cbv zeta in Ea'. rewrite Ea' by exact Nm.
  cbn [bind]. rewrite (text_of_line_ext spell (SpellSpec.first_word words)), (text_of_line_ext spell' (SpellSpec.first_word words')) by auto.
  eexists. split; [|unfold vsize; rewrite Ln; split; reflexivity].
  apply marked_chars. apply Forall_map, Forall_forall. intros r Hr. apply Forall_forall. intros w Hw. exact (Nm r w Hr Hw).
Qed.
Lemma same2 rt gs junk z cx0 datas cx bytes img boxes file ls dict dict' words words' : legal rt -> trainable gs -> is_std_sort Z.ltb z ->
  write_datas_file junk z cx0 (write_glyphs gs) = Ok (Some datas) -> image_of_bytes bytes 128 = Ok img -> box_searchable img -> segment img = Ok boxes ->
  Forall (small_character img) boxes -> lines_text (labels gs) file ls -> Forall one_char (labels gs) -> dictionary_file dict words -> dictionary_file dict' words' ->
  agree_on (labels gs) words words' ->
  extract_text rt cx (write_glyphs gs) datas bytes file dict' = extract_text rt cx (write_glyphs gs) datas bytes file dict.
Proof.
  intros H1 H2 H3 H4 H5 H6 H7 H8 H9 H10 H11 H12 A. destruct (words2 rt gs junk z cx0 datas cx bytes img boxes file ls dict dict' words words' H1 H2 H3 H4 H5 H6 H7 H8 H9 H10 H11 H12) as [(-> & ->)|(line & F & -> & ->)]; [reflexivity|].
  now rewrite (agree_text _ _ _ _ A F).
Qed.
