From Verif Require Import Base BaseProofs SortModel SortProofs ImageModel ImageSpec ImageProofs PnmModel BoxModel BoxSpec BoxProofs StratModel ZoneModel DatasModel DatasSpec DatasProofs
  UtfSpec StreamModel GlyphIoModel GlyphIoSpec DatasIoModel DatasIoSpec DatasIoProofs DictIoModel DictIoProofs TrieModel TrieSpec TrieProofs SpellModel SpellSpec
  IndexModel IndexSpec FloatModel RecogModel RecogSpec RankProofs RecogProofs RecogProofs2 RecogWitness GlyphsModel GlyphsSpec GlyphsProofs3 FilterModel FilterSpec FilterProofs LinesSpec LinesProofs
  ExtractModel ExtractSpec ExtractProofs AssembleModel AssembleSpec AssembleProofs LearnModel LearnSpec LearnProofs LearnProofs2 LearnProofs3 LearnProofs4
  PipelineModel PipelineSpec PipelineProofs PipelineProofs2 PipelineProofs3 PipelineProofs4 ReadSpec ReadProofs ReadingSpec.

Lemma lines_text_file ws file ls : lines_text ws file ls -> lines_file ws file.
Proof. intros [(-> & _)|(-> & H1 & H2)]; [left; reflexivity|right; exists ls; auto]. Qed.
Definition entries (ls : list fline) : list (list Z * word_lines) := filter (fun p => vsize (fst p) <=? 8) (map fline_entry ls).
Lemma load_entries ws file ls : lines_text ws file ls -> load_optional read_words_lines [] file = Ok (entries ls).
Proof.
  intros [(-> & ->)|(-> & G & _)]; [reflexivity|]. destruct (words_lines_text ls G) as (s' & E1 & E2).
  unfold load_optional, load_file. rewrite E1. cbn [bind]. rewrite E2. reflexivity.
Qed.
Lemma fonts_labels gs : fonts_of (map fglyph_of gs) = flat_map (fun g => map vw_font (gl_views g)) gs.
Proof.
  unfold fonts_of. induction gs as [|g gs IH]; [reflexivity|]. cbn [map flat_map]. rewrite IH. f_equal.
  unfold fglyph_of. cbn [fg_labels]. rewrite map_map. reflexivity.
Qed.

Section Load.
Context (rt : runtime) (HL : legal rt) (gs : list glyph) (HT : trainable gs).
Context (junk : Z -> Z) (z : list Z -> list Z) (Hz : is_std_sort Z.ltb z) (cx0 : ctxs) (datas : list Z).
Hypothesis (ED : write_datas_file junk z cx0 (write_glyphs gs) = Ok (Some datas)).

Lemma load_all_exact ws file ls dict : lines_text (labels gs) file ls -> dict_file ws dict ->
  exists nodes g infos t wid fid get, load_all rt (write_glyphs gs) datas file dict = Ok (nodes, g, infos, t) /\
    table_of gs wid fid t /\ t_cols t = feature_table z (map gl_img gs) /\ (forall w, In w (labels gs) -> word_text g (wid w) = Ok w) /\
    (forall w, infos_get infos w = Ok (get w)) /\ lines_given (labels gs) ls wid get.
Proof.
  intros Hl Hd. destruct (load_dict ws dict Hd) as (nodes & En & Ln). destruct (trainable_images gs HT) as (HS & HR & HR').
  pose proof HT as (Hg & N & Hw & _ & _ & Gr). unfold vsize in N.
  destruct (write_datas_table z Hz junk cx0 gs HS HR ltac:(lia)) as (E1 & E2). rewrite ED in E1. injection E1 as ->.
  destruct (words_resolve (map fglyph_of gs) (trainable_file gs HT)) as (g & s & _ & _ & Eg & Es & _).
  { intros w. rewrite words_labels. apply Gr. }
  assert (Eg' : load_glyphs (open_stream (write_glyphs gs)) = Ok (g, s)) by (rewrite written_text; exact Eg).
  pose proof (load_entries _ _ _ Hl) as El. pose proof HL as (_ & _ & L3 & _).
  destruct (lines_of_words (map fglyph_of gs) g s (rt_lines rt) (entries ls) (trainable_file gs HT) Eg L3) as (wid & fid & infos & Ho & Ei & Hi).
  { intros t wl H. apply filter_In in H as [H _]. apply in_map_iff in H as (l & El' & Hl'). unfold fline_entry in El'. injection El' as <- _.
    rewrite words_labels. destruct Hl as [(_ & ->)|(_ & _ & S)]; [destruct Hl'|exact (S l Hl')]. }
  pose proof (holds_views gs g wid fid Ho) as Ev.
  assert (Lv : List.length (gt_views g) = List.length (map gl_img gs)) by (rewrite Ev; unfold table_views; rewrite !map_length; reflexivity).
  destruct (make_table_sound rt HL z Hz (map gl_img gs) (gt_views g) HR' Lv) as (t & Et & St & Tg & Tc).
  { intros v Hv. rewrite Ev in Hv. unfold table_views in Hv. apply in_map_iff in Hv as (x & <- & Hx). destruct (Hg x Hx) as (_ & _ & NE & _).
    destruct (gl_views x); [congruence|discriminate]. }
  { rewrite Lv, map_length. exact N. }
  assert (Tv : t_glyphs t = table_views wid fid gs) by (rewrite Tg; exact Ev).
  exists nodes, g, infos, t, wid, fid, (fun w => match infos_get infos w with Ok o => o | _ => None end).
  split; [|split; [|split; [exact Tc|split; [|split]]]].
  - unfold load_all. rewrite En. cbn [bind]. rewrite E2. cbn [bind]. unfold load_file at 1. rewrite Eg'. cbn [bind]. rewrite Es. cbn [bind].
    assert (Sz : vsize (gt_views g) = datas_size (feature_table z (map gl_img gs))).
    { unfold vsize. rewrite Lv. unfold feature_table.
      assert (A : exists a l, all_strategies = a :: l) by (eexists; eexists; reflexivity). destruct A as (a & l & ->). cbn [map datas_size]. rewrite !map_length. reflexivity. }
    rewrite Sz, Z.eqb_refl. cbn [negb]. rewrite El. cbn [bind]. rewrite Ei. cbn [bind]. rewrite Et. reflexivity.
  - constructor; [exact St| |exact Tv|].
    + exists z. split; [exact Hz|]. intros st i g0 v Hs Hi0 Eg0.
      assert (Rg : recognisable (gl_img g0)) by (rewrite Forall_forall in HR; apply HR; exact (nth_error_In _ _ Eg0)).
      destruct (rotate90_law (gl_img g0) (proj1 Rg)) as (r & Er & _).
      pose proof (fval_of_feature z Hz (gl_img g0) r Rg Er st Hs) as Ff. rewrite (row_cell z gs t St Tc st i g0 Hi0 Hs Eg0 v). split.
      * intros ->. exists r. split; [exact Er|exact Ff].
      * intros (r' & Er' & Ff'). rewrite Er in Er'. injection Er' as <-. rewrite Ff in Ff'. injection Ff' as <-. reflexivity.
    + destruct Ho as (_ & _ & Hf). rewrite fonts_labels in Hf. exact Hf.
  - intros w Iw. destruct Ho as (_ & Hw' & _). apply Hw'. rewrite words_labels. exact Iw.
  - intros w. destruct (infos_get_total infos w) as (o & ->). reflexivity.
  - intros w Iw. rewrite <- words_labels in Iw. destruct (Hi w Iw) as (r & -> & P). rewrite words_labels in P.
    destruct r as [wi|].
    + destruct P as (s0 & H & D). apply filter_In in H as (H & B). apply in_map_iff in H as (l & E & Il). exists l. unfold fline_entry in E. injection E as <- <-. cbn [fst] in B.
      split; [exact Il|]. split; [lia|]. split; [exact D|reflexivity].
    + intros l Il B. apply (P (fn_word l) (snd (fline_entry l))). apply filter_In. split; [apply in_map_iff; exists l; split; [reflexivity|exact Il]|]. cbn [fst]. lia.
Qed.
End Load.

Lemma read_exact rt gs junk z cx0 datas cx bytes img boxes file ls dict spell : legal rt -> trainable gs -> is_std_sort Z.ltb z ->
  write_datas_file junk z cx0 (write_glyphs gs) = Ok (Some datas) -> image_of_bytes bytes 128 = Ok img -> box_searchable img -> segment img = Ok boxes ->
  Forall (readable_box gs img) boxes -> steady_line boxes -> lines_text (labels gs) file ls -> dict_spell (labels gs) dict spell ->
  exists cs, reading gs ls img boxes cs /\
    let line := marked 0 boxes cs in
    extract_text rt cx (write_glyphs gs) datas bytes file dict = Ok (text_of_line spell line, unknown_of_line line, vsize boxes).
Proof.
  intros HL HT Hz ED EI Hs Eb F St Hl Hd.
  destruct (load_all_exact rt HL gs HT junk z Hz cx0 datas ED (labels gs) file ls dict Hl (spell_file _ _ _ Hd)) as (nodes & g & infos & t & wid & fid & get & EL & TO & TC & TW & Hget & LG).
  pose proof (tf_sound _ _ _ _ TO) as TS. pose proof (tf_labels _ _ _ _ TO) as TG.
  destruct (load_all_dict _ _ _ _ _ _ _ _ _ EL) as (En & _).
  destruct (trainable_images gs HT) as (_ & _ & HR).
  set (e := mkrec t (rt_views rt) (rt_probs rt) (rt_zones rt) (rt_junk rt)).
  pose proof (any_recognised rt HL z Hz gs wid fid t HR TS TC TG) as Rec. fold e in Rec.
  assert (HE : sound_recogniser e) by exact (rt_sound rt HL t TS).
  assert (HRb : Forall (fun b => forall im, char_image img b im -> recognisable im) boxes).
  { eapply Forall_impl; [|exact F]. intros b H im Him. apply (H im Him). }
  assert (HCr : Forall (can_read e img) boxes).
  { eapply Forall_impl; [|exact F]. intros b H im Him. destruct (H im Him) as (R & T). split; [exact R|]. exact (proj1 (Rec im R T)). }
  destruct (read_line_ok e img HE Hs boxes cx Eb HRb) as (RL1 & RL2). destruct (RL1 HCr) as (s & Es). destruct (RL2 s Es) as (Bx & Sp & Hli).
  pose proof (read_line_shared e img HE Hs boxes cx s Eb HRb Es) as Sh.
  destruct (boxes_small img boxes Hs Eb) as (SmB & Bn).
  pose proof (Forall2_length' _ _ _ Hli) as Ln.
  assert (V : valid (l_store s) (l_amb s)).
  { clear - Hli. intros r Hr. induction Hli as [|b a boxes amb (H & _) Hli IH]; [destruct Hr|]. destruct Hr as [<-|Hr]; [exact H|exact (IH Hr)]. }
  assert (Ba : vsize (l_amb s) < 4294967296) by (unfold vsize in *; lia).
  assert (LF : exists st1, filter_by_lines infos (l_store s) (l_amb s) boxes = Ok st1 /\ FilterProofs.below (l_store s) st1 /\ (boxes = [] \/ lines_filtered get (l_store s) (l_amb s) boxes st1)).
  { destruct (lines_any infos (l_store s) (l_amb s) boxes V Ln SmB St) as (st1 & E1 & B1). exists st1. split; [exact E1|]. split; [exact B1|].
    destruct boxes as [|b boxes]; [left; reflexivity|right]. destruct St as (S1 & S2).
    destruct (filter_by_lines_exact infos get Hget (l_store s) (l_amb s) b boxes V Ln SmB Ba S1 S2) as (st' & E' & L'). congruence. }
  destruct LF as (st1 & E1 & B1 & L1).
  assert (V1 : valid st1 (l_amb s)) by (intros r Hr; destruct B1 as [-> _]; exact (V r Hr)).
  destruct (filter_by_font_ok st1 (l_amb s) V1 Ba) as (st2 & f & E2 & S2 & C2).
  assert (FF : font_filtered st1 (l_amb s) st2).
  { destruct C2 as [(A & _ & B)|(El & C)]; [left; split; [exact A|exact B]|right]. exists f. split; [exact El|].
    destruct C as [(D & C)|C]; [left|right; exact C]. split; [exact D|]. intros r Hr. apply C; [apply V1 in Hr; lia|exact Hr]. }
  assert (I2 : forall r, In r (l_amb s) -> incl (list_at st2 r) (list_at (l_store s) r)).
  { intros r Hr v Hv. destruct B1 as [_ B1]. apply (subsequence_incl _ _ (B1 r ltac:(apply V in Hr; lia))).
    destruct (fonts_any st1 (l_amb s) V1 Ba) as (st' & f' & E' & _ & C'). rewrite E2 in E'. injection E' as <- <-. apply (proj1 (C' r Hr)). exact Hv. }
  assert (Wd : forall r v, In r (l_amb s) -> In v (list_at st2 r) -> exists w, In w (labels gs) /\ ov_word v = wid w).
  { intros r v Hr Hv. apply (I2 r Hr) in Hv.
    assert (Hb : exists b, In b boxes /\ has_list e img (l_store s) b r).
    { clear - Hli Hr. induction Hli as [|b a boxes amb H Hli IH]; [destruct Hr|]. destruct Hr as [<-|Hr]; [exists b; split; [left; reflexivity|exact H]|].
      destruct (IH Hr) as (b' & Hb & H'). exists b'. split; [right; exact Hb|exact H']. }
    destruct Hb as (b & Hb & _ & im & Him & Rl). rewrite Forall_forall in F. destruct (F b Hb im Him) as (Ri & Hy).
    destruct (proj1 (proj2 (Rec im Ri Hy) _ Rl) v Hv) as (g0 & vw & Ig & _ & Iv & ->). exists (vw_word vw). split; [exact (label_in gs g0 vw Ig Iv)|reflexivity]. }
  set (cs := map (fun r => character_of g (list_at st2 r)) (l_amb s)).
  assert (Res : resolvable g st2 (l_amb s)).
  { intros r Hr. split; [rewrite S2; exact (V1 r Hr)|]. intros v Hv. destruct (Wd r v Hr Hv) as (w & Hw & ->). exists w. exact (TW w Hw). }
  exists cs. split.
  - exists wid, fid, (text_of_word g), t, get, (l_store s), (l_amb s), st1, st2. split; [exact TO|]. split; [|split; [exact LG|split; [exact Sh|split; [|split; [exact L1|split; [exact FF|reflexivity]]]]]].
    + intros w Hw. unfold text_of_word. rewrite (TW w Hw). reflexivity.
    + assert (G : forall b r, In b boxes -> has_list e img (l_store s) b r -> 0 <= r < vsize (l_store s) /\ forall im, char_image img b im -> candidates_of t im (list_at (l_store s) r)).
      { intros b r Hb (Hr & im & Him & Rl). split; [exact Hr|]. intros im' Him'. rewrite (char_image_unique img b im' im Him' Him).
        rewrite Forall_forall in F. destruct (F b Hb im Him) as (Ri & _). destruct (Rl (fun _ => 0) new_ctxs) as (i90 & cx' & E90 & Ec).
        cbn [r_sortv r_sortp r_table r_zsort] in Ec. exists (mkin (fun _ => 0) (rt_zones rt) im i90).
        pose proof (inp_sound rt HL (fun _ => 0) im i90 Ri E90) as HI. split; [exact HI|]. split; [reflexivity|].
        destruct (rt_sound rt HL t TS) as (_ & Sv & Sp' & _). cbn [r_sortv r_sortp r_table] in *.
        exact (proj1 (compute_image_outcome _ t HI TS (rt_views rt) (rt_probs rt) Sv Sp' new_ctxs) _ _ Ec). }
      clear - G Hli. induction Hli as [|b r boxes amb H Hli IH]; constructor; [apply G; [left; reflexivity|exact H]|]. apply IH. intros b' r' Hb. apply G. right. exact Hb.
  - cbv zeta. unfold extract_text. rewrite EL. cbn [bind]. rewrite EI. cbn [bind]. fold e. rewrite Es. cbn [bind]. rewrite Bx, Sp, E1. cbn [bind]. rewrite E2. cbn [bind].
    rewrite u32_small by (unfold vsize in *; lia).
    pose proof (assemble_named g nodes st2 (l_amb s) boxes (labels gs) dict spell Res Ln Ba En Hd) as Ea. cbv zeta in Ea. rewrite Ea.
    + cbn [bind]. unfold cs, vsize. rewrite Ln. reflexivity.
    + intros r w Hr Hw. destruct (character_in g w _ Hw) as (v & Hv & Ev). destruct (Wd r v Hr Hv) as (w' & Hw' & E'). rewrite E' in Ev. unfold text_of_word in Ev. rewrite (TW w' Hw') in Ev. congruence.
Qed.
