(** The whole program: what is loaded, and what is printed. *)
From Verif Require Import Base BaseProofs SortModel SortProofs ImageModel ImageSpec ImageProofs PnmModel BoxModel BoxSpec BoxProofs StratModel ZoneModel DatasModel DatasSpec
  UtfSpec StreamModel GlyphIoModel GlyphIoSpec DatasIoModel DatasIoSpec DatasIoProofs DictIoModel DictIoProofs TrieModel TrieSpec TrieProofs SpellSpec
  IndexModel IndexSpec FloatModel RecogModel RecogSpec GlyphsModel GlyphsSpec GlyphsProofs3 FilterModel FilterSpec FilterProofs ExtractModel ExtractSpec ExtractProofs
  AssembleModel AssembleSpec AssembleProofs LearnModel LearnSpec LearnProofs LearnProofs2 LearnProofs3 LearnProofs4 PipelineModel PipelineSpec PipelineProofs PipelineProofs2 PipelineProofs3.

(** * Loading *)
Lemma words_labels gs : GlyphsSpec.words_of (map fglyph_of gs) = labels gs.
Proof.
  unfold GlyphsSpec.words_of, labels. induction gs as [|g gs IH]; [reflexivity|]. cbn [map flat_map]. rewrite IH. f_equal.
  unfold fglyph_of. cbn [fg_labels]. rewrite map_map. reflexivity.
Qed.
Lemma label_in gs g v : In g gs -> In v (gl_views g) -> In (vw_word v) (labels gs).
Proof. intros Hg Hv. apply in_flat_map. exists g. split; [exact Hg|]. apply in_map. exact Hv. Qed.
Lemma trainable_file gs : trainable gs -> good_file (map fglyph_of gs).
Proof.
  intros (Hg & _ & Hw & N & B & _). split; [|rewrite words_labels; split; [exact N|split; [exact B|intros w Iw; apply Hw; exact Iw]]].
  apply (written_files gs). intros g Ig. destruct (Hg g Ig) as (S1 & _ & S3 & S4). split; [exact S1|]. split; [exact S3|]. split; [exact S4|].
  intros v Hv. apply Hw. exact (label_in gs g v Ig Hv).
Qed.
Lemma trainable_images gs : trainable gs -> Forall storable gs /\ Forall (fun g => recognisable (gl_img g)) gs /\ Forall recognisable (map gl_img gs).
Proof.
  intros (Hg & _). split; [|split]; [| |apply Forall_map]; apply Forall_forall; intros g Ig; apply (Hg g Ig).
Qed.
Definition table_views (wid fid : list Z -> Z) (gs : list glyph) : list (list oview) :=
  map (fun g => map (fun v => mkov (wid (vw_word v)) (fid (vw_font v))) (gl_views g)) gs.
Lemma holds_views gs g wid fid : holds (map fglyph_of gs) g wid fid -> gt_views g = table_views wid fid gs.
Proof.
  intros (H & _). rewrite H. unfold table_views. rewrite map_map. apply map_ext. intros x. unfold fglyph_of. cbn [fg_labels]. rewrite map_map. reflexivity.
Qed.
Definition loaded_dict (ws : list (list Z)) (nodes : list fnode) : Prop :=
  nodes = [] \/ exists sort words, is_std_sort (list_ltb Z.ltb) sort /\ Forall well_formed words /\ ~ In [] words /\ letters words < 4294967296 /\
    make_dictionary sort words = Ok nodes /\ Forall one_char ws.
Lemma load_dict ws file : dict_file ws file -> exists nodes, load_optional read_dict [] file = Ok nodes /\ loaded_dict ws nodes.
Proof.
  intros [-> | (sort & words & nodes & -> & H1 & H2 & H3 & H4 & H5 & H6)]; [exists []; split; [reflexivity|left; reflexivity]|].
  exists nodes. split; [apply dict_file_round_trip, (dictionary_storable sort words); assumption|]. right. exists sort, words. auto 10.
Qed.
Lemma load_lines rt gs g s file : legal rt -> trainable gs -> load_glyphs (open_stream (write_glyphs gs)) = Ok (g, s) -> lines_file (labels gs) file ->
  exists ls infos, load_optional read_words_lines [] file = Ok ls /\ words_infos (rt_lines rt) g ls = Ok infos.
Proof.
  intros HL HT E [-> | (ls & -> & G & S)].
  - exists [], (rt_lines rt []). split; reflexivity.
  - destruct (words_lines_text ls G) as (s' & E1 & E2). exists (filter (fun p => vsize (fst p) <=? 8) (map fline_entry ls)).
    rewrite written_text in E. destruct HL as (_ & _ & L3 & _).
    destruct (lines_of_words (map fglyph_of gs) g s (rt_lines rt) (filter (fun p => vsize (fst p) <=? 8) (map fline_entry ls)) (trainable_file gs HT) E L3) as (_ & _ & infos & _ & W & _).
    { intros t wl H. apply filter_In in H as [H _]. apply in_map_iff in H as (l & El & Hl). unfold fline_entry in El. injection El as <- _.
      rewrite words_labels. exact (S l Hl). }
    exists infos. split; [|exact W]. unfold load_optional, load_file. rewrite E1. cbn [bind]. rewrite E2. reflexivity.
Qed.

Section Load.
Context (rt : runtime) (HL : legal rt) (gs : list glyph) (HT : trainable gs).
Context (junk : Z -> Z) (z : list Z -> list Z) (Hz : is_std_sort Z.ltb z) (cx0 : ctxs) (datas : list Z).
Hypothesis (ED : write_datas_file junk z cx0 (write_glyphs gs) = Ok (Some datas)).

Lemma load_all_ok ws lines dict : lines_file (labels gs) lines -> dict_file ws dict ->
  exists nodes g infos t wid fid, load_all rt (write_glyphs gs) datas lines dict = Ok (nodes, g, infos, t) /\ loaded_dict ws nodes /\
    sound_table t /\ t_cols t = feature_table z (map gl_img gs) /\ t_glyphs t = table_views wid fid gs /\
    forall w, In w (labels gs) -> word_text g (wid w) = Ok w.
Proof.
  intros Hl Hd. destruct (load_dict ws dict Hd) as (nodes & En & Ln). destruct (trainable_images gs HT) as (HS & HR & HR').
  pose proof HT as (Hg & N & Hw & _ & _ & Gr). unfold vsize in N.
  destruct (write_datas_table z Hz junk cx0 gs HS HR ltac:(lia)) as (E1 & E2). rewrite ED in E1. injection E1 as ->.
  destruct (words_resolve (map fglyph_of gs) (trainable_file gs HT)) as (g & s & wid & fid & Eg & Es & Ho).
  { intros w. rewrite words_labels. apply Gr. }
  assert (Eg' : load_glyphs (open_stream (write_glyphs gs)) = Ok (g, s)) by (rewrite written_text; exact Eg).
  destruct (load_lines rt gs g s lines HL HT Eg' Hl) as (ls & infos & El & Ei).
  pose proof (holds_views gs g wid fid Ho) as Ev.
  assert (Lv : List.length (gt_views g) = List.length (map gl_img gs)) by (rewrite Ev; unfold table_views; rewrite !map_length; reflexivity).
  destruct (make_table_sound rt HL z Hz (map gl_img gs) (gt_views g) HR' Lv) as (t & Et & St & Tg & Tc).
  { intros v Hv. rewrite Ev in Hv. unfold table_views in Hv. apply in_map_iff in Hv as (x & <- & Hx). destruct (Hg x Hx) as (_ & _ & NE & _).
    destruct (gl_views x); [congruence|discriminate]. }
  { rewrite Lv, map_length. exact N. }
  exists nodes, g, infos, t, wid, fid. split; [|split; [exact Ln|split; [exact St|split; [exact Tc|split; [rewrite Tg; exact Ev|]]]]].
  - unfold load_all. rewrite En. cbn [bind]. rewrite E2. cbn [bind]. unfold load_file at 1. rewrite Eg'. cbn [bind]. rewrite Es. cbn [bind].
    assert (Sz : vsize (gt_views g) = datas_size (feature_table z (map gl_img gs))).
    { unfold vsize. rewrite Lv. unfold feature_table.
      assert (A : exists a l, all_strategies = a :: l) by (eexists; eexists; reflexivity). destruct A as (a & l & ->). cbn [map datas_size]. rewrite !map_length. reflexivity. }
    rewrite Sz, Z.eqb_refl. cbn [negb]. rewrite El. cbn [bind]. rewrite Ei. cbn [bind]. rewrite Et. reflexivity.
  - intros w Iw. destruct Ho as (_ & Hw' & _). apply Hw'. rewrite words_labels. exact Iw.
Qed.
End Load.

(** * Reading *)
Lemma taught_label gs im w : (forall g, In g gs -> gl_views g <> []) -> taught gs im w -> In w (labels gs).
Proof.
  intros NE ((g & Hg & R) & U). destruct (gl_views g) as [|v vs] eqn:Ev; [exfalso; exact (NE g Hg Ev)|].
  assert (Hv : In v (gl_views g)) by (rewrite Ev; left; reflexivity). rewrite <- (U g v Hg R Hv). exact (label_in gs g v Hg Hv).
Qed.
Lemma boxes_small img boxes : box_searchable img -> segment img = Ok boxes -> small_boxes boxes /\ vsize boxes < 4294967296.
Proof.
  intros Hs Eb. destruct (segment_order img Hs) as (boxes' & Eb' & Hr & Ln & _). assert (boxes' = boxes) by congruence. subst boxes'.
  pose proof (proj1 (read_boxes_facts _ _ _ Hr)) as F.
  destruct Hs as (_ & W & H & A). assert (B : iw img <= iw img * ih img) by nia. assert (B' : ih img <= iw img * ih img) by nia. split; [|unfold vsize; lia].
  intros x Hx. rewrite Forall_forall in F. specialize (F x Hx). cbn beta in F. unfold small_box, box_top, box_bottom. rewrite ?u32_small by lia. lia.
Qed.
Lemma assembled g nodes st amb ws boxes wid : Forall2 (reads g wid st) amb ws -> List.length boxes = List.length amb -> vsize boxes < 4294967296 ->
  loaded_dict ws nodes -> no_lost_break (spoken 0 boxes ws) ->
  assemble g nodes st amb (breaks 0 0 boxes ++ [u32 (vsize amb)]) = Ok (line_text boxes ws, 0).
Proof.
  intros F L B D NL. pose proof (reads_resolvable g wid st amb ws F) as R. pose proof (line_spoken g wid st amb ws boxes F L) as Sp.
  assert (B' : 0 <= vsize amb < 4294967296) by (unfold vsize in *; lia). rewrite u32_small by exact B'.
  assert (I : increasing_breaks (vsize amb) (breaks 0 0 boxes)) by (apply breaks_increasing; unfold vsize; lia).
  pose proof (spoken_single boxes 0 ws) as SS. destruct (single_text _ SS NL) as (T1 & T2).
  destruct D as [->|(sort & words & D1 & D2 & D3 & D4 & D5 & D6)].
  - rewrite assemble_plain by (assumption || lia). cbv zeta. rewrite Sp, T1, T2. reflexivity.
  - rewrite (assemble_dictionary sort words) by (assumption || lia || (rewrite Sp; apply spoken_chars; exact D6)). cbv zeta. rewrite Sp, T2. f_equal. f_equal.
    unfold line_text. rewrite <- T1. f_equal. set (l := clear_first (skipn (leading (spoken 0 boxes ws)) (spoken 0 boxes ws))).
    assert (Sl : single_line l).
    { unfold l. assert (S' : single_line (skipn (leading (spoken 0 boxes ws)) (spoken 0 boxes ws))).
      { unfold single_line in *. rewrite <- (firstn_skipn (leading (spoken 0 boxes ws)) (spoken 0 boxes ws)) in SS. apply Forall_app in SS. apply SS. }
      destruct (skipn _ _) as [|[b c] r]; [constructor|]. inversion S' as [|? ? Sa Sb]; subst. constructor; [exact Sa|exact Sb]. }
    rewrite (render_single (SpellSpec.first_word words) l) by (exact Sl || constructor || (intros; eapply first_word_single; eassumption)). reflexivity.
Qed.
Lemma Forall2_length' {A B} (R : A -> B -> Prop) l l' : Forall2 R l l' -> List.length l = List.length l'.
Proof. induction 1; cbn; congruence. Qed.

Lemma read_taught rt gs junk z cx0 datas cx bytes img boxes ws lines dict : legal rt -> trainable gs -> is_std_sort Z.ltb z ->
  write_datas_file junk z cx0 (write_glyphs gs) = Ok (Some datas) -> image_of_bytes bytes 128 = Ok img -> box_searchable img -> segment img = Ok boxes ->
  Forall2 (word_taught gs img) boxes ws -> steady boxes -> no_lost_break (spoken 0 boxes ws) -> lines_file (labels gs) lines -> dict_file ws dict ->
  extract_text rt cx (write_glyphs gs) datas bytes lines dict = Ok (line_text boxes ws, 0, vsize boxes).
Proof.
  intros HL HT Hz ED EI Hs Eb F St NL Hl Hd.
  destruct (load_all_ok rt HL gs HT junk z Hz cx0 datas ED ws lines dict Hl Hd) as (nodes & g & infos & t & wid & fid & EL & LD & TS & TC & TG & TW).
  destruct (trainable_images gs HT) as (_ & _ & HR).
  set (e := mkrec t (rt_views rt) (rt_probs rt) (rt_zones rt) (rt_junk rt)).
  assert (Rec : forall im w, recognisable im -> taught gs im w -> (exists l, recognised e im l) /\ forall l, recognised e im l -> l <> [] /\ forall v, In v l -> ov_word v = wid w)
    by (intros im w; exact (taught_recognised rt HL z Hz gs wid fid t HR TS TC TG im w)).
  assert (HE : sound_recogniser e) by exact (rt_sound rt HL t TS).
  assert (HRb : Forall (fun b => forall im, char_image img b im -> recognisable im) boxes).
  { clear - F. induction F as [|b w boxes ws H F IH]; constructor; [|exact IH]. intros im Him. apply (H im Him). }
  assert (HCr : Forall (can_read e img) boxes).
  { clear - F Rec. induction F as [|b w boxes ws H F IH]; constructor; [|exact IH]. intros im Him. destruct (H im Him) as (R & T). split; [exact R|]. exact (proj1 (Rec im w R T)). }
  destruct (read_line_ok e img HE Hs boxes cx Eb HRb) as (RL1 & RL2). destruct (RL1 HCr) as (s & Es). destruct (RL2 s Es) as (Bx & Sp & Hli).
  destruct (boxes_small img boxes Hs Eb) as (SmB & Bn).
  pose proof (Forall2_length' _ _ _ Hli) as Ln.
  assert (F1 : Forall2 (fun r w => one_word (l_store s) r (wid w) /\ In w (labels gs)) (l_amb s) ws).
  { pose proof (proj1 HT) as Hg. clear - F Hli Rec Hg. revert ws F. induction Hli as [|b r boxes amb (Hr & im & Him & Rl) Hli IH]; intros ws F; inversion F as [|? w ? ws' Hw F']; subst; constructor; [|exact (IH ws' F')].
    destruct (Hw im Him) as (Ri & T). destruct (proj2 (Rec im w Ri T) _ Rl) as (A & B). split; [split; [exact Hr|split; [exact A|exact B]]|].
    apply (taught_label gs im); [|exact T]. intros g Ig. apply (Hg g Ig). }
  assert (F2 : forall st, Forall2 (one_word st) (l_amb s) (map wid ws) <-> Forall2 (fun r w => one_word st r (wid w)) (l_amb s) ws).
  { intros st. clear. generalize (l_amb s) as a. induction ws as [|w ws IH]; intros a; split; intros H; inversion H; subst; constructor; try assumption; apply IH; assumption. }
  assert (F3 : Forall2 (one_word (l_store s)) (l_amb s) (map wid ws)).
  { apply F2. clear - F1. induction F1 as [|r w a ws (A & _) F1 IH]; constructor; assumption. }
  destruct (fonts_uniform (l_store s) (l_amb s) (map wid ws) F3) as (st' & f & Ef & F4); [unfold vsize in *; lia|].
  assert (F5 : Forall2 (reads g wid st') (l_amb s) ws).
  { apply F2 in F4. clear - F1 F4 TW. induction F1 as [|r w a ws (_ & Hw) F1 IH]; inversion F4; subst; constructor; [|apply IH; assumption]. split; [assumption|apply TW; exact Hw]. }
  unfold extract_text. rewrite EL. cbn [bind]. rewrite EI. cbn [bind]. fold e. rewrite Es. cbn [bind]. rewrite Bx, Sp.
  rewrite (lines_uniform infos (l_store s) (l_amb s) (map wid ws) boxes F3 Ln SmB St). cbn [bind]. rewrite Ef. cbn [bind].
  rewrite (assembled g nodes st' (l_amb s) ws boxes wid F5 Ln Bn LD NL). cbn [bind]. unfold vsize. rewrite Ln. reflexivity.
Qed.
