(** Everything the reading program does. *)
From Verif Require Import Base BaseProofs SortModel SortProofs ImageModel ImageSpec ImageProofs PnmModel BoxModel BoxSpec BoxProofs StratModel ZoneModel DatasModel DatasSpec DatasProofs
  UtfSpec StreamModel GlyphIoModel GlyphIoSpec DatasIoModel DatasIoSpec DatasIoProofs DictIoModel DictIoProofs TrieModel TrieSpec TrieProofs SpellModel SpellSpec
  IndexModel IndexSpec IndexProofs FloatModel RecogModel RecogSpec RankProofs RecogProofs RecogProofs2 RecogWitness GlyphsModel GlyphsSpec GlyphsProofs3 FilterModel FilterSpec FilterProofs LinesSpec LinesProofs LinesProofs2
  ExtractModel ExtractSpec ExtractProofs AssembleModel AssembleSpec AssembleProofs LearnModel LearnSpec LearnProofs LearnProofs2 LearnProofs3 LearnProofs4
  PipelineModel PipelineSpec PipelineProofs PipelineProofs2 PipelineProofs3 PipelineProofs4 ReadSpec ReadProofs ReadingSpec ReadingProofs Ocr6Proofs5.

(** * The features decide *)
Section Same.
Context (inp inp' : input) (t : table) (H : forall s v, feature inp s v <-> feature inp' s v).
Lemma candidate_same i : candidate inp t i -> candidate inp' t i.
Proof. intros (R & C). split; [exact R|]. intros s a b Hs Fa Cb. apply (C s a b Hs); [now apply H|exact Cb]. Qed.
Lemma scored_same ss i x : scored inp t ss i x -> scored inp' t ss i x.
Proof.
  intros (xs & F & E). exists xs. split; [|exact E]. clear E. induction F as [|s y ss xs (a & b & Fa & R) F IH]; constructor; [|exact IH]. exists a, b. split; [now apply H|exact R].
Qed.
Lemma plausible_same i : plausible inp t i -> plausible inp' t i.
Proof. intros P s a b Hs Fa Cb. apply (P s a b Hs); [now apply H|exact Cb]. Qed.
Lemma alike_same j : alike inp t j -> alike inp' t j.
Proof. intros (A & B). split; [intros a b Fa; apply A; now apply H|intros a b Fa; apply B; now apply H]. Qed.
Lemma divided_same j : divided inp t j -> divided inp' t j.
Proof. intros (A & B). split; [intros a b Fa; apply A; now apply H|intros a b Fa; apply B; now apply H]. Qed.
End Same.
Lemma undefined_same inp inp' t : (forall s v, feature inp s v <-> feature inp' s v) -> undefined inp t -> undefined inp' t.
Proof.
  intros H. assert (H' : forall s v, feature inp' s v <-> feature inp s v) by (intros; symmetry; apply H).
  intros (Nc & i & Ci & Pi & before & j & after & E & Na & D). split.
  - intros k (Ck & Sk). apply (Nc k). split; [exact (candidate_same _ _ _ H' k Ck)|exact (scored_same _ _ _ H' _ _ _ Sk)].
  - exists i. split; [exact (candidate_same _ _ _ H i Ci)|]. split; [exact (plausible_same _ _ _ H i Pi)|]. exists before, j, after. split; [exact E|].
    split; [intros k Hk A; exact (Na k Hk (alike_same _ _ _ H' k A))|exact (divided_same _ _ _ H j D)].
Qed.
Lemma unreadable_iff t inp : sound_input inp -> (unreadable t (in_img inp) <-> undefined inp t).
Proof.
  intros (R & E90 & Hz). split.
  - intros (inp' & (R' & E90' & Hz') & E & U). refine (undefined_same inp' inp t _ U). intros s v. unfold feature. rewrite E in *. rewrite E90 in E90'. injection E90' as E90'. rewrite <- E90'.
    rewrite (feature_any_sort (in_zsort inp') (in_zsort inp)) by assumption. reflexivity.
  - intros U. exists inp. split; [split; [exact R|split; [exact E90|exact Hz]]|]. split; [reflexivity|exact U].
Qed.

(** * The loop over the characters *)
Section Loop.
Context (e : recogniser) (img : image) (HE : sound_recogniser e) (Hs : box_searchable img).
Notation bad := (unreadable (r_table e)).
Lemma recognise_outcome im : recognisable im -> (bad im /\ forall n cx, recognise_img e n im cx = UB) \/ (~ bad im /\ exists l, recognised e im l).
Proof.
  intros R. destruct (rotate90_law im (proj1 R)) as (im90 & E90 & _). destruct HE as (HT & Hv & Hp & Hz).
  assert (SI : forall junk, sound_input (mkin junk (r_zsort e) im im90)) by (intros junk; split; [exact R|]; split; [exact E90|exact Hz]).
  pose proof (unreadable_iff (r_table e) _ (SI (fun _ => 0))) as UI. cbn [in_img] in UI.
  destruct (compute_image_exact _ _ (SI (fun _ => 0)) HT _ _ Hv Hp new_ctxs) as [(U & _)|(U & l & cx' & E & _)].
  - left. split; [now apply UI|]. intros n cx. unfold recognise_img. rewrite E90. cbn [bind].
    destruct (compute_image_exact _ _ (SI (r_junk e n)) HT _ _ Hv Hp cx) as [(_ & E)|(U' & _)]; [rewrite E; reflexivity|].
    exfalso. apply U'. apply (unreadable_iff (r_table e) _ (SI (r_junk e n))). cbn [in_img]. now apply UI.
  - right. split; [intros B; apply U, UI, B|]. exists l. exact (recognised_any e im _ _ _ _ _ R Hz E90 E).
Qed.
Lemma recognised_readable im l : recognisable im -> recognised e im l -> ~ bad im.
Proof.
  intros R Rl. destruct (recognise_outcome im R) as [(_ & U)|(N & _)]; [exfalso|exact N]. destruct (Rl (r_junk e 0) new_ctxs) as (im90 & cx' & E90 & E).
  specialize (U 0 new_ctxs). unfold recognise_img in U. rewrite E90 in U. cbn [bind] in U. rewrite E in U. discriminate.
Qed.
Definition bad_box (b : box) : Prop := exists im, char_image img b im /\ bad im.
Lemma char_step_outcome s b x : good_state e img s -> tight_box img x b -> 0 <= x -> (forall im, char_image img b im -> recognisable im) ->
  (bad_box b /\ char_step e img s b = UB) \/ (~ bad_box b /\ exists s', char_step e img s b = Ok s').
Proof.
  intros G T Hx HR. destruct (ExtractProofs.char_section img Hs x b T Hx) as (im & Es & Ci). pose proof (HR im Ci) as R.
  destruct (recognise_outcome im R) as [(B & U)|(N & l & Rl)].
  - left. split; [exists im; auto|]. unfold char_step. rewrite Es. cbn [bind]. pose proof Ci as (Wi & _). destruct G as (GC & GK & _).
    destruct (cache_find_spec im Wi (l_cache s) GC) as (o & -> & Ho). cbn [bind]. destruct o as [r|].
    + exfalso. destruct (GK im r Ho) as [_ Rr]. exact (recognised_readable im _ R Rr B).
    + rewrite U. reflexivity.
  - right. split; [intros (im' & C' & B'); rewrite (char_image_unique img b im' im C' Ci) in B'; exact (N B')|].
    apply (proj1 (char_step_ok e img HE Hs s b x G T Hx)). intros im' C'. rewrite (char_image_unique img b im' im C' Ci). split; [exact R|exists l; exact Rl].
Qed.
Lemma read_loop_outcome : forall fuel s, good_state e img s -> 0 <= l_x s <= iw img -> iw img - l_x s < Z.of_nat fuel ->
  forall rest, loop fuel (seg_body img) (l_x s, l_boxes s) = Ok (l_boxes s ++ rest) -> Forall (fun b => forall im, char_image img b im -> recognisable im) rest ->
    let m := loop fuel (fun s => cbox <- make_box_character img (l_x s) 0 (iw img) (ih img) ;;
       if box_bool cbox then s' <- char_step e img s cbox ;; Ok (inl s') else Ok (inr s)) s in
    (Exists bad_box rest /\ m = UB) \/ (~ Exists bad_box rest /\ exists s', m = Ok s').
Proof.
  cbv zeta. induction fuel as [|f IH]; intros s G Hx Hf rest Er HR; [lia|]. cbn [loop] in *.
  destruct (make_box_spec img Hs (l_x s) Hx) as (b & Eb & [(Hi & H0 & H1)|Ht]); rewrite Eb; cbn [bind seg_body] in *; rewrite Eb in Er; cbn [bind] in Er.
  - replace (box_bool b) with false in * by (unfold box_bool; rewrite H0; reflexivity).
    assert (rest = []) by (injection Er as Er; rewrite <- (app_nil_r (l_boxes s)) in Er at 1; now apply app_inv_head in Er). subst rest. right. split; [intros E; inversion E|eauto].
  - pose proof (tight_nonempty _ _ _ Ht) as Hne. apply box_bool_iff in Hne. rewrite Hne in *.
    pose proof (bs_facts img Hs) as (HW & _).
    assert (Hb : l_x s <= bx b /\ 0 < bw b /\ bx b + bw b < iw img) by (unfold tight_box in Ht; lia).
    assert (HW2 : iw img < 2147483648) by (destruct Hs as (_ & ? & ? & ?); nia).
    rewrite u32_small in Er by lia.
    destruct (segment_loop img Hs f (bx b + bw b) (l_boxes s ++ [b])) as (r & Er' & _); [lia|lia|].
    assert (Erest : rest = b :: r).
    { unfold seg_body in Er. rewrite Er' in Er. injection Er as Er. rewrite <- app_assoc in Er. apply app_inv_head in Er. symmetry. exact Er. }
    subst rest. inversion HR as [|? ? HRb HRr]; subst.
    destruct (char_step_outcome s b (l_x s) G Ht ltac:(lia) HRb) as [(B & ->)|(B & s1 & E1)].
    + left. split; [constructor; exact B|reflexivity].
    + rewrite E1. cbn [bind]. destruct (char_step_ok e img HE Hs s b (l_x s) G Ht ltac:(lia)) as [_ C2]. destruct (C2 s1 HRb E1) as (G1 & B1 & X1 & _). rewrite u32_small in X1 by lia.
      destruct (IH s1 G1 ltac:(lia) ltac:(lia) r ltac:(rewrite X1, B1; exact Er') HRr) as [(Ex & ->)|(Ex & s' & ->)].
      * left. split; [right; exact Ex|reflexivity].
      * right. split; [intros E; inversion E; subst; contradiction|eauto].
Qed.
Lemma read_line_outcome boxes cx : segment img = Ok boxes -> Forall (fun b => forall im, char_image img b im -> recognisable im) boxes ->
  (Exists bad_box boxes /\ read_line e img cx = UB) \/ (~ Exists bad_box boxes /\ exists s, read_line e img cx = Ok s).
Proof.
  intros Eb HR. unfold read_line.
  assert (G0 : good_state e img (mkls 0 [] [] [] [] [] cx)).
  { split; [split; [constructor|intros p []]|]. split; [intros k r []|]. split; [constructor|]. split; [constructor|intros k k' r []]. }
  pose proof Hs as (_ & Hw & _).
  apply (read_loop_outcome (S (Z.to_nat (iw img))) (mkls 0 [] [] [] [] [] cx) G0); cbn [l_x l_boxes]; [lia|lia|exact Eb|exact HR].
Qed.
End Loop.

(** * The filters *)
Section Filters.
Context (get : Z -> option word_infos).
Lemma sieve_sub c l : subsequence (fst (sieve c l)) l.
Proof.
  pose proof (filter_line_sieve (fun v => Ok (c (ov_word v))) c (fun v => eq_refl) l) as E.
  destruct (filter_line_sub (fun v => Ok (c (ov_word v))) c (fun v => eq_refl) l) as (l' & n & E' & S & _). rewrite E in E'. injection E' as E'. rewrite E'. exact S.
Qed.
Lemma by_base_below base : forall amb st boxes, valid st amb -> FilterProofs.below st (fst (by_base get base st amb boxes)).
Proof.
  induction amb as [|r amb IH]; intros st boxes V; [apply below_refl|]. destruct boxes as [|b boxes]; [apply below_refl|]. cbn [by_base].
  pose proof (sieve_sub (contradicted get wl_base (box_bottom b) base) (list_at st r)) as S. destruct (sieve _ _) as (l1, k). cbn [fst] in S.
  assert (B : FilterProofs.below st (upd st (Z.to_nat r) l1)) by (apply below_upd; [apply V; now left|exact S]).
  specialize (IH (upd st (Z.to_nat r) l1) boxes ltac:(intros q Hq; rewrite vsize_upd; apply V; now right)). destruct (by_base get base (upd st (Z.to_nat r) l1) amb boxes) as (st', tops). cbn [fst] in *.
  exact (below_trans _ _ _ B IH).
Qed.
Lemma by_mean_below mean : forall amb st boxes, valid st amb -> FilterProofs.below st (by_mean get mean st amb boxes).
Proof.
  induction amb as [|r amb IH]; intros st boxes V; [apply below_refl|]. destruct boxes as [|b boxes]; [apply below_refl|]. cbn [by_mean].
  eapply below_trans; [|apply IH; intros q Hq; rewrite vsize_upd; apply V; now right]. apply below_upd; [apply V; now left|apply sieve_sub].
Qed.
Lemma outcome_below st amb boxes m : valid st amb -> lines_outcome get st amb boxes m -> m = UB \/ exists st', m = Ok st' /\ FilterProofs.below st st'.
Proof.
  intros V. assert (G : forall base tops st1 mean, by_base get base st amb boxes = (st1, tops) -> FilterProofs.below st st1 /\ FilterProofs.below st (by_mean get mean st1 amb boxes)).
  { intros base tops st1 mean E. pose proof (by_base_below base amb st boxes V) as B. rewrite E in B. cbn [fst] in B. split; [exact B|].
    eapply below_trans; [exact B|]. apply by_mean_below. intros q Hq. destruct B as [-> _]. now apply V. }
  destruct boxes as [|b boxes]; cbn [lines_outcome]; [intros ->; right; exists st; split; [reflexivity|apply below_refl]|]. destruct boxes as [|b2 boxes].
  - destruct (_ && _); [now left|]. destruct (by_base get (box_bottom b) st amb [b]) as (st1, tops) eqn:E. intros ->. right. destruct (G _ _ _ (box_top b) E) as (B1 & B2). destruct tops; eauto.
  - destruct (_ <=? _); [now left|]. intros (base & _ & H). destruct (by_base get base st amb (b :: b2 :: boxes)) as (st1, tops) eqn:E. destruct (existsb _ tops); [now left|].
    destruct tops as [|t0 tops]; [right; exists st1; split; [exact H|apply (G _ _ _ 0 E)]|]. destruct H as (mean & _ & ->). right. eexists. split; [reflexivity|]. apply (G _ _ _ mean E).
Qed.
End Filters.

Lemma outcome_labels inp t l v : outcome inp t l -> In v l -> exists row, In row (t_glyphs t) /\ In v row.
Proof.
  intros (ranked & -> & D) Hv. unfold labels_of in Hv. apply in_flat_map in Hv as (p & Hp & Hv).
  assert (C : candidate inp t (pr_i p)) by (destruct D as [(_ & RK)|(_ & RK)]; destruct (rk_kept _ _ _ _ RK p Hp) as (Cp & _); apply Cp).
  destruct C as (Hi & _). eexists. split; [|exact Hv]. apply nth_In. unfold rows in Hi. lia.
Qed.

Lemma read_outcome rt gs junk z cx0 datas cx bytes img boxes file ls dict spell : legal rt -> trainable gs -> is_std_sort Z.ltb z ->
  write_datas_file junk z cx0 (write_glyphs gs) = Ok (Some datas) -> image_of_bytes bytes 128 = Ok img -> box_searchable img -> segment img = Ok boxes ->
  Forall (small_character img) boxes -> lines_text (labels gs) file ls -> dict_spell (labels gs) dict spell ->
  reading_outcome gs ls img boxes spell (extract_text rt cx (write_glyphs gs) datas bytes file dict).
Proof.
  intros HL HT Hz ED EI Hs Eb HRb Hl Hd.
  destruct (load_all_exact rt HL gs HT junk z Hz cx0 datas ED (labels gs) file ls dict Hl (spell_file _ _ _ Hd)) as (nodes & g & infos & t & wid & fid & get & EL & TO & TC & TW & Hget & LG).
  pose proof (tf_sound _ _ _ _ TO) as TS. pose proof (tf_labels _ _ _ _ TO) as TG.
  destruct (load_all_dict _ _ _ _ _ _ _ _ _ EL) as (En & _).
  set (e := mkrec t (rt_views rt) (rt_probs rt) (rt_zones rt) (rt_junk rt)).
  assert (HE : sound_recogniser e) by exact (rt_sound rt HL t TS).
  exists wid, fid, (text_of_word g), t, get. split; [exact TO|]. split; [intros w Hw; unfold text_of_word; rewrite (TW w Hw); reflexivity|]. split; [exact LG|].
  unfold extract_text. rewrite EL. cbn [bind]. rewrite EI. cbn [bind]. fold e.
  destruct (read_line_outcome e img HE Hs boxes cx Eb HRb) as [(Bad & ->)|(Good & s & Es)].
  { left. split; [|reflexivity]. apply Exists_exists in Bad as (b & Hb & im & Ci & U). exists b, im. auto. }
  right. split; [intros b im Hb Ci U; apply Good, Exists_exists; exists b; split; [exact Hb|]; exists im; split; [exact Ci|exact U]|].
  destruct (read_line_ok e img HE Hs boxes cx Eb HRb) as (_ & RL2). destruct (RL2 s Es) as (Bx & Sp & Hli).
  pose proof (read_line_shared e img HE Hs boxes cx s Eb HRb Es) as Sh.
  destruct (boxes_small img boxes Hs Eb) as (SmB & Bn).
  pose proof (Forall2_length' _ _ _ Hli) as Ln.
  assert (V : valid (l_store s) (l_amb s)).
  { clear - Hli. intros r Hr. induction Hli as [|b a boxes amb (H & _) Hli IH]; [destruct Hr|]. destruct Hr as [<-|Hr]; [exact H|exact (IH Hr)]. }
  assert (Ba : vsize (l_amb s) < 2147483648).
  { destruct (segment_order img Hs) as (boxes' & Eb' & _ & Lb & _). assert (boxes' = boxes) by congruence. subst boxes'. pose proof Hs as (_ & Wd0 & Hd0 & Ar0).
    assert (iw img <= iw img * ih img) by nia. unfold vsize in *. lia. }
  assert (Cand : forall b r, In b boxes -> has_list e img (l_store s) b r -> 0 <= r < vsize (l_store s) /\ forall im, char_image img b im -> candidates_of t im (list_at (l_store s) r)).
  { intros b r Hb (Hr & im & Him & Rl). split; [exact Hr|]. intros im' Him'. rewrite (char_image_unique img b im' im Him' Him).
    rewrite Forall_forall in HRb. pose proof (HRb b Hb im Him) as Ri. destruct (Rl (fun _ => 0) new_ctxs) as (i90 & cx' & E90 & Ec).
    cbn [r_sortv r_sortp r_table r_zsort] in Ec. exists (mkin (fun _ => 0) (rt_zones rt) im i90).
    pose proof (inp_sound rt HL (fun _ => 0) im i90 Ri E90) as HI. split; [exact HI|]. split; [reflexivity|].
    destruct (rt_sound rt HL t TS) as (_ & Sv & Sp' & _). cbn [r_sortv r_sortp r_table] in *.
    exact (proj1 (compute_image_outcome _ t HI TS (rt_views rt) (rt_probs rt) Sv Sp' new_ctxs) _ _ Ec). }
  pose proof (filter_by_lines_outcome infos get Hget (l_store s) (l_amb s) boxes V Ln SmB Ba) as LO.
  exists (l_store s), (l_amb s), (filter_by_lines infos (l_store s) (l_amb s) boxes). split; [exact Sh|]. split.
  { clear - Cand Hli. induction Hli as [|b r boxes amb H Hli IH]; constructor; [apply Cand; [left; reflexivity|exact H]|]. apply IH. intros b' r' Hb. apply Cand. right. exact Hb. }
  split; [exact LO|]. rewrite Es. cbn [bind]. rewrite Bx, Sp.
  destruct (outcome_below get _ _ _ _ V LO) as [E1|(st1 & E1 & B1)]; rewrite E1; [reflexivity|]. cbn [bind].
  assert (V1 : valid st1 (l_amb s)) by (intros r Hr; destruct B1 as [-> _]; exact (V r Hr)).
  destruct (filter_by_font_ok st1 (l_amb s) V1 ltac:(lia)) as (st2 & f & E2 & S2 & C2).
  exists st2. split.
  { destruct C2 as [(A & _ & B)|(El & C)]; [left; split; [exact A|exact B]|right]. exists f. split; [exact El|].
    destruct C as [(D & C)|C]; [left|right; exact C]. split; [exact D|]. intros r Hr. apply C; [apply V1 in Hr; lia|exact Hr]. }
  assert (I2 : forall r, In r (l_amb s) -> incl (list_at st2 r) (list_at (l_store s) r)).
  { intros r Hr v Hv. destruct B1 as [_ B1]. apply (subsequence_incl _ _ (B1 r ltac:(apply V in Hr; lia))).
    destruct (fonts_any st1 (l_amb s) V1 ltac:(lia)) as (st' & f' & E' & _ & C'). rewrite E2 in E'. injection E' as <- <-. apply (proj1 (C' r Hr)). exact Hv. }
  assert (Wd : forall r v, In r (l_amb s) -> In v (list_at st2 r) -> exists w, In w (labels gs) /\ ov_word v = wid w).
  { intros r v Hr Hv. apply (I2 r Hr) in Hv.
    assert (Hb : exists b, In b boxes /\ has_list e img (l_store s) b r).
    { clear - Hli Hr. induction Hli as [|b a boxes amb H Hli IH]; [destruct Hr|]. destruct Hr as [<-|Hr]; [exists b; split; [left; reflexivity|exact H]|].
      destruct (IH Hr) as (b' & Hb & H'). exists b'. split; [right; exact Hb|exact H']. }
    destruct Hb as (b & Hb & HL'). destruct (Cand b r Hb HL') as (_ & Ca). destruct HL' as (_ & im & Him & _). destruct (Ca im Him) as (inp & _ & _ & O).
    destruct (outcome_labels _ _ _ _ O Hv) as (row & Ir & Iv). rewrite TG in Ir. apply in_map_iff in Ir as (g0 & <- & Ig). apply in_map_iff in Iv as (vw & <- & Ivw).
    exists (vw_word vw). split; [exact (label_in gs g0 vw Ig Ivw)|reflexivity]. }
  assert (Res : resolvable g st2 (l_amb s)).
  { intros r Hr. split; [rewrite S2; exact (V1 r Hr)|]. intros v Hv. destruct (Wd r v Hr Hv) as (w & Hw & ->). exists w. exact (TW w Hw). }
  cbv zeta. rewrite E2. cbn [bind]. rewrite u32_small by (unfold vsize in *; lia).
  pose proof (assemble_named g nodes st2 (l_amb s) boxes (labels gs) dict spell Res Ln ltac:(lia) En Hd) as Ea. cbv zeta in Ea. rewrite Ea.
  - cbn [bind]. unfold vsize. rewrite Ln. reflexivity.
  - intros r w Hr Hw. destruct (character_in g w _ Hw) as (v & Hv & Ev). destruct (Wd r v Hr Hv) as (w' & Hw' & E'). rewrite E' in Ev. unfold text_of_word in Ev. rewrite (TW w' Hw') in Ev. congruence.
Qed.
