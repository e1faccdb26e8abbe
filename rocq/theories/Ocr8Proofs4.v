(** extract_text8: the whole program. *)
From Verif Require Import Base BaseProofs SortModel SortProofs ImageModel ImageSpec ImageProofs PnmModel BoxModel BoxSpec BoxProofs StratModel ZoneModel DatasModel DatasSpec DatasProofs UtfSpec StreamModel GlyphIoModel GlyphIoSpec GlyphIoProofs DatasIoModel DatasIoSpec DatasIoProofs DictIoModel DictIoProofs TrieModel TrieSpec TrieProofs FlatTrieProofs SpellModel SpellSpec SpellProofs UtilModel UtilProofs IndexModel IndexProofs FloatModel RecogModel RecogSpec RecogProofs GlyphsModel GlyphsProofs3 ExtractModel ExtractSpec ExtractProofs AssembleSpec LearnModel LearnSpec LearnProofs2 LearnProofs3 PipelineModel PipelineSpec PipelineProofs2 PipelineProofs4 ReadSpec ReadProofs Ocr6Model Ocr6Spec Ocr6Proofs Ocr6Proofs2 Ocr6Proofs3 Ocr6Proofs4 UtilSpec RecogProofs2 Ocr6Proofs5 OcrProofs Ocr8Model Ocr8Spec Ocr8Proofs Ocr8Proofs2 Ocr8Proofs3.
From Coq Require Import Sorted Permutation.

Section Read.
Context (z : list Z -> list Z) (Hz : is_std_sort Z.ltb z) (gs : list glyph) (HT : trainable6 gs) (e : env8) (HB : built8 z gs e).
Local Notation zr := (r6_zones (e8_rt e)).
Local Notation N := (Z.of_nat (List.length (e8_words e))).
Lemma row_glyph8 i : 0 <= i < N -> exists g, In g gs /\ labels6 (e8_words e) i = squeeze (map vw_word (gl_views g)) /\
  forall s v, In s all_strategies -> (cell6 (e8_cols e) s i v <-> true6 z (gl_img g) s v).
Proof.
  intros Hi. destruct HB as (_ & gs' & P & L & H). destruct (nth_error gs' (Z.to_nat i)) as [g|] eqn:Eg.
  - exists g. split; [eapply Permutation_in; [apply Permutation_sym; exact P|exact (nth_error_In _ _ Eg)]|]. specialize (H _ _ Eg). rewrite Z2Nat.id in H by lia. exact H.
  - apply nth_error_None in Eg. lia.
Qed.
Lemma glyph_row8 g : In g gs -> exists i, 0 <= i < N /\ labels6 (e8_words e) i = squeeze (map vw_word (gl_views g)) /\
  forall s v, In s all_strategies -> (cell6 (e8_cols e) s i v <-> true6 z (gl_img g) s v).
Proof.
  intros Hg. destruct HB as (_ & gs' & P & L & H). apply (Permutation_in _ P) in Hg. apply In_nth_error in Hg as (k & Ek). exists (Z.of_nat k). split; [|apply H; exact Ek].
  assert (k < List.length gs')%nat by (apply nth_error_Some; congruence). lia.
Qed.
Lemma seen_any8 im s v : seen6 zr im s v <-> seen6 z im s v.
Proof. destruct HB as (HE & _). pose proof (b6_zones _ _ _ _ HE) as Z1. split; apply true6_any; assumption. Qed.
Lemma near_row im value i : (forall s, In s simple_strategies -> seen6 zr im s (VNum (value s))) -> near8 (e8_cols e) N value i ->
  exists g, In g gs /\ labels6 (e8_words e) i = squeeze (map vw_word (gl_views g)) /\ near_glyph8 z im g.
Proof.
  intros Sv (Hi & C). destruct (row_glyph8 i Hi) as (g & Hg & Lb & Cg). exists g. split; [exact Hg|]. split; [exact Lb|]. intros s a b Hs Sa Tb.
  assert (Ea : a = value s).
  { specialize (Sv s Hs). apply seen_any8 in Sv. destruct Sa as (r & Er & Ea). destruct Sv as (r' & Er' & Ev). assert (r' = r) by congruence. subst r'. rewrite Ea in Ev. now injection Ev. }
  subst a. apply Cg in Tb; [|now apply simple_in_all]. exact (C s b Hs Tb).
Qed.
Lemma found_named8 im f : recognisable im -> recognised6 (recognise8 e) im f -> named8 z gs im (f6_words f).
Proof.
  intros R Rf. pose proof HB as (HE & _). destruct (recognise8_exact e 0 im HE R) as (O & _). destruct (O f (Rf 0)) as (value & ps & Sv & (_ & Mem & _) & D).
  assert (Cl : forall p, In p ps -> near8 (e8_cols e) N value (pr_i p)) by (intros p Hp; apply Mem; now apply in_map).
  assert (Lab : forall ks w, (forall k, In k ks -> near8 (e8_cols e) N value k) -> In w (flat_map (labels6 (e8_words e)) ks) -> exists g, In g gs /\ near_glyph8 z im g /\ In w (map vw_word (gl_views g))).
  { intros ks w Hk Hw. apply in_flat_map in Hw as (k & Ik & Hw). destruct (near_row im value k Sv (Hk k Ik)) as (g & Hg & Lb & Ng). exists g. rewrite Lb, squeeze_In in Hw. repeat split; assumption. }
  destruct D as [(_ & ->)|[(ks & w & En & H & ->)|(_ & p & w & l & _ & _ & _ & [(_ & ->)|(ks & w2 & En & H & ->)])]]; cbn [f6_words]; intros x Hx.
  - left. destruct Hx as [<-|[]]. reflexivity.
  - right. apply (Lab ks x); [|exact Hx]. intros k Hk. apply (en_kept _ _ _ En) in Hk. destruct Hk as (q & Hq & <- & _). now apply Cl.
  - left. destruct Hx as [<-|[]]. reflexivity.
  - right. apply (Lab ks x); [|exact Hx]. intros j Hj. apply (en_kept _ _ _ En) in Hj. destruct Hj as (q & y & Hq & <- & _). now apply Cl.
Qed.
Lemma same_identical im g : In g gs -> same8 z im g -> exists i, identical8 zr im (e8_cols e) N i /\ labels6 (e8_words e) i = squeeze (map vw_word (gl_views g)).
Proof.
  intros Hg Sg. destruct (glyph_row8 g Hg) as (i & Hi & Lb & Cg). exists i. split; [|exact Lb]. split; [exact Hi|]. intros s v Hs Cv. apply seen_any8. apply Sg; [exact Hs|]. apply Cg; [now apply simple_in_all|exact Cv].
Qed.
Lemma found_complete8 im f : recognisable im -> recognised6 (recognise8 e) im f -> complete8 z gs im (f6_words f).
Proof.
  intros R Rf g w Hg Sg Hw. pose proof HB as (HE & _). destruct (same_identical im g Hg Sg) as (i & Hi & Lb). destruct (recognise8_exact e 0 im HE R) as (O & _).
  destruct (outcome8_identical _ _ _ _ im f i HE R (O f (Rf 0)) Hi) as (_ & I). apply I. rewrite Lb. now apply squeeze_In.
Qed.
Lemma readable_can8 img b : readable8 z gs img b -> can_read6 (recognise8 e) img b.
Proof.
  intros H im Ci. destruct (H im Ci) as (R & D). pose proof HB as (HE & _). destruct (recognise8_exact e 0 im HE R) as (_ & Ex).
  destruct Ex as (f & Ef); [|exists f; eapply recognised6_of; [now apply recognise8_steady| |]; eassumption]. destruct D as [D|(g & Hg & Sg)].
  - left. intros j a b0 Sa Cb. assert (Hj : 0 <= j < N).
    { destruct Cb as (Hj & c & Hc & En). split; [exact Hj|]. destruct (b6_rows _ _ _ _ HE _ _ Hc) as (L & _). assert (Z.to_nat j < List.length c)%nat by (apply nth_error_Some; congruence). lia. }
    destruct (row_glyph8 j Hj) as (g & Hg & _ & Cg). apply Cg in Cb; [|cbv; tauto]. split.
    + assert (Rg : recognisable (gl_img g)) by (destruct HT as (HT' & _); apply (HT' g Hg)). destruct (rotate90_law (gl_img g) (proj1 Rg)) as (r & Er & _).
      destruct (pz_feature (mkin (fun _ => 0) z (gl_img g) r) (some_sound z Hz (gl_img g) r Rg Er)) as (F & l & El & Bl & _). destruct Cb as (r' & Er' & Eb). assert (r' = r) by congruence. subst r'.
      unfold feature in F. cbn [in_zsort in_img in_img90] in F. rewrite El in F. rewrite F in Eb. injection Eb as ->. exact Bl.
    + apply (D g a b0 Hg); [now apply seen_any8|exact Cb].
  - right. destruct (same_identical im g Hg Sg) as (i & Hi & _). eauto.
Qed.
End Read.

Theorem read8 rt gs junk z cx0 datas bytes img boxes dict spell : legal8 rt -> trainable6 gs -> is_std_sort Z.ltb z ->
  write_datas_file junk z cx0 (write_glyphs gs) = Ok (Some datas) -> (forall g h, In g gs -> In h gs -> ~ differ_glyphs z g h) ->
  image_of_bytes bytes 128 = Ok img -> box_searchable img -> segment img = Ok boxes ->
  Forall (readable8 z gs img) boxes -> dict_spell (labels gs) dict spell ->
  exists e fs amb, built8 z gs e /\ line6 (recognise8 e) img 0 [] boxes fs amb /\
    Forall2 (fun b f => forall im, char_image img b im -> named8 z gs im (f6_words f) /\ complete8 z gs im (f6_words f)) boxes fs /\
    extract_text8 rt (write_glyphs gs) datas bytes dict = Ok (spaced f6_r1 fs, spaced f6_r2 fs, text6 spell amb).
Proof.
  intros HL HT Hz ED HA EI Hs Eb F Hd. destruct (load8_alike rt HL gs HT junk z Hz cx0 datas ED (labels gs) dict (spell_file _ _ _ Hd) HA) as (nodes & e & EL & En & HB & _).
  pose proof HB as (HE & _). pose proof (recognise8_steady e HE) as HS.
  assert (Sm : Forall (small_character img) boxes) by (eapply Forall_impl; [|exact F]; intros b H im Him; apply (H im Him)).
  destruct (read_line6_ok _ HS img Hs boxes Eb Sm) as (R1 & R2). destruct R1 as (s & Es); [eapply Forall_impl; [|exact F]; intros b; apply readable_can8; assumption|].
  destruct (R2 s Es) as (fs & L & Q1 & Q2). exists e, fs, (q_amb s). split; [exact HB|]. split; [exact L|].
  assert (Fd : Forall2 (fun b f => forall im, char_image img b im -> named8 z gs im (f6_words f) /\ complete8 z gs im (f6_words f)) boxes fs).
  { pose proof (line6_found _ _ _ _ _ _ _ L) as F2. clear - F2 F HB Hz HT. induction F2 as [|b f boxes fs (im & Ci & Rf) F2 IH]; constructor.
    - inversion F as [|? ? Fb _]; subst. intros im' Ci'. rewrite (char_image_unique img b im' im Ci' Ci). assert (R : recognisable im) by apply (Fb im Ci). split; [eapply found_named8; eassumption|eapply found_complete8; eassumption].
    - inversion F; subst. auto. }
  split; [exact Fd|]. unfold extract_text8. rewrite EL. cbn [bind]. rewrite EI. cbn [bind]. rewrite Es. cbn [bind].
  rewrite (assemble6_exact nodes spell (q_amb s)); [cbn [bind]; rewrite Q1, Q2; reflexivity|].
  destruct Hd as [(-> & ->)|(sort & words & nodes' & -> & D1 & D2 & D3 & D4 & D5 & D6 & ->)].
  - cbn in En. injection En as <-. intros ps out Ne _. destruct ps; [congruence|reflexivity].
  - assert (nodes' = nodes).
    { cbn [load_optional] in En. pose proof (dict_file_round_trip nodes' (LearnProofs2.dictionary_storable sort words nodes' D1 D2 D3 D4 D5)) as Rt. congruence. }
    subst nodes'. intros ps out Ne P. destruct (disambiguous_first_single sort words ps out D1 D2 D3 D4) as (n' & X1 & X2); [|congruence].
    apply Forall_forall. intros l Hl. apply Forall_forall. intros w Hw. apply P in Hl. destruct (line6_words _ _ _ _ _ _ _ L l Hl) as [->|(f & Hf & El)].
    + destruct Hw as [<-|[]]. exists 32. split; [unfold is_char; lia|reflexivity].
    + assert (Hn : exists im, recognisable im /\ recognised6 (recognise8 e) im f).
      { pose proof (line6_found _ _ _ _ _ _ _ L) as F2. clear - F2 F Hf. induction F2 as [|b f' boxes fs (im & Ci & Rf) F2 IH]; [destruct Hf|]. inversion F as [|? ? Fb F']; subst. destruct Hf as [->|Hf]; [|now apply IH].
        exists im. split; [apply (Fb im Ci)|exact Rf]. }
      destruct Hn as (im & Ri & Rf). assert (Hw' : In w (f6_words f) \/ w = unknown).
      { destruct (steady_shape _ HS 0 im f Ri (Rf 0)) as (_ & _ & [A|(A & B)]); destruct El as [->| ->]; rewrite ?A in Hw; auto. destruct Hw. }
      assert (D : w = unknown \/ In w (labels gs)).
      { destruct Hw' as [Hw'|Hw']; [|now left]. destruct (found_named8 z Hz gs e HB im f Ri Rf w Hw') as [->|(g & Hg & _ & Hv)]; [now left|right]. apply in_map_iff in Hv as (v & <- & Hv). exact (label_in gs g v Hg Hv). }
      destruct D as [->|D]; [exists 95; split; [unfold is_char; lia|reflexivity]|]. rewrite Forall_forall in D6. apply D6. exact D.
Qed.
(** Whenever the tables could be built, without a dictionary. *)
Theorem read8_any rt gs junk z cx0 datas bytes img boxes nodes e : legal8 rt -> trainable6 gs -> is_std_sort Z.ltb z ->
  write_datas_file junk z cx0 (write_glyphs gs) = Ok (Some datas) -> load_all8 rt (write_glyphs gs) datas None = Ok (nodes, e) ->
  image_of_bytes bytes 128 = Ok img -> box_searchable img -> segment img = Ok boxes -> Forall (small_character img) boxes ->
  (Forall (can_read6 (recognise8 e) img) boxes -> exists out, extract_text8 rt (write_glyphs gs) datas bytes None = Ok out) /\
  forall out, extract_text8 rt (write_glyphs gs) datas bytes None = Ok out ->
    exists fs amb, line6 (recognise8 e) img 0 [] boxes fs amb /\
      Forall2 (fun b f => forall im, char_image img b im -> outcome8 (r6_zones (e8_rt e)) im (e8_cols e) (e8_words e) f) boxes fs /\
      out = (spaced f6_r1 fs, spaced f6_r2 fs, text6 (fun _ => None) amb).
Proof.
  intros HL HT Hz ED EL EI Hs Eb Sm. destruct (load8_sound rt HL gs HT junk z Hz cx0 datas ED (labels gs) None nodes e) as (HE & En & _); [now left|exact EL|].
  pose proof (recognise8_steady e HE) as HS. destruct (read_line6_ok _ HS img Hs boxes Eb Sm) as (R1 & R2). cbn in En. injection En as <-.
  assert (HX : forall amb, assemble6 [] amb = Ok (text6 (fun _ => None) amb)) by (intros amb; apply assemble6_exact; intros ps out Ne _; destruct ps; [congruence|reflexivity]).
  unfold extract_text8. rewrite EL. cbn [bind]. rewrite EI. cbn [bind]. split.
  - intros F. destruct (R1 F) as (s & Es). rewrite Es. cbn [bind]. rewrite HX. cbn [bind]. eauto.
  - intros out E. destruct (read_line6 (recognise8 e) img) as [s|x| |] eqn:Es; try discriminate. cbn [bind] in E. rewrite HX in E. cbn [bind] in E. injection E as <-.
    destruct (R2 s eq_refl) as (fs & L & -> & ->). exists fs, (q_amb s). split; [exact L|]. split; [|reflexivity].
    pose proof (line6_found _ _ _ _ _ _ _ L) as F2. clear - F2 Sm HE. induction F2 as [|b f boxes fs (im & Ci & Rf) F2 IH]; constructor.
    + inversion Sm as [|? ? Sb _]; subst. intros im' Ci'. rewrite (char_image_unique img b im' im Ci' Ci). apply (proj1 (recognise8_exact e 0 im HE (Sb im Ci))). apply Rf.
    + inversion Sm; subst. auto.
Qed.
Theorem extract8_four rt gs junk z cx0 datas ws dict bytes : legal8 rt -> trainable6 gs -> is_std_sort Z.ltb z ->
  write_datas_file junk z cx0 (write_glyphs gs) = Ok (Some datas) -> dict_file ws dict ->
  (exists a b c d, In a gs /\ In b gs /\ In c gs /\ In d gs /\ differ_glyphs z a b /\ differ_glyphs z a c /\ differ_glyphs z a d /\ differ_glyphs z b c /\ differ_glyphs z b d /\ differ_glyphs z c d) ->
  extract_text8 rt (write_glyphs gs) datas bytes dict = UB.
Proof.
  intros HL HT Hz ED Hd H4. unfold extract_text8. rewrite (load8_UB rt HL gs HT junk z Hz cx0 datas ED ws dict Hd); [reflexivity| |].
  - destruct gs as [|g [|h l]]; [destruct H4 as (a & _ & _ & _ & Ha & _); destruct Ha| |cbn; lia].
    destruct H4 as (a & b & _ & _ & Ha & Hb & _ & _ & D & _). apply (differ_features [g] HT z Hz a b Ha Hb) in D. destruct Ha as [<-|[]], Hb as [<-|[]]. now elim D.
  - intros i ds Ho Hi. right. exact (four_others gs HT z Hz H4 i ds Ho Hi).
Qed.
