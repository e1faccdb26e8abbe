(** Characters that no glyph is near are unknown to extract_text8, whatever the glyphs. *)
From Coq Require Import Permutation.
From Verif Require Import Base BaseProofs SortModel SortProofs ImageModel ImageSpec PnmModel BoxModel BoxSpec StratModel ZoneModel DatasModel DatasSpec StreamModel GlyphIoModel GlyphIoSpec
  DatasIoModel DictIoModel TrieModel TrieSpec TrieProofs IndexModel FloatModel RecogModel RecogSpec ExtractModel ExtractSpec ExtractProofs AssembleSpec LearnModel LearnSpec PipelineModel PipelineSpec
  ReadSpec ReadProofs BoxProofs LearnProofs Ocr6Model Ocr6Spec Ocr6Proofs Ocr6Proofs2 Ocr6Proofs3 Ocr6Proofs4 Ocr6Proofs5 OcrProofs Ocr8Model Ocr8Spec Ocr8Proofs Ocr8Proofs2 Ocr8Proofs3 Ocr8Proofs4 RecogProofs UtfSpec LearnProofs2 DictIoProofs SpellProofs OcrOutcome OcrOutcome2 Ocr8Outcome StrangeSpec StrangeProofs.

Section Rows.
Context (z : list Z -> list Z) (Hz : is_std_sort Z.ltb z) (gs : list glyph) (e : env8) (HE : sound_env8 e) (HJ : joined_rows8 z gs e).
Lemma strange_row im value i : (forall s, In s simple_strategies -> seen6 (r6_zones (e8_rt e)) im s (VNum (value s))) ->
  near8 (e8_cols e) (Z.of_nat (List.length (e8_words e))) value i -> exists g, In g gs /\ near_glyph8 z im g.
Proof.
  intros Sv (Hi & Hn). destruct HJ as (Ln & Rw). pose proof (b6_zones _ _ _ _ HE) as Z1.
  destruct (nth_error gs (Z.to_nat i)) as [g|] eqn:G; [|apply nth_error_None in G; lia]. destruct (Rw _ _ G) as (Cs & _). rewrite Z2Nat.id in Cs by lia.
  exists g. split; [exact (nth_error_In _ _ G)|]. intros s a b Hs Sa Tb.
  assert (Ea : a = value s).
  { assert (Sa' : seen6 (r6_zones (e8_rt e)) im s (VNum a)) by (revert Sa; now apply true6_any). destruct (Sv s Hs) as (r & E1 & E2). destruct Sa' as (r' & E1' & E2'). assert (r' = r) by congruence. subst. congruence. }
  subst a. apply (Hn s b Hs). apply Cs; [|exact Tb]. apply simple_in_all. exact Hs.
Qed.
Lemma strange_none im value ps : (forall g, In g gs -> ~ near_glyph8 z im g) -> (forall s, In s simple_strategies -> seen6 (r6_zones (e8_rt e)) im s (VNum (value s))) ->
  found8 (e8_cols e) (Z.of_nat (List.length (e8_words e))) value ps -> ps = [].
Proof.
  intros H Sv (_ & Mem & _). destruct ps as [|p ps]; [reflexivity|exfalso].
  destruct (strange_row im value (pr_i p) Sv (proj1 (Mem _) (or_introl eq_refl))) as (g & Hg & Ng). exact (H g Hg Ng).
Qed.
Lemma strange_defined im : (forall g, In g gs -> ~ near_glyph8 z im g) -> ~ undefined8 (r6_zones (e8_rt e)) im (e8_cols e) (e8_words e).
Proof. intros H (value & ps & Sv & Fd & _ & p & Hp & _). rewrite (strange_none im value ps H Sv Fd) in Hp. destruct Hp. Qed.
Lemma strange_found im f : (forall g, In g gs -> ~ near_glyph8 z im g) -> outcome8 (r6_zones (e8_rt e)) im (e8_cols e) (e8_words e) f -> f = nothing6.
Proof.
  intros H (value & ps & Sv & Fd & D). rewrite (strange_none im value ps H Sv Fd) in D.
  destruct D as [(_ & ->)|[(ks & w & En & Hw & _)|(_ & p & w & l & [] & _)]]; [reflexivity|]. destruct (head_in _ _ _ _ En Hw) as (k & p & [] & _).
Qed.
End Rows.

Lemma strange_words img x before boxes amb l : strange_line img x before boxes amb -> In l amb -> l = [str " "] \/ l = [str "_"] \/ l = [].
Proof.
  induction 1 as [x before|x before b boxes l' amb im Ci Hl S IH]; intros Hi; [destruct Hi|]. apply in_app_iff in Hi as [Hi|[<-|Hi]]; [|destruct Hl as [(_ & ->)|(_ & ->)]; auto|auto].
  destruct (x + 4 <? bx b); [|destruct Hi]. destruct Hi as [<-|[]]. now left.
Qed.
Lemma strange_assembled img boxes amb ws dict spell nodes : strange_line img 0 [] boxes amb -> dict_spell ws dict spell -> load_optional read_dict [] dict = Ok nodes -> assemble6 nodes amb = Ok (text6 spell amb).
Proof.
  intros S Hd En. apply assemble6_exact. destruct Hd as [(-> & ->)|(sort & words & nodes' & -> & D1 & D2 & D3 & D4 & D5 & D6 & ->)].
  - cbn in En. injection En as <-. intros ps out Ne _. destruct ps; [congruence|reflexivity].
  - assert (nodes' = nodes).
    { cbn [load_optional] in En. pose proof (dict_file_round_trip nodes' (LearnProofs2.dictionary_storable sort words nodes' D1 D2 D3 D4 D5)) as Rt. congruence. }
    subst nodes'. intros ps out Ne P. destruct (disambiguous_first_single sort words ps out D1 D2 D3 D4) as (n' & X1 & X2); [|congruence].
    apply Forall_forall. intros l Hl. apply Forall_forall. intros w Hw. apply P in Hl. destruct (strange_words _ _ _ _ _ l S Hl) as [->|[->| ->]]; [destruct Hw as [<-|[]]|destruct Hw as [<-|[]]|destruct Hw].
    + exists 32. split; [unfold is_char; lia|reflexivity].
    + exists 95. split; [unfold is_char; lia|reflexivity].
Qed.

Theorem strange_outcome8 rt gs junk z cx0 datas bytes img boxes dict spell : legal8 rt -> trainable6 gs -> is_std_sort Z.ltb z ->
  write_datas_file junk z cx0 (write_glyphs gs) = Ok (Some datas) -> image_of_bytes bytes 128 = Ok img -> box_searchable img -> segment img = Ok boxes ->
  Forall (small_character img) boxes -> dict_spell (labels gs) dict spell -> Forall (strange8 z gs img) boxes ->
  exists gs' ds, Permutation gs gs' /\ ordered8 z gs' /\ NoDup ds /\ (forall j, In j ds <-> other8 z gs' j) /\
    (((List.length ds = 0%nat \/ List.length ds = 2%nat) /\
      exists amb, strange_line img 0 [] boxes amb /\ extract_text8 rt (write_glyphs gs) datas bytes dict = Ok (marks boxes, marks boxes, text6 spell amb)) \/
     ((List.length ds = 1%nat \/ (3 <= List.length ds)%nat) /\ extract_text8 rt (write_glyphs gs) datas bytes dict = UB)).
Proof.
  intros HL HT Hz ED EI Hs Eb Sm Hd St. destruct (load8_outcome rt HL gs HT junk z Hz cx0 datas ED (labels gs) dict (spell_file _ _ _ Hd)) as (gs' & ds & H1 & H2 & H3 & H4 & D).
  exists gs', ds. split; [exact H1|]. split; [exact H2|]. split; [exact H3|]. split; [exact H4|]. unfold extract_text8.
  destruct D as [(Hn & nodes & e & -> & En & HE & HJ)|(Hn & ->)]; [left|right; split; [exact Hn|reflexivity]]. split; [exact Hn|]. cbn [bind]. rewrite EI. cbn [bind].
  assert (St' : forall b im g, In b boxes -> char_image img b im -> In g gs' -> ~ near_glyph8 z im g).
  { intros b im g Hb Ci Hg. rewrite Forall_forall in St. apply (St b Hb im g Ci). apply (Permutation_in g (Permutation_sym H1) Hg). }
  pose proof (recognise8_steady e HE) as HS.
  assert (HO : forall n im, recognisable im -> (undefined8 (r6_zones (e8_rt e)) im (e8_cols e) (e8_words e) /\ recognise8 e n im = UB) \/ (~ undefined8 (r6_zones (e8_rt e)) im (e8_cols e) (e8_words e) /\ exists f, recognise8 e n im = Ok f)).
  { intros n im R. destruct (recognise8_outcome e n im HE R) as [H|(H & f & E & _)]; [now left|right; eauto]. }
  destruct (read_line6_defined _ HS _ HO img Hs boxes Eb Sm) as [((b & im & Hb & Ci & U) & _)|(_ & s & fs & -> & L & Q1 & Q2)].
  - destruct (strange_defined z Hz gs' e HE HJ im (fun g => St' b im g Hb Ci) U).
  - cbn [bind]. pose proof (line6_each _ _ (fun im f => outcome8 (r6_zones (e8_rt e)) im (e8_cols e) (e8_words e) f) _ _ _ _ _ L Sm (fun im f R Rf => proj1 (recognise8_exact e 0 im HE R) f (Rf 0))) as F.
    assert (Fn : Forall (fun f => f = nothing6) fs).
    { apply (each_nothing img boxes); [|exact (line_pictures _ _ _ _ _ _ _ L)]. clear - F St' Hz HE HJ. induction F as [|b f bs fs' Hf F IH]; constructor.
      - intros im Ci. apply (strange_found z Hz gs' e HE HJ im f); [|now apply Hf]. intros g. apply (St' b im g); [now left|exact Ci].
      - apply IH. intros b' im g Hb'. apply St'. now right. }
    destruct (strange_fs _ _ _ _ _ _ _ L Fn) as (S & E1 & E2). exists (q_amb s). split; [exact S|].
    rewrite (strange_assembled img boxes (q_amb s) (labels gs) dict spell nodes S Hd En). cbn [bind]. rewrite Q1, Q2, E1, E2. reflexivity.
Qed.
Theorem strange_alike8 rt gs junk z cx0 datas bytes img boxes dict spell : legal8 rt -> trainable6 gs -> is_std_sort Z.ltb z ->
  write_datas_file junk z cx0 (write_glyphs gs) = Ok (Some datas) -> (forall g h, In g gs -> In h gs -> ~ differ_glyphs z g h) ->
  image_of_bytes bytes 128 = Ok img -> box_searchable img -> segment img = Ok boxes -> Forall (small_character img) boxes -> dict_spell (labels gs) dict spell ->
  Forall (strange8 z gs img) boxes ->
  exists amb, strange_line img 0 [] boxes amb /\ extract_text8 rt (write_glyphs gs) datas bytes dict = Ok (marks boxes, marks boxes, text6 spell amb).
Proof.
  intros HL HT Hz ED Nd EI Hs Eb Sm Hd St. destruct (strange_outcome8 rt gs junk z cx0 datas bytes img boxes dict spell HL HT Hz ED EI Hs Eb Sm Hd St) as (gs' & ds & P & _ & _ & Ho & D).
  destruct D as [(_ & D)|(Hn & _)]; [exact D|exfalso]. destruct ds as [|j ds]; [cbn in Hn; lia|]. destruct (proj1 (Ho j) (or_introl eq_refl)) as (g & h & Hg & Hh & Df).
  apply Permutation_sym in P. exact (Nd g h (Permutation_in _ P (nth_error_In _ _ Hg)) (Permutation_in _ P (nth_error_In _ _ Hh)) Df).
Qed.
