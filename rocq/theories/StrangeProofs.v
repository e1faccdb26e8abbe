(** Characters that no glyph is near are unknown. *)
From Verif Require Import Base BaseProofs SortModel SortProofs ImageModel ImageSpec PnmModel BoxModel BoxSpec StratModel ZoneModel DatasModel DatasSpec StreamModel GlyphIoModel GlyphIoSpec
  DatasIoModel DictIoModel TrieModel TrieSpec TrieProofs IndexModel FloatModel RecogModel RecogSpec ExtractModel ExtractSpec ExtractProofs AssembleSpec LearnModel LearnSpec PipelineModel PipelineSpec
  ReadSpec ReadProofs BoxProofs LearnProofs Ocr6Model Ocr6Spec Ocr6Proofs Ocr6Proofs2 Ocr6Proofs3 Ocr6Proofs4 Ocr6Proofs5 OcrProofs Ocr8Model Ocr8Spec Ocr8Proofs Ocr8Proofs2 Ocr8Proofs3 Ocr8Proofs4 OcrOutcome OcrOutcome2 StrangeSpec.

Notation nothing6 := (mkf6 unknown_word unknown_word [] unknown_word [unknown_word]).
Lemma head_in words P ks w : enumerates words P ks -> head_word words ks w -> exists k, P k.
Proof. intros En (k & ks' & l & -> & _). exists k. apply (en_kept _ _ _ En). now left. Qed.

Lemma strange_fs rec img x before boxes fs amb : line6 rec img x before boxes fs amb -> Forall (fun f => f = nothing6) fs ->
  strange_line img x before boxes amb /\ spaced f6_r1 fs = marks boxes /\ spaced f6_r2 fs = marks boxes.
Proof.
  induction 1 as [x before|x before b boxes f fs l amb im Ci Rf Hl L IH]; intros F; [repeat constructor|]. inversion F as [|? ? Ef F']; subst.
  destruct (IH F') as (S & E1 & E2). split; [apply (sl_char img x before b boxes l amb im Ci); [exact Hl|exact S]|].
  unfold spaced, marks in *. cbn [flat_map]. now rewrite E1, E2.
Qed.
Lemma each_nothing img boxes fs : Forall2 (fun b f => forall im, char_image img b im -> f = nothing6) boxes fs ->
  Forall2 (fun b (f : found6) => exists im, char_image img b im) boxes fs -> Forall (fun f => f = nothing6) fs.
Proof. induction 1 as [|b f boxes fs Hf H IH]; intros I; inversion I as [|? ? ? ? (im & Ci) I']; subst; constructor; [now apply (Hf im)|auto]. Qed.
Lemma line_pictures rec img x before boxes fs amb : line6 rec img x before boxes fs amb -> Forall2 (fun b (f : found6) => exists im, char_image img b im) boxes fs.
Proof. induction 1; constructor; eauto. Qed.

Theorem strange_read6 rt gs junk z cx0 datas bytes img boxes dict spell : legal6 rt -> trainable6 gs -> is_std_sort Z.ltb z ->
  write_datas_file junk z cx0 (write_glyphs gs) = Ok (Some datas) -> image_of_bytes bytes 128 = Ok img -> box_searchable img -> segment img = Ok boxes ->
  Forall (small_character img) boxes -> dict_spell (labels gs) dict spell -> Forall (strange6 z gs img) boxes ->
  exists amb, strange_line img 0 [] boxes amb /\ extract_text6 rt (write_glyphs gs) datas bytes dict = Ok (marks boxes, marks boxes, text6 spell amb).
Proof.
  intros HL HT Hz ED EI Hs Eb Sm Hd St. destruct (read6_outcome rt gs junk z cx0 datas bytes img boxes dict spell HL HT Hz ED EI Hs Eb Sm Hd) as (e & HB & D). cbv zeta in D.
  assert (Zr : is_std_sort Z.ltb (r6_zones rt)) by apply HL. pose proof HB as (HE & _). pose proof (se_zones e HE) as Ze. rewrite Forall_forall in St.
  assert (Sx : forall im s v, seen6 (r6_zones rt) im s v -> seen6 (r6_zones (e6_rt e)) im s v) by (intros im s v; now apply true6_any).
  destruct D as [((b & im & Hb & Ci & (value & Sv & _ & i & C & _)) & _)|(_ & fs & amb & L & F & ->)].
  - exfalso. destruct (close_near z Hz gs e HB im value i (fun s Hs' => Sx im s _ (Sv s Hs')) C) as (g & Hg & _ & Ng). exact (St b Hb im g Ci Hg Ng).
  - exists amb. assert (Fn : Forall (fun f => f = nothing6) fs).
    { apply (each_nothing img boxes); [|exact (line_pictures _ _ _ _ _ _ _ L)]. clear L Eb Sm.
      revert St. induction F as [|b f bs fs' Hf F IH]; intros St; constructor.
      - intros im Ci. destruct (Hf im Ci) as (value & Sv & D). cbv zeta in D.
        assert (C : forall i, ~ close6 (e6_cols e) (Z.of_nat (List.length (e6_words e))) value i).
        { intros i C. destruct (close_near z Hz gs e HB im value i (fun s Hs' => Sx im s _ (Sv s Hs')) C) as (g & Hg & _ & Ng). exact (St b (or_introl eq_refl) im g Ci Hg Ng). }
        destruct D as [(_ & ->)|[(ks & w & En & Hw & _)|(_ & k & w & l & Ck & _)]]; [reflexivity| |destruct (C k Ck)].
        destruct (head_in _ _ _ _ En Hw) as (k & Ck & _). destruct (C k Ck).
      - apply IH. intros b' Hb'. apply St. now right. }
    destruct (strange_fs _ _ _ _ _ _ _ L Fn) as (S & E1 & E2). rewrite E1, E2. split; [exact S|reflexivity].
Qed.

Lemma different_silent img x before boxes amb ims spell : strange_line img x before boxes amb -> Forall2 (char_image img) boxes ims -> NoDup ims ->
  (forall im, In im ims -> ~ In im before) -> text6 spell amb = [].
Proof.
  intros S. revert ims. induction S as [x before|x before b boxes l amb im Ci Hl S IH]; intros ims F N D; [reflexivity|].
  inversion F as [|? im' ? ims' Ci' F']; subst. inversion N as [|? ? N1 N2]; subst. rewrite (char_image_unique img b im' im Ci' Ci) in *.
  destruct Hl as [(Hi & _)|(_ & ->)]; [destruct (D im (or_introl eq_refl) Hi)|].
  assert (E : text6 spell amb = []).
  { apply (IH ims' F' N2). intros i Hi [<-|Hb]; [exact (N1 Hi)|exact (D i (or_intror Hi) Hb)]. }
  unfold text6 in *. destruct (x + 4 <? bx b); cbn; exact E.
Qed.

Lemma segment_pictures img boxes : box_searchable img -> segment img = Ok boxes -> Forall (fun b => exists im, char_image img b im) boxes.
Proof.
  intros Hs Eb. destruct (segment_order img Hs) as (l & E & Hr & _ & F & _). assert (l = boxes) by congruence. subst l.
  rewrite Forall_forall in F |- *. intros b Hb. destruct (F b Hb) as (_ & S). destruct (read_boxes_tight _ _ _ _ Hr Hb) as (x & T). unfold tight_box in T.
  destruct (LearnProofs.char_section img b (bs_wf img Hs)) as (im & _ & Hi); [lia..|]. now exists im.
Qed.
Theorem strange_read rt gs junk z cx0 datas cx bytes img boxes lines dict spell : legal rt -> trainable gs -> is_std_sort Z.ltb z ->
  write_datas_file junk z cx0 (write_glyphs gs) = Ok (Some datas) -> image_of_bytes bytes 128 = Ok img -> box_searchable img -> segment img = Ok boxes ->
  Forall (readable_box gs img) boxes -> steady_line boxes -> lines_file (labels gs) lines -> dict_spell (labels gs) dict spell -> Forall (strange gs img) boxes ->
  let line := ReadSpec.marked 0 boxes (map (fun _ => []) boxes) in
  extract_text rt cx (write_glyphs gs) datas bytes lines dict = Ok (text_of_line spell line, unknown_of_line line, vsize boxes).
Proof.
  intros HL HT Hz ED EI Hs Eb Rd Sl Hl Hd St line. destruct (read_any rt gs junk z cx0 datas cx bytes img boxes lines dict spell HL HT Hz ED EI Hs Eb Rd Sl Hl Hd) as (cs & F & ->).
  assert (Ec : cs = map (fun _ => []) boxes); [|unfold line; now rewrite Ec]. pose proof (segment_pictures img boxes Hs Eb) as Pi.
  clear - F St Pi. induction F as [|b c bs cs Hc F IH]; [reflexivity|]. inversion St as [|? ? Sb St']; subst. inversion Pi as [|? ? (im & Ci) Pi']; subst. cbn [map]. f_equal; [|auto].
  destruct c as [|w c]; [reflexivity|exfalso]. destruct (proj1 (Hc im Ci) w (or_introl eq_refl)) as (g & v & Hg & Ng & _). exact (Sb im g Ci Hg Ng).
Qed.
Lemma silent_line x boxes spell : without_breaks x boxes ->
  text_of_line spell (ReadSpec.marked x boxes (map (fun _ => []) boxes)) = [] /\ unknown_of_line (ReadSpec.marked x boxes (map (fun _ => []) boxes)) = 0.
Proof.
  intros W. assert (A : leading (ReadSpec.marked x boxes (map (fun _ => []) boxes)) = List.length boxes /\ List.length (ReadSpec.marked x boxes (map (fun _ => []) boxes)) = List.length boxes /\
    flat_map (fun p : bool * list (list Z) => front (snd p)) (ReadSpec.marked x boxes (map (fun _ => []) boxes)) = []).
  { revert x W. induction boxes as [|b boxes IH]; intros x W; [repeat split|]. destruct W as (Hb & W). destruct (IH _ W) as (A & B & C). cbn [map ReadSpec.marked].
    replace (x + 4 <? bx b) with false by lia. cbn [leading List.length flat_map snd]. rewrite B, C. replace (separator []) with true by reflexivity. rewrite A. repeat split. }
  destruct A as (A & B & C). unfold text_of_line, unknown_of_line. rewrite A, firstn_all2, skipn_all2, C by lia. split; reflexivity.
Qed.
