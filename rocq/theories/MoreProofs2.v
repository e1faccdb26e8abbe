From Verif Require Import Base BaseProofs SortModel ImageModel ImageSpec PnmModel BoxModel BoxSpec StratModel StratSpec ZoneModel DatasModel DatasSpec DatasProofs TrieModel StreamModel GlyphIoModel DatasIoModel DictIoModel IndexModel FloatModel FloatSpec
  FloatProofs RecogModel RecogSpec RecogProofs ExtractSpec LearnModel LearnSpec PipelineModel PipelineSpec PipelineProofs4 ReadSpec Ocr6Model Ocr6Spec Ocr6Proofs Ocr6Proofs2 OcrProofs Ocr6Proofs3 Ocr6Proofs4 Ocr6Proofs5
  OcrOutSpec Same6Spec SameProofs4 SameProofs6 Chain6Spec Chain6Proofs MoreSpec MoreProofs.
From Coq Require Import Sorted SpecFloat Permutation.

(** * What is found when the glyphs leave no choice *)
Definition found_by z (gs : list glyph) (im : image) (f : found6) : Prop :=
  (exists g w l, In g gs /\ same6 z im g /\ words_of6 g = w :: l /\ f = mkf6 w w (w :: l) w (w :: l)) \/
  ((forall g, In g gs -> ~ same6 z im g) /\ exists g w l, In g gs /\ near6 z im g /\ words_of6 g = w :: l /\
     ((forall h, ~ retained_glyph6 z gs im h) /\ f = mkf6 w unknown [] w [unknown] \/ (exists h, retained_glyph6 z gs im h) /\ f = mkf6 w w (w :: l) w (w :: l))) \/
  ((forall g, In g gs -> ~ near6 z im g) /\ f = mkf6 unknown unknown [] unknown [unknown]).

Lemma decided_found z gs e im f n : is_std_sort Z.ltb z -> built6 z gs e -> recognisable im -> decided6 z gs im -> recognise6 e n im = Ok f -> found_by z gs im f.
Proof.
  intros Hz HB R D Ef. pose proof HB as (HE & _). destruct (recognise6_exact e n im HE R) as (O & _). destruct (O f Ef) as (value & Sv & X). cbv zeta in X.
  pose proof (decided_glyphs z Hz gs e HB im value Sv D) as (D1 & D2).
  assert (NC : (forall i, ~ certain6 (e6_cols e) (Z.of_nat (List.length (e6_words e))) value i) -> forall g, In g gs -> ~ same6 z im g).
  { intros H g Hg Sg. destruct (certain_from z Hz gs e HB im value Sv g Hg Sg) as (i & _ & Ci). exact (H i Ci). }
  destruct X as [(No & ->)|[(ks & w & En & H & ->)|(Nc & k & w & l & Ck & Ek & X)]].
  - right. right. split; [|reflexivity]. intros g Hg Ng. destruct (glyph_row z gs e HB g Hg) as (i & Hi & _ & Cg). exact (No i (near_row z Hz gs e HB im value Sv i g Hi Cg Ng)).
  - left. destruct (head_first _ _ _ H) as (Ne & k & l & Ik & Lk). pose proof (en_kept _ _ _ En k Ik) as Ck. destruct (certain_row6 z Hz gs e HB im value Sv k Ck) as (g & Hg & Lg & Sg).
    exists g, w, l. split; [exact Hg|]. split; [exact Sg|]. split; [congruence|]. rewrite (enumerates_one _ _ _ (w :: l) En Ne); [reflexivity|]. intros i Ci. rewrite <- Lk. now apply D1.
  - right. left. split; [now apply NC|]. destruct (close_glyph z Hz gs e HB im value Sv k Ck) as (g & Hg & Lg & Ng & _). exists g, w, l. split; [exact Hg|]. split; [exact Ng|]. split; [congruence|].
    destruct X as [(Nr & ->)|(ks & w2 & En & H & ->)].
    + left. split; [|reflexivity]. intros h Rh. destruct (retained_from z Hz gs e HB im value Sv h Rh) as (i & _ & Ri). exact (Nr i Ri).
    + right. destruct (head_first _ _ _ H) as (Ne & j & l' & Ij & Lj). pose proof (en_kept _ _ _ En j Ij) as Rj.
      assert (A : forall i, retained6 (r6_zones (e6_rt e)) im (e6_cols e) (e6_words e) value i -> labels6 (e6_words e) i = w :: l) by (intros i Ri; rewrite <- Ek; apply D2; [exact Nc|exact (proj1 Ri)|exact Ck]).
      split; [destruct (retained_row z Hz gs e HB im value Sv j Rj) as (h & _ & _ & Rh); now exists h|].
      rewrite (enumerates_one _ _ _ (w :: l) En Ne A). rewrite (A j Rj) in Lj. injection Lj as <- _. reflexivity.
Qed.
Lemma found_by_same z gs hs gs' im f f' : Permutation gs' (gs ++ hs) -> unrelated6 z gs hs im -> decided6 z gs im -> found_by z gs im f -> found_by z gs' im f' -> f = f'.
Proof.
  intros P U (D1 & D2) F F'.
  assert (In1 : forall g, In g gs -> In g gs') by (apply (more_in gs hs gs' P)).
  assert (Nr : forall g, In g gs' -> near6 z im g -> In g gs) by (exact (more_near z gs hs gs' im P U)).
  assert (Rt : forall g, retained_glyph6 z gs im g <-> retained_glyph6 z gs' im g) by (exact (unrelated_retained z gs hs gs' im P U)).
  destruct F as [(g & w & l & Hg & Sg & Wg & ->)|[(Ns & g & w & l & Hg & Ng & Wg & F)|(N0 & ->)]];
    destruct F' as [(g' & w' & l' & Hg' & Sg' & Wg' & ->)|[(Ns' & g' & w' & l' & Hg' & Ng' & Wg' & F')|(N0' & ->)]].
  - assert (E : words_of6 g = words_of6 g') by (apply D1; try assumption; apply Nr; [exact Hg'|now apply same_near]). rewrite Wg, Wg' in E. injection E as <- <-. reflexivity.
  - destruct (Ns' g (In1 g Hg) Sg).
  - destruct (N0' g (In1 g Hg) (same_near z im g Sg)).
  - destruct (Ns g'); [|exact Sg']. apply Nr; [exact Hg'|now apply same_near].
  - assert (E : words_of6 g = words_of6 g') by (apply D2; try assumption; now apply Nr). rewrite Wg, Wg' in E. injection E as <- <-.
    destruct F as [(A & ->)|((h & A) & ->)], F' as [(A' & ->)|((h' & A') & ->)].
    + reflexivity.
    + destruct (A h'). now apply Rt.
    + destruct (A' h). now apply Rt.
    + reflexivity.
  - destruct (N0' g (In1 g Hg) Ng).
  - destruct (N0 g'); [|now apply same_near]. apply Nr; [exact Hg'|now apply same_near].
  - destruct (N0 g'); [now apply Nr|exact Ng'].
  - reflexivity.
Qed.
Lemma unrelated_decided z gs hs gs' im : Permutation gs' (gs ++ hs) -> unrelated6 z gs hs im -> decided6 z gs im -> decided6 z gs' im.
Proof.
  intros P U (D1 & D2). pose proof (more_near z gs hs gs' im P U) as Nr. split.
  - intros g h Hg Hh Sg Sh. apply D1; try assumption; (apply Nr; [assumption|now apply same_near]).
  - intros Ns g h Hg Hh Ng Nh. apply D2; try assumption; [|now apply Nr|now apply Nr]. intros k Hk. apply Ns. exact (more_in gs hs gs' P k Hk).
Qed.
Lemma readable_found z gs e im n : is_std_sort Z.ltb z -> trainable6 gs -> built6 z gs e -> recognisable im -> comparable_glyphs z gs im \/ (exists g, In g gs /\ same6 z im g) -> exists f, recognise6 e n im = Ok f.
Proof.
  intros Hz HT HB R D. pose proof HB as (HE & _). destruct (recognise6_all e n im HE R) as (_ & Ex & _). apply Ex. destruct D as [D|(g & Hg & Sg)].
  - left. exact (comparable_rows z Hz gs HT e HB im D).
  - right. destruct (same_identified z Hz gs e HB im g Hg Sg) as (i & Hi & _). eauto.
Qed.
Lemma comparable_more z gs hs gs' im : Permutation gs' (gs ++ hs) -> comparable_glyphs z gs' im -> comparable_glyphs z gs im.
Proof. intros P C g a b Hg. apply C. exact (more_in gs hs gs' P g Hg). Qed.
Lemma recognise6_more z z' gs hs gs' e e' n n' im : is_std_sort Z.ltb z -> is_std_sort Z.ltb z' -> trainable6 gs -> trainable6 gs' -> Permutation gs' (gs ++ hs) -> built6 z gs e -> built6 z gs' e' -> recognisable im ->
  comparable_glyphs z gs' im \/ (exists g, In g gs /\ same6 z im g) -> unrelated6 z gs hs im -> decided6 z gs im -> recognise6 e n im = recognise6 e' n' im.
Proof.
  intros Hz Hz' HT HT' P HB HB' R D U Dc.
  destruct (readable_found z gs e im n Hz HT HB R) as (f & Ef); [destruct D as [D|D]; [left; exact (comparable_more z gs hs gs' im P D)|now right]|].
  destruct (readable_found z gs' e' im n' Hz HT' HB' R) as (f' & Ef'); [destruct D as [D|(g & Hg & Sg)]; [now left|right; exists g; split; [exact (more_in gs hs gs' P g Hg)|exact Sg]]|].
  rewrite Ef, Ef'. f_equal. apply (found_by_same z gs hs gs' im f f' P U Dc).
  - exact (decided_found z gs e im f n Hz HB R Dc Ef).
  - exact (decided_found z gs' e' im f' n' Hz HB' R (unrelated_decided z gs hs gs' im P U Dc) Ef').
Qed.

(** * The programs *)
Theorem extract_text6_more rt rt' gs hs gs' junk junk' z cx0 cx0' datas datas' bytes img ws dict : legal6 rt -> legal6 rt' -> trainable6 gs -> trainable6 gs' -> Permutation gs' (gs ++ hs) -> is_std_sort Z.ltb z ->
  write_datas_file junk z cx0 (write_glyphs gs) = Ok (Some datas) -> write_datas_file junk' z cx0' (write_glyphs gs') = Ok (Some datas') -> dict_file ws dict -> image_of_bytes bytes 128 = Ok img -> box_searchable img ->
  (forall boxes b im, segment img = Ok boxes -> In b boxes -> char_image img b im ->
     recognisable im /\ (comparable_glyphs z gs' im \/ exists g, In g gs /\ same6 z im g) /\ unrelated6 z gs hs im /\ decided6 z gs im) ->
  extract_text6 rt (write_glyphs gs) datas bytes dict = extract_text6 rt' (write_glyphs gs') datas' bytes dict.
Proof.
  intros HL HL' HT HT' P Hz ED ED' Hd EI Hs HP. destruct (load_all6_ok rt HL gs HT junk z Hz cx0 datas ED ws dict Hd) as (nodes & e & EL & En & HB & _).
  destruct (load_all6_ok rt' HL' gs' HT' junk' z Hz cx0' datas' ED' ws dict Hd) as (nodes' & e' & EL' & En' & HB' & _). rewrite En in En'. injection En' as <-.
  unfold extract_text6. rewrite EL, EL'. cbn [bind]. rewrite EI. cbn [bind]. destruct (segment_some img Hs) as (boxes & Eb).
  rewrite (read_line6_same img Hs boxes Eb (recognise6 e) (recognise6 e')); [reflexivity|].
  intros b im n Hb Ci. destruct (HP boxes b im Eb Hb Ci) as (R & D & U & Dc). exact (recognise6_more z z gs hs gs' e e' n n im Hz Hz HT HT' P HB HB' R D U Dc).
Qed.

Theorem read_taught6 rt gs junk z cx0 datas bytes img boxes ws dict spell : legal6 rt -> trainable6 gs -> is_std_sort Z.ltb z -> write_datas_file junk z cx0 (write_glyphs gs) = Ok (Some datas) ->
  image_of_bytes bytes 128 = Ok img -> box_searchable img -> segment img = Ok boxes -> Forall2 (fun b w => forall im, char_image img b im -> recognisable im /\ taught6 gs im w) boxes ws ->
  dict_spell (labels gs) dict spell -> extract_text6 rt (write_glyphs gs) datas bytes dict = Ok (words_line ws, words_line ws, text6 spell (heard6 0 boxes ws)).
Proof.
  intros HL HT Hz ED EI Hs Eb F Hd.
  assert (HV : forall g, In g gs -> gl_views g <> []) by (intros g Hg; destruct HT as (HG & _); apply (HG g Hg)).
  assert (Rb : Forall (readable6 z gs img) boxes).
  { clear - F. induction F as [|b w boxes ws H F IH]; constructor; [|exact IH]. intros im Him. destruct (H im Him) as (R & (g & Hg & M) & _). split; [exact R|]. right. exists g. split; [exact Hg|now apply matches_same]. }
  destruct (read6 rt gs junk z cx0 datas bytes img boxes dict spell HL HT Hz ED EI Hs Eb Rb Hd) as (e & fs & amb & HB & L & _ & ->).
  destruct (line_sure z Hz gs HV e HB img 0 [] boxes fs amb L ws F) as (-> & ->). rewrite !spaced_sure by reflexivity. reflexivity.
Qed.

Lemma still_taught gs gs' img boxes ws : incl gs gs' -> Forall2 (word_taught gs img) boxes ws -> Forall2 (no_other_word gs' img) boxes ws -> Forall2 (word_taught gs' img) boxes ws.
Proof.
  intros I F. induction F as [|b w boxes ws H F IH]; intros O; inversion O as [|? ? ? ? O1 O2]; subst; constructor; [|now apply IH].
  intros im Him. destruct (H im Him) as (R & (g & Hg & M) & _). split; [exact R|]. split; [exists g; split; [now apply I|exact M]|]. intros h v Hh Mh Hv. exact (O1 im h v Him Hh Mh Hv).
Qed.
Lemma still_taught6 gs gs' img boxes ws : incl gs gs' -> Forall2 (fun b w => forall im, char_image img b im -> recognisable im /\ taught6 gs im w) boxes ws -> Forall2 (no_other_word6 gs' img) boxes ws ->
  Forall2 (fun b w => forall im, char_image img b im -> recognisable im /\ taught6 gs' im w) boxes ws.
Proof.
  intros I F. induction F as [|b w boxes ws H F IH]; intros O; inversion O as [|? ? ? ? O1 O2]; subst; constructor; [|now apply IH].
  intros im Him. destruct (H im Him) as (R & (g & Hg & M) & _). split; [exact R|]. split; [exists g; split; [now apply I|exact M]|]. intros h v Hh Mh Hv. exact (O1 im h v Him Hh Mh Hv).
Qed.
Theorem text_more rt rt' gs gs' junk junk' z z' cx0 cx0' datas datas' cx cx' bytes img boxes ws lines dict : legal rt -> legal rt' -> trainable gs -> trainable gs' -> incl gs gs' -> is_std_sort Z.ltb z -> is_std_sort Z.ltb z' ->
  write_datas_file junk z cx0 (write_glyphs gs) = Ok (Some datas) -> write_datas_file junk' z' cx0' (write_glyphs gs') = Ok (Some datas') -> image_of_bytes bytes 128 = Ok img -> box_searchable img -> segment img = Ok boxes ->
  Forall2 (word_taught gs img) boxes ws -> Forall2 (no_other_word gs' img) boxes ws -> PipelineSpec.steady boxes -> no_lost_break (spoken 0 boxes ws) -> lines_file (labels gs) lines -> lines_file (labels gs') lines -> dict_file ws dict ->
  extract_text rt cx (write_glyphs gs) datas bytes lines dict = Ok (line_text boxes ws, 0, vsize boxes) /\ extract_text rt' cx' (write_glyphs gs') datas' bytes lines dict = Ok (line_text boxes ws, 0, vsize boxes).
Proof.
  intros HL HL' HT HT' I Hz Hz' ED ED' EI Hs Eb F O St NL Hl Hl' Hd. split.
  - exact (read_taught rt gs junk z cx0 datas cx bytes img boxes ws lines dict HL HT Hz ED EI Hs Eb F St NL Hl Hd).
  - exact (read_taught rt' gs' junk' z' cx0' datas' cx' bytes img boxes ws lines dict HL' HT' Hz' ED' EI Hs Eb (still_taught gs gs' img boxes ws I F O) St NL Hl' Hd).
Qed.
Theorem text_more6 rt rt' gs gs' junk junk' z z' cx0 cx0' datas datas' bytes img boxes ws dict spell : legal6 rt -> legal6 rt' -> trainable6 gs -> trainable6 gs' -> incl gs gs' -> is_std_sort Z.ltb z -> is_std_sort Z.ltb z' ->
  write_datas_file junk z cx0 (write_glyphs gs) = Ok (Some datas) -> write_datas_file junk' z' cx0' (write_glyphs gs') = Ok (Some datas') -> image_of_bytes bytes 128 = Ok img -> box_searchable img -> segment img = Ok boxes ->
  Forall2 (fun b w => forall im, char_image img b im -> recognisable im /\ taught6 gs im w) boxes ws -> Forall2 (no_other_word6 gs' img) boxes ws -> dict_spell (labels gs) dict spell -> dict_spell (labels gs') dict spell ->
  extract_text6 rt (write_glyphs gs) datas bytes dict = Ok (words_line ws, words_line ws, text6 spell (heard6 0 boxes ws)) /\
  extract_text6 rt' (write_glyphs gs') datas' bytes dict = Ok (words_line ws, words_line ws, text6 spell (heard6 0 boxes ws)).
Proof.
  intros HL HL' HT HT' I Hz Hz' ED ED' EI Hs Eb F O Hd Hd'. split.
  - exact (read_taught6 rt gs junk z cx0 datas bytes img boxes ws dict spell HL HT Hz ED EI Hs Eb F Hd).
  - exact (read_taught6 rt' gs' junk' z' cx0' datas' bytes img boxes ws dict spell HL' HT' Hz' ED' EI Hs Eb (still_taught6 gs gs' img boxes ws I F O) Hd').
Qed.
