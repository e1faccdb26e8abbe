(** What is read when other glyphs are learnt too. *)
From Verif Require Import Base ImageModel BoxModel BoxSpec StratModel ZoneModel DatasModel DatasSpec GlyphIoModel TrieModel RecogModel RecogSpec ExtractSpec PipelineSpec Ocr6Model Ocr6Spec Same6Spec Chain6Spec.
From Coq Require Import Permutation.

(** No glyph that resembles the picture in a box has another word. *)
Definition no_other_word (gs : list glyph) (img : image) (b : box) (w : list Z) : Prop :=
  forall im g v, char_image img b im -> In g gs -> resembles im (gl_img g) -> In v (gl_views g) -> vw_word v = w.
(** The same for extract_text6. *)
Definition no_other_word6 (gs : list glyph) (img : image) (b : box) (w : list Z) : Prop :=
  forall im g v, char_image img b im -> In g gs -> matches6 im (gl_img g) -> In v (gl_views g) -> vw_word v = w.

(** * The words that extract_text6 finds for a picture, from the glyphs *)
Definition first_of (g : glyph) : option (list Z) := hd_error (map vw_word (gl_views g)).
(** A glyph resembles the picture by half of each complex feature. *)
Definition plausible_glyph6 z (im : image) (g : glyph) : Prop :=
  forall s a b, In s complex_strategies -> seen6 z im s a -> true6 z (gl_img g) s b -> 50 <= percentage s b a.
Definition alike_glyph6 z (im : image) (g : glyph) : Prop :=
  (forall a b, seen6 z im (mkst Zone false) a -> true6 z (gl_img g) (mkst Zone false) b -> 50 <= percentage (mkst Zone false) b a) /\
  (forall a b, seen6 z im (mkst ProportionalityZone false) (VVec a) -> true6 z (gl_img g) (mkst ProportionalityZone false) (VVec b) ->
     exists v, pz_compute b a = Ok v /\ 50 <= v).
(** None of the others has its first word, or one of those that have it is alike. *)
Definition backed6 z (im : image) (g : glyph) (others : list glyph) : Prop :=
  (forall h, In h others -> first_of h <> first_of g) \/ exists h, In h others /\ first_of h = first_of g /\ alike_glyph6 z im h.
Definition retained_glyph6 z (gs : list glyph) (im : image) (g : glyph) : Prop :=
  near6 z im g /\ plausible_glyph6 z im g /\ exists others, Permutation gs (g :: others) /\ backed6 z im g others.
(** The words of the glyphs with the same tenths; if there is none, of those retained;
    and if there is none, the word of the unknown characters. *)
Definition words_found6 z (gs : list glyph) (im : image) (ws : list (list Z)) : Prop :=
  ((exists g, In g gs /\ same6 z im g) /\ forall w, In w ws <-> exists g, In g gs /\ same6 z im g /\ In w (map vw_word (gl_views g))) \/
  ((forall g, In g gs -> ~ same6 z im g) /\
   ((exists g, retained_glyph6 z gs im g) /\ (forall w, In w ws <-> exists g, retained_glyph6 z gs im g /\ In w (map vw_word (gl_views g))) \/
    (forall g, ~ retained_glyph6 z gs im g) /\ ws = [unknown])).

(** The glyphs [hs] are far from a picture, and their first words are not those of the
    glyphs of [gs] that are near it. *)
Definition unrelated6 z (gs hs : list glyph) (im : image) : Prop :=
  forall h, In h hs -> ~ near6 z im h /\ forall g, In g gs -> near6 z im g -> first_of h <> first_of g.
