(** When the choices that the C++ standard leaves open cannot be seen in what
    main/extract_text8.cpp prints. *)
From Verif Require Import Base ImageModel BoxModel BoxSpec StratModel DatasModel StreamModel GlyphIoModel FloatModel FloatSpec RecogModel RecogSpec ExtractSpec Ocr6Model Ocr6Spec Ocr8Spec Same6Spec.

(** The score of a glyph for a picture, and what it becomes when the glyphs are reduced. *)
Definition score8 z (im : image) (g : glyph) (x : double) : Prop :=
  exists row value, (forall s, In s simple_strategies -> true6 z (gl_img g) s (VNum (row s))) /\
    (forall s, In s simple_strategies -> seen6 z im s (VNum (value s))) /\ x = product8 row value.
Definition last_score8 z (im : image) (g : glyph) (y : double) : Prop :=
  exists x a b, score8 z im g x /\ seen6 z im (mkst Alternations false) a /\ true6 z (gl_img g) (mkst Alternations false) b /\
    y = share x (percentage (mkst Alternations false) b a) 100.
(** Near glyphs with a score in common have the same words; and also, if none has the
    features of the picture, those with a last score in common. *)
Definition untied8 z (gs : list glyph) (im : image) : Prop :=
  (forall g h x, In g gs -> In h gs -> near_glyph8 z im g -> near_glyph8 z im h -> score8 z im g x -> score8 z im h x -> words_of6 g = words_of6 h) /\
  ((forall g, In g gs -> ~ same8 z im g) ->
   forall g h y, In g gs -> In h gs -> near_glyph8 z im g -> near_glyph8 z im h -> last_score8 z im g y -> last_score8 z im h y -> words_of6 g = words_of6 h).
Definition line_pictures8 z (gs : list glyph) (P : image -> Prop) (img : image) : Prop :=
  box_searchable img /\ forall boxes b, segment img = Ok boxes -> In b boxes -> readable8 z gs img b /\ forall im, char_image img b im -> P im.
