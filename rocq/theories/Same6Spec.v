(** When the choices that the C++ standard leaves open cannot be seen in what
    main/extract_text6.cpp prints. *)
From Verif Require Import Base ImageModel BoxModel BoxSpec StreamModel GlyphIoModel RecogModel RecogSpec ExtractSpec Ocr6Model Ocr6Spec.

(** The words of a glyph. *)
Definition words_of6 (g : glyph) : list (list Z) := squeeze (map vw_word (gl_views g)).
(** The glyphs with the same tenths as the picture have the same words; if there is
    none, those that are near it have the same words. *)
Definition decided6 z (gs : list glyph) (im : image) : Prop :=
  (forall g h, In g gs -> In h gs -> same6 z im g -> same6 z im h -> words_of6 g = words_of6 h) /\
  ((forall g, In g gs -> ~ same6 z im g) -> forall g h, In g gs -> In h gs -> near6 z im g -> near6 z im h -> words_of6 g = words_of6 h).
(** Near glyphs with the same score have the same words. *)
Definition untied6 z (gs : list glyph) (im : image) : Prop :=
  forall g h, In g gs -> In h gs -> near6 z im g -> near6 z im h -> (same6 z im g <-> same6 z im h) -> words_of6 g = words_of6 h.
(** The pictures of a line can be read, and satisfy [P]. *)
Definition line_pictures6 z (gs : list glyph) (P : image -> Prop) (img : image) : Prop :=
  box_searchable img /\ forall boxes b, segment img = Ok boxes -> In b boxes -> readable6 z gs img b /\ forall im, char_image img b im -> P im.
