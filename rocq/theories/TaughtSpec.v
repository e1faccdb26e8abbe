(** What the glyph file says to the reading programs. *)
From Verif Require Import Base ImageModel GlyphIoModel GlyphIoSpec GlyphsSpec Ocr6Spec.

(** As many glyphs, with the same words one by one, apart from the words that are
    repeated at once; the pictures, the fonts and the numbers of lines may be any. *)
Definition same_names (g g' : glyph) : Prop := squeeze (map vw_word (gl_views g)) = squeeze (map vw_word (gl_views g')).
Definition teach_alike (gs gs' : list glyph) : Prop := Forall2 same_names gs gs'.

(** As many glyphs, with the same words and fonts one by one; the pictures and the
    numbers of lines may be any. *)
Definition same_views (g g' : glyph) : Prop :=
  map (fun v => (vw_word v, vw_font v)) (gl_views g) = map (fun v => (vw_word v, vw_font v)) (gl_views g').
Definition told_alike (gs gs' : list glyph) : Prop := Forall2 same_views gs gs'.
(** A glyph that a file can hold. *)
Definition tellable (g : glyph) : Prop :=
  storable g /\ gl_views g <> [] /\ ~ In 10 (idata (gl_img g)) /\ forall v, In v (gl_views g) -> bytes (vw_word v).
(** The glyphs with other names of fonts. *)
Definition refont (f : list Z -> list Z) (g : glyph) : glyph := mkglyph (gl_img g) (map (fun v => mkview (vw_word v) (f (vw_font v)) (vw_line v)) (gl_views g)).
(** Fonts that are different have different names. *)
Definition keeps_apart (f : list Z -> list Z) (gs : list glyph) : Prop :=
  forall g h v w, In g gs -> In h gs -> In v (gl_views g) -> In w (gl_views h) -> f (vw_font v) = f (vw_font w) -> vw_font v = vw_font w.
