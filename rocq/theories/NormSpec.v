(** Normalised glyph lists. *)
From Verif Require Import Base SortModel ImageModel ImageSpec GlyphIoModel TrieSpec.
From Coq Require Import Sorted.

(** The glyphs are in strictly increasing order of their images. *)
Definition increasing_images (gs : list glyph) : Prop := StronglySorted (fun a b => picture_before (gl_img a) (gl_img b)) gs.
Definition labelled (gs : list glyph) (img : image) (v : view) : Prop := exists g, In g gs /\ gl_img g = img /\ In v (gl_views g).
Definition has_image (gs : list glyph) (img : image) : Prop := exists g, In g gs /\ gl_img g = img.
(** The labels of a glyph in strictly increasing order, hence distinct. *)
Definition label_before (a b : view) : Prop :=
  lex_lt (vw_word a) (vw_word b) \/
  (vw_word a = vw_word b /\ (lex_lt (vw_font a) (vw_font b) \/ (vw_font a = vw_font b /\ vw_line a < vw_line b))).
Definition increasing_views (l : list view) : Prop := StronglySorted label_before l.
(** An image that several glyphs have. *)
Definition image_dec (a b : image) : {a = b} + {a <> b}.
Proof. decide equality; try apply Z.eq_dec. apply list_eq_dec, Z.eq_dec. Defined.
Definition repeated (gs : list glyph) (img : image) : Prop :=
  (2 <= List.length (filter (fun g => if image_dec (gl_img g) img then true else false) gs))%nat.
(** All the images that are repeated are after [img]. *)
Definition early (gs : list glyph) (img : image) : Prop := forall i, repeated gs i -> picture_before img i.
