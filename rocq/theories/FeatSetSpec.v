(** Glyphs that have the same features. *)
From Verif Require Import Base SortModel ImageModel ImageSpec StratModel DatasModel DatasSpec GlyphIoModel.

(** The features of two pictures, each alone and with its quarter turn, are the same. *)
Definition alike (img img' : image) : Prop :=
  forall z z' r r' s, is_std_sort Z.ltb z -> is_std_sort Z.ltb z' -> rotate90 img = Ok r -> rotate90 img' = Ok r' -> In s all_strategies ->
    feature_alone z s img r = feature_alone z' s img' r'.
(** As many glyphs, alike one by one. *)
Definition alike_glyphs (gs gs' : list glyph) : Prop := Forall2 (fun g g' => alike (gl_img g) (gl_img g')) gs gs'.
