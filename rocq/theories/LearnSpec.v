(** What the learning programs must produce. *)
From Verif Require Import Base ImageModel ImageSpec BoxModel BoxSpec StreamModel GlyphIoModel GlyphIoSpec ExtractSpec LearnModel.

Definition blanks (p : list Z) : Prop := forall c, In c p -> is_space c = true.
(** The words of a text: what is between its blanks. *)
Inductive text_words : list Z -> list (list Z) -> Prop :=
| tw_end p : blanks p -> text_words p []
| tw_last p w : blanks p -> plain_text w -> text_words (p ++ w) [w]
| tw_next p w c r ws : blanks p -> plain_text w -> is_space c = true -> text_words (c :: r) ws ->
    text_words (p ++ w ++ c :: r) (w :: ws).

(** The glyph of a box: its picture labelled with a word and a font. *)
Definition glyph_for (img : image) (font : list Z) (b : box) (w : list Z) (g : glyph) : Prop :=
  char_image img b (gl_img g) /\ gl_views g = [mkview w font 4294967295].
(** The glyphs of the first boxes, as many as there are words or boxes. *)
Inductive glyphs_for (img : image) (font : list Z) : list box -> list (list Z) -> list glyph -> Prop :=
| gf_no_box ws : glyphs_for img font [] ws []
| gf_no_word boxes : glyphs_for img font boxes [] []
| gf_next b boxes w ws g gs : glyph_for img font b w g -> glyphs_for img font boxes ws gs ->
    glyphs_for img font (b :: boxes) (w :: ws) (g :: gs).
Definition learning_end {A B} (boxes : list A) (words : list B) : learn_end :=
  match Nat.compare (List.length boxes) (List.length words) with Eq => Learnt | Gt => NoDefinition | Lt => NoBox end.

(** The lines of a file of words; the last one may have no end. *)
Definition text_lines (text : list Z) (ls : list (list Z)) : Prop :=
  exists full tail, text = flat_map (fun l => l ++ [10]) full ++ tail /\ (forall l, In l (tail :: full) -> ~ In 10 l) /\
    ls = full ++ match tail with [] => [] | _ => [tail] end.
