(** The files that write_datas and normalize_glyphs are given. *)
From Verif Require Import Base ImageModel GlyphIoModel GlyphIoSpec.

Definition blank (c : Z) : Prop := c = 32 \/ 9 <= c <= 13.
(** After blanks, [u], which does not start as a number. *)
Definition stray (t u : list Z) : Prop :=
  exists p c r, t = p ++ u /\ Forall blank p /\ u = c :: r /\ ~ blank c /\ ~ 48 <= c <= 57 /\ c <> 43 /\ c <> 45.
(** A file of glyphs, and one with something else after them. *)
Definition glyph_file (file : option (list Z)) (gs : list glyph) : Prop :=
  exists t, file = Some (write_glyphs gs ++ t) /\ Forall storable gs /\ Forall blank t.
Definition spoilt_file (file : option (list Z)) (gs : list glyph) (u : list Z) : Prop :=
  exists t, file = Some (write_glyphs gs ++ t) /\ Forall storable gs /\ stray t u.
