(** What a glyph file can hold. *)
From Verif Require Import Base ImageModel ImageSpec StreamModel GlyphIoModel.

(** Text that stands for itself in a file of words: not empty, no white space. *)
Definition plain_text (w : list Z) : Prop :=
  w <> [] /\ forall c, In c w -> c <> 32 /\ ~ (9 <= c <= 13).

(** A glyph: a well formed image and any number of (word, font, line) labels. *)
Definition storable_view (v : view) : Prop :=
  plain_text (vw_word v) /\ plain_text (vw_font v) /\ 0 <= vw_line v < 4294967296.
Definition storable (g : glyph) : Prop :=
  wf_image (gl_img g) /\ Z.of_nat (List.length (gl_views g)) < 4294967296 /\
  Forall storable_view (gl_views g).

(** The same glyph up to the line numbers of its labels. *)
Definition same_labels (g g' : glyph) : Prop :=
  gl_img g = gl_img g' /\
  map (fun v => (vw_word v, vw_font v)) (gl_views g) = map (fun v => (vw_word v, vw_font v)) (gl_views g').

(** [q] is a strict prefix of [t]. *)
Definition strict_prefix (q t : list Z) : Prop := exists c r, t = q ++ c :: r.
