(** What the training programs are taught. *)
From Verif Require Import Base ImageModel GlyphIoModel GlyphIoSpec NormSpec ShowSpec ChainSpec.

(** The same pictures with the same labels, in any order and any number of times. *)
Definition same_lessons (gs gs' : list glyph) : Prop :=
  (forall img, has_image gs img <-> has_image gs' img) /\ (forall img v, labelled gs img v <-> labelled gs' img v).
(** Every glyph has its labels in order: it has one, or it was normalised. *)
Definition in_order (gs : list glyph) : Prop := Forall (fun g => increasing_views (gl_views g)) gs.
(** The arguments of write_glyphs: its options, and the names of the images, of the texts
    and of the fonts, each with as many words as characters. *)
Definition run : Type := list (list Z) * list (list Z * list Z * list Z).
Definition good_run (disk : list Z -> option (list Z)) (lum : Z) (r : run) : Prop :=
  snd r <> [] /\ luminance_args (fst r) (snd r) lum /\ forall t, In t (snd r) -> plain_text (snd t) /\ exists gs, file_glyphs disk lum t gs.
Definition learns (rs : list run) (t : list Z * list Z * list Z) : Prop := exists r, In r rs /\ In t (snd r).
