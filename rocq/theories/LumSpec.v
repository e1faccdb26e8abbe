(** Loading the same file with two luminances. *)
From Verif Require Import Base ImageModel ImageSpec PnmSpec.

(** A map of colours. *)
Definition coloured (buf : list Z) : Prop := exists w h hdr payload, header_text 54 w h hdr /\ buf = hdr ++ payload.
(** The same sizes, and the pixels of the second are those of the first, some of the ink
    being taken away. *)
Definition less_ink (a b : image) : Prop :=
  iw b = iw a /\ ih b = ih a /\ Forall2 (fun p q => q = p \/ (p = 120 /\ q = 45)) (idata a) (idata b).
(** The luminance of a colour of the map. *)
Definition has_luminance (payload : list Z) (c : Z) : Prop :=
  exists k r g b, nth_error payload (3 * k) = Some r /\ nth_error payload (3 * k + 1) = Some g /\ nth_error payload (3 * k + 2) = Some b /\ c = luminance_of r g b.
Definition clamp (lum : Z) : Z := Z.max 0 (Z.min 256 lum).
(** The files of these names that are pictures are not maps of colours. *)
Definition plain_file (file : option (list Z)) : Prop := forall f, file = Some f -> ~ coloured f.
