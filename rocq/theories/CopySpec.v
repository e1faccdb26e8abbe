(** The picture files that show an image: maps of colours and maps of bits. *)
From Verif Require Import Base ImageModel ImageSpec PnmSpec ShowModel.

(** Three bytes for each pixel, whose luminance is at least [lum] for the ink only. *)
Inductive painted (lum : Z) : list pixel -> list Z -> Prop :=
| painted_nil : painted lum [] []
| painted_ink : forall r g b ps rest, lum <= luminance_of r g b -> painted lum ps rest -> painted lum (120 :: ps) (r :: g :: b :: rest)
| painted_blank : forall r g b ps rest, luminance_of r g b < lum -> painted lum ps rest -> painted lum (45 :: ps) (r :: g :: b :: rest).
Definition colour_copy (lum : Z) (img : image) (buf : list Z) : Prop :=
  exists hdr payload, header_text 54 (iw img) (ih img) hdr /\ painted lum (idata img) payload /\ buf = hdr ++ payload.

(** The byte of bits, the high one first. *)
Definition byte_of (bits : list bool) : Z := fold_left (fun c b => 2 * c + Z.b2z b) bits 0.
(** The bit of a pixel: 1 for the blank ones; those after the end of a row are any. *)
Definition bit_at (pad : Z -> Z -> bool) (img : image) (x y : Z) : bool :=
  match pix img x y with Some p => p =? 45 | None => pad x y end.
(** Each row in a whole number of bytes. *)
Definition packed (pad : Z -> Z -> bool) (img : image) : list Z :=
  flat_map (fun y => map (fun k => byte_of (map (fun j => bit_at pad img (8 * k + j) y) (zrange 8))) (zrange ((iw img + 7) / 8))) (zrange (ih img)).
Definition bit_copy (img : image) (buf : list Z) : Prop :=
  Forall (fun p => p = 45 \/ p = 120) (idata img) /\ iw img < 2147483648 /\ 9 <= Z.of_nat (List.length buf) /\
  exists hdr pad, header_text 52 (iw img) (ih img) hdr /\ buf = hdr ++ packed pad img.
(** [buf] shows [img], with the luminance [lum]. *)
Definition copy (lum : Z) (img : image) (buf : list Z) : Prop := colour_copy lum img buf \/ bit_copy img buf.

(** A file that is the same, or shows the same image. *)
Definition copied (lum : Z) (file file' : option (list Z)) : Prop :=
  file' = file \/ exists img x y, file = Some x /\ file' = Some y /\ bytes x /\ bytes y /\ wf_image img /\ 0 < iw img * ih img /\ copy lum img x /\ copy lum img y.
(** Two disks with the same texts for write_glyphs, whose pictures are copies. *)
Inductive same_lessons (lum : Z) (disk disk' : list Z -> option (list Z)) : list (list Z) -> Prop :=
| lessons_cons : forall image text font names, copied lum (disk image) (disk' image) -> disk' text = disk text -> same_lessons lum disk disk' names ->
    same_lessons lum disk disk' (image :: text :: font :: names)
| lessons_end : forall names, (List.length names < 3)%nat -> same_lessons lum disk disk' names.
