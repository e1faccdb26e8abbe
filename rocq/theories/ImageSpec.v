(** Vocabulary for statements about images: what a well formed image is and
    what its pixels are.  Independent of the loops of the model. *)
From Verif Require Import Base ImageModel.

(** An image as the constructors of the code build it: 32-bit sizes whose
    product fits in 32 bits, and a fully initialised block of w*h pixels. *)
Definition wf_image (img : image) : Prop :=
  0 <= iw img < 4294967296 /\ 0 <= ih img < 4294967296 /\
  iw img * ih img < 4294967296 /\
  Z.of_nat (List.length (idata img)) = iw img * ih img.

(** An image as it is built for sizes of any product: the block has as many pixels as
    the product in 32 bits. *)
Definition full_image (img : image) : Prop :=
  0 <= iw img < 4294967296 /\ 0 <= ih img < 4294967296 /\
  Z.of_nat (List.length (idata img)) = (iw img * ih img) mod 4294967296.

(** The pixel at column [x] and row [y], row-major; [None] outside. *)
Definition pix (img : image) (x y : Z) : option pixel :=
  if (0 <=? x) && (x <? iw img) && (0 <=? y) && (y <? ih img)
  then nth_error (idata img) (Z.to_nat (y * iw img + x))
  else None.

(** There is ink ('x') at (x,y). *)
Definition ink (img : image) (x y : Z) : bool :=
  match pix img x y with
  | Some p => p =? 120
  | None => false
  end.

(** Two images show the same picture. *)
Definition same_picture (a b : image) : Prop :=
  iw a = iw b /\ ih a = ih b /\ forall x y, pix a x y = pix b x y.

(** All the positions (x,y) of an image. *)
Definition positions (w h : Z) : list (Z * Z) := list_prod (zrange w) (zrange h).

(** The order on images: narrower first, then lower first, then the smaller
    pixel at the first differing position of the row-major scan. *)
Definition picture_before (a b : image) : Prop :=
  iw a < iw b \/
  (iw a = iw b /\ ih a < ih b) \/
  (iw a = iw b /\ ih a = ih b /\
   exists x y p q, pix a x y = Some p /\ pix b x y = Some q /\ p < q /\
     forall x' y', y' < y \/ (y' = y /\ x' < x) -> pix a x' y' = pix b x' y').
