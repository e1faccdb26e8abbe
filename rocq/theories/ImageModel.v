(** Model of image/image.hpp, image/image.cpp, image/coordinate.hpp,
    image/pixel.hpp and utils/image_compare.cpp. *)
From Verif Require Import Base.

(** A pixel is a [char]; its value is kept as an integer.
    image/pixel.hpp 24-28: a letter pixel is 'x'; the other one made by the code is '-'. *)
Notation pixel := Z (only parsing).
Definition PIX_LETTER : pixel := 120.   (* 'x' *)
Definition is_pix_letter (p : pixel) : bool := p =? PIX_LETTER.

(** image/image.hpp 36-90: an Image is a Bounds and an owned block of pixels.
    [idata] is the list of initialised pixels from the start of the block (a
    block that is only partly initialised has fewer than w*h elements here, and
    reading beyond is UB). *)
Record image := mkimage { iw : Z; ih : Z; idata : list pixel }.

(** image/coordinate.hpp 60-62: Bounds::area, unsigned product. *)
Definition area (img : image) : Z := u32 (iw img * ih img).

(** image/image.hpp 77-80: Image::to_size_t, unsigned arithmetic. *)
Definition to_size_t (img : image) (x y : Z) : Z := u32 (u32 (y * iw img) + x).

(** image/image.hpp 53-57: Image::operator[]. *)
Definition img_at (img : image) (x y : Z) : res pixel :=
  rd (idata img) (to_size_t img x y).

(** std::copy(d, d+n, out) from cells of [src] to the fresh block [out]. *)
Fixpoint copy_n (src : list pixel) (n : nat) (d : Z) (cap : Z) (out : list pixel)
  : res (list pixel) :=
  match n with
  | O => Ok out
  | S m =>
    v <- rd src d ;;
    out' <- emit cap out v ;;
    copy_n src m (d + 1) cap out'
  end.

(** image/image.cpp 36-43: section(from, data, idx, bnd). *)
Definition section_rows (from : image) (cap x y bw bh : Z) : res (list pixel) :=
  '(_, out) <-
    for_up (Z.to_nat bh) 0
      (fun _ '(d, out) =>
         out' <- copy_n (idata from) (Z.to_nat bw) d cap out ;;
         Ok (d + iw from, out'))
      (to_size_t from x y, []) ;;
  Ok out.

(** image/image.cpp 45-52: Image::section. *)
Definition section (img : image) (x y bw bh : Z) : res image :=
  let cap := u32 (bw * bh) in
  out <- section_rows img cap x y bw bh ;;
  Ok (mkimage bw bh out).

(** image/image.cpp 58-60: the inner loop of rotate90,
    for (d = from.data() + x, e = d + from.area(); d != e; d += from.width()). *)
Definition rotate90_col (from : image) (cap x : Z) (out : list pixel)
  : res (list pixel) :=
  let e := x + area from in
  loop (S (Z.to_nat (ih from)))
    (fun '(d, out) =>
       if d =? e then Ok (inr out)
       else
         v <- rd (idata from) d ;;
         out' <- emit cap out v ;;
         Ok (inl (d + iw from, out')))
    (x, out).

(** image/image.cpp 54-62: rotate90(from, data): for (x = width; x;) { --x; ... } *)
Fixpoint rotate90_cols (from : image) (cap : Z) (x : nat) (out : list pixel)
  : res (list pixel) :=
  match x with
  | O => Ok out
  | S x' =>
    out' <- rotate90_col from cap (Z.of_nat x') out ;;
    rotate90_cols from cap x' out'
  end.

(** image/image.cpp 64-69: Image::rotate90. *)
Definition rotate90 (img : image) : res image :=
  out <- rotate90_cols img (area img) (Z.to_nat (iw img)) [] ;;
  Ok (mkimage (ih img) (iw img) out).

(** image/image.cpp 71-74: Image::clone. *)
Definition clone (img : image) : res image := section img 0 0 (iw img) (ih img).

(** std::equal(a, a+n, b), reading both arrays. *)
Fixpoint equal_n (a b : list pixel) (n : nat) (i : Z) : res bool :=
  match n with
  | O => Ok true
  | S m =>
    p <- rd a i ;;
    q <- rd b i ;;
    if p =? q then equal_n a b m (i + 1) else Ok false
  end.

(** image/image.cpp 76-81: operator==. *)
Definition image_eq (a b : image) : res bool :=
  if (iw a =? iw b) && (ih a =? ih b)
  then equal_n (idata a) (idata b) (Z.to_nat (area a)) 0
  else Ok false.

(** std::mismatch(a, a+n, b) followed by utils/image_compare.cpp 41-45:
    0 when the end is reached, else the sign of the comparison of the first
    differing pixels. *)
Fixpoint mismatch_cmp (a b : list pixel) (n : nat) (i : Z) : res Z :=
  match n with
  | O => Ok 0
  | S m =>
    p <- rd a i ;;
    q <- rd b i ;;
    if p =? q then mismatch_cmp a b m (i + 1)
    else Ok (if p <? q then -1 else 1)
  end.

(** utils/image_compare.cpp 26-46: image_compare. *)
Definition image_compare (a b : image) : res Z :=
  if iw a <? iw b then Ok (-1)
  else if iw b <? iw a then Ok 1
  else if ih a <? ih b then Ok (-1)
  else if ih b <? ih a then Ok 1
  else mismatch_cmp (idata a) (idata b) (Z.to_nat (area a)) 0.
