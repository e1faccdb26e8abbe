(** Model of box_char/box.hpp, box_char/make_box_character.cpp and of the
    segmentation loop of main/ocr2_extract_text.cpp. *)
From Verif Require Import Base ImageModel.

(** box_char/box.hpp 29-66. *)
Record box := mkbox { bx : Z; by_ : Z; bw : Z; bh : Z }.

(** box.hpp 48-51: bottom(), right(), left(), top(), unsigned arithmetic. *)
Definition box_bottom (b : box) : Z := u32 (by_ b + bh b - 1).
Definition box_right (b : box) : Z := u32 (bx b + bw b - 1).
Definition box_top (b : box) : Z := by_ b.

(** box.hpp 56: explicit operator bool. *)
Definition box_bool (b : box) : bool := negb (bw b =? 0) && negb (bh b =? 0).

(** box.hpp 58-59: operator== only compares the bounds. *)
Definition box_eq (a b : box) : bool := (bw a =? bw b) && (bh a =? bh b).

(** make_box_character.cpp 26-33: utils::horizontal_empty(d, w). *)
Definition horizontal_empty (data : list pixel) (d w : Z) : res bool :=
  let e := d + w in
  loop (S (Z.to_nat w))
    (fun d =>
       if d =? e then Ok (inr true)
       else
         p <- rd data d ;;
         if is_pix_letter p then Ok (inr false) else Ok (inl (d + 1)))
    d.

(** make_box_character.cpp 35-42: utils::vertical_empty(d, bnd). *)
Definition vertical_empty (data : list pixel) (d bndw bndh : Z) : res bool :=
  let e := d + u32 (bndw * bndh) in
  loop (S (Z.to_nat bndh))
    (fun d =>
       if d =? e then Ok (inr true)
       else
         p <- rd data d ;;
         if is_pix_letter p then Ok (inr false) else Ok (inl (d + bndw)))
    d.

(** make_box_character.cpp 62-73: the lambda telling that the column at [d] has
    no letter next to a letter of the following column. *)
Definition disconnected (data : list pixel) (d w h : Z) : res bool :=
  let e := d + u32 (w * h) in
  loop (S (Z.to_nat h))
    (fun d =>
       if d =? e then Ok (inr true)
       else
         p <- rd data d ;;
         if is_pix_letter p then
           a <- (if negb (d + 1 =? e) then (q <- rd data (d + 1) ;; Ok (is_pix_letter q)) else Ok false) ;;
           if a : bool then Ok (inr false) else
           b <- (if 0 <=? d - w + 1 then (q <- rd data (d - w + 1) ;; Ok (is_pix_letter q)) else Ok false) ;;
           if b : bool then Ok (inr false) else
           c <- (if d + w + 1 <? e then (q <- rd data (d + w + 1) ;; Ok (is_pix_letter q)) else Ok false) ;;
           if c : bool then Ok (inr false) else
           Ok (inl (d + w))
         else Ok (inl (d + w)))
    d.

(** make_box_character.cpp 50-56: first column holding a letter. *)
Definition find_column (img : image) (x y bndw bndh : Z) : res (Z * Z) :=
  loop (S (Z.to_nat bndw))
    (fun '(x, d) =>
       if x <? bndw then
         em <- vertical_empty (idata img) d bndw bndh ;;
         if em : bool then Ok (inl (x + 1, d + 1)) else Ok (inr (x, d))
       else Ok (inr (x, d)))
    (x, to_size_t img x y).

(** make_box_character.cpp 58-77: end column of the character. *)
Definition find_end (img : image) (x d bndw bndh : Z) : res Z :=
  loop (S (Z.to_nat bndw))
    (fun '(w, d) =>
       if u32 (w + 1) <? bndw then
         let w := u32 (w + 1) in
         dis <- disconnected (idata img) d bndw bndh ;;
         if dis : bool then Ok (inr w) else Ok (inl (w, d + 1))
       else Ok (inr w))
    (x, d).

(** make_box_character.cpp 80-88: first row with a letter. *)
Definition find_top (img : image) (x y w bndw bndh : Z) : res Z :=
  loop (S (Z.to_nat bndh))
    (fun '(y, d) =>
       if y <? bndh then
         em <- horizontal_empty (idata img) d w ;;
         if em : bool then Ok (inl (y + 1, d + bndw)) else Ok (inr y)
       else Ok (inr y))
    (y, to_size_t img x y).

(** make_box_character.cpp 90-98: last row with a letter, searched upwards. *)
Definition find_bottom (img : image) (x y w bndw bndh : Z) : res Z :=
  loop (S (Z.to_nat bndh))
    (fun '(h, d) =>
       let h := u32 (h - 1) in
       if y <? h then
         let d := d - bndw in
         em <- horizontal_empty (idata img) d w ;;
         if em : bool then Ok (inl (h, d)) else Ok (inr h)
       else Ok (inr h))
    (bndh, to_size_t img x bndh).

(** make_box_character.cpp 46-103: make_box_character(image, idx, bnd). *)
Definition make_box_character (img : image) (ix iy bndw bndh : Z) : res box :=
  '(x, d) <- find_column img ix iy bndw bndh ;;
  w <- find_end img x d bndw bndh ;;
  let w := u32 (w - x) in
  y <- find_top img x iy w bndw bndh ;;
  h <- find_bottom img x y w bndw bndh ;;
  let h := u32 (h - y) in
  Ok (mkbox x y w (u32 (h + 1))).

(** main/ocr2_extract_text.cpp 109-167 (and main/write_glyphs.cpp): the boxes
    found by repeating make_box_character from the end of the previous box. *)
Definition segment (img : image) : res (list box) :=
  loop (S (Z.to_nat (iw img)))
    (fun '(x, boxes) =>
       cbox <- make_box_character img x 0 (iw img) (ih img) ;;
       if box_bool cbox then Ok (inl (u32 (bx cbox + bw cbox), boxes ++ [cbox]))
       else Ok (inr boxes))
    (0, []).
