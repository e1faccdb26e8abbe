(** The assertions of the code on images, relationships and the groups of
    extract_text6.  They are compiled out of the default (release) build; with
    a debug build the program stops at the first one that is false.  A function
    [.._asserts] gives the values of the assertions that a call evaluates, in
    order. *)
From Verif Require Import Base ImageModel BoxModel StratModel ShowModel Ocr6Model.

(** image/image.hpp 57 and 68: operator[] and data(idx). *)
Definition assert_index (img : image) (x y : Z) : bool := to_size_t img x y <? u32 (iw img * ih img).
(** image/image.hpp 150: HorizontalRange. *)
Definition assert_range (img : image) (x y : Z) : bool := to_size_t img x y <=? u32 (iw img * ih img).
(** image/image.cpp 47-48: Image::section. *)
Definition assert_section (img : image) (x y w h : Z) : bool :=
  bounds_contains (iw img, ih img) (x, y) && (u32 (w + x) <=? iw img) && (u32 (h + y) <=? ih img).

(** make_box_character.cpp 50 and 82. *)
Definition make_box_asserts (img : image) (ix iy bndw bndh : Z) : res (list bool) :=
  '(x, _) <- find_column img ix iy bndw bndh ;;
  Ok [assert_index img ix iy; assert_index img x iy].
(** main/write_glyphs.cpp 66-84, main/extract_text6.cpp 800-840,
    main/extract_text8.cpp 700-740: the search of the boxes, each one cut out of
    the image. *)
Definition segment_asserts (img : image) : res (list bool) :=
  loop (S (Z.to_nat (iw img)))
    (fun '(x, out) =>
       a <- make_box_asserts img x 0 (iw img) (ih img) ;;
       cbox <- make_box_character img x 0 (iw img) (ih img) ;;
       if box_bool cbox
       then Ok (inl (u32 (bx cbox + bw cbox), out ++ a ++ [assert_section img (bx cbox) (by_ cbox) (bw cbox) (bh cbox)]))
       else Ok (inr (out ++ a)))
    (0, []).
(** image/image.cpp 71-74: clone. *)
Definition clone_asserts (img : image) : list bool := [assert_section img 0 0 (iw img) (ih img)].

(** utils/horizontal_direction.hpp 46, utils/horizontal_gravity.hpp 70,
    utils/diagonal_vertical_direction.hpp 67 and 96,
    utils/diagonal_vertical_gravity.hpp 54 and 84: the middle row. *)
Definition middle_asserts (img : image) : list bool := [assert_index img 0 (ih img / 2)].
(** zone.cpp 31-32: the corners. *)
Definition corner_asserts (img : image) : list bool :=
  [assert_index img 0 0; assert_index img (u32 (iw img - 1)) (u32 (ih img - 1))].
(** alternations.cpp 53-72: the ranges. *)
Definition alternation_asserts (img img90 : image) : list bool :=
  let h := ih img in
  let h9 := ih img90 in
  (if h <? 2 then [] else [assert_range img 0 ((h - 2) / 3)]) ++
  [assert_range img 0 (u32 (u32 (h * 2) - 1) / 3); assert_range img 0 0; assert_range img 0 (h - h / 3);
   assert_range img90 0 (u32 (h9 - 1) / 2); assert_range img90 0 (h9 - h9 / 3); assert_range img90 0 0].

(** utils/relationship.hpp 34. *)
Definition relation_assert (a b interval : Z) : res bool :=
  d <- compute_relationship a b interval ;; Ok (d <=? 100).

(** main/extract_text6.cpp 348: the last group ends at the last glyph. *)
Definition groups_assert (interval : Z) (col : list Z) : res bool :=
  nb <- count_near interval col ;;
  shift <- count_below interval col ;;
  Ok (u32 (last shift 0 + last nb 0) =? Z.of_nat (List.length col)).
