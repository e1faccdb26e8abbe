(** Model of main/normalize_glyphs.cpp. *)
From Verif Require Import Base SortModel ImageModel DatasModel GlyphIoModel TrieModel.

(** glyphs_loader.hpp 29-48: View and its comparisons. *)
Definition view_eqb (a b : view) : bool :=
  list_eqb (vw_word a) (vw_word b) && list_eqb (vw_font a) (vw_font b) && (vw_line a =? vw_line b).
Definition view_less (a b : view) : bool :=
  if list_ltb Z.ltb (vw_word a) (vw_word b) then true else if list_ltb Z.ltb (vw_word b) (vw_word a) then false
  else if list_ltb Z.ltb (vw_font a) (vw_font b) then true else if list_ltb Z.ltb (vw_font b) (vw_font a) then false
  else vw_line a <? vw_line b.
(** std::unique. *)
Fixpoint unique_views (l : list view) : list view :=
  match l with
  | [] => []
  | a :: l' =>
    match unique_views l' with
    | b :: r => if view_eqb a b then a :: r else a :: b :: r
    | [] => [a]
    end
  end.

(** normalize_glyphs.cpp 55: glyph_img_cmp, which std::sort calls on images whose
    pixels it may read (C04). *)
Definition glyph_less (g1 g2 : glyph) : bool := match image_compare (gl_img g1) (gl_img g2) with Ok c => c <? 0 | _ => false end.
(** std::adjacent_find with glyph_img_equal (56) from position [i], the array being
    [gs]. *)
Fixpoint adjacent (fuel : nat) (gs : list glyph) (i : Z) : res Z :=
  match fuel with
  | O => NoFuel
  | S fuel' =>
    if i =? vsize gs then Ok i
    else if i + 1 =? vsize gs then Ok (vsize gs)
    else
      a <- rd gs i ;; b <- rd gs (i + 1) ;;
      e <- image_eq (gl_img a) (gl_img b) ;;
      if e : bool then Ok i else adjacent fuel' gs (i + 1)
  end.
(** A glyph whose image and views have been moved. *)
Definition moved_from (g : glyph) : glyph := mkglyph (mkimage (iw (gl_img g)) (ih (gl_img g)) []) [].
(** normalize_glyphs.cpp 81-83: appends the views of the glyphs [i, pos). *)
Fixpoint gather (fuel : nat) (gs : list glyph) (i pos : Z) (views : list view) : res (list view) :=
  match fuel with
  | O => NoFuel
  | S fuel' => if i <? pos then g <- rd gs i ;; gather fuel' gs (i + 1) pos (views ++ gl_views g) else Ok views
  end.
(** normalize_glyphs.cpp 58-88. *)
Definition normalize (sort : list glyph -> list glyph) (sort_views : list view -> list view) (glyphs : list glyph) : res (list glyph) :=
  let gs := sort glyphs in
  let last := vsize gs in
  first <- adjacent (S (List.length gs)) gs 0 ;;
  loop (S (List.length gs))
    (fun '(gs, first, first2) =>
       if first =? last then Ok (inr (firstn (Z.to_nat first2) gs))
       else
         g <- rd gs first ;;
         pos <- partition_point (fun i => a <- rd gs i ;; c <- image_compare (gl_img g) (gl_img a) ;; Ok (negb (c <? 0))) (first + 1) last ;;
         gs <- wr gs first (moved_from g) ;;
         gs <- wr gs first2 g ;;
         views <- gather (S (List.length gs)) gs (first + 1) pos (gl_views g) ;;
         gs <- wr gs first2 (mkglyph (gl_img g) (unique_views (sort_views views))) ;;
         Ok (inl (gs, Z.max (first + 1) pos, first2 + 1)))
    (gs, first, first).
