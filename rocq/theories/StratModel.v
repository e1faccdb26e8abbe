(** Model of the feature extractors of strategies/*.cpp that only scan the image
    (the zone features are in ZoneModel), and of the relationships. *)
From Verif Require Import Base ImageModel.

(** [int] arithmetic: overflow is undefined behaviour. *)
Definition i32 (z : Z) : res Z :=
  if (-2147483648 <=? z) && (z <=? 2147483647) then Ok z else UB.

(** strategies/utils/top_bottom.hpp 24. *)
Record top_bottom := mktb { tb_top : Z; tb_bottom : Z }.

(** Offset one past the last pixel, image/image.hpp: data_end(). *)
Definition data_end (img : image) : Z := area img.

(** "for (; p != ep; ++p) if (is_pix_letter( *p)) acc += inc;" as in
    horizontal_direction.hpp 46-50 and 54-58, horizontal_gravity.hpp 37-41,
    diagonal_vertical_direction.hpp 40-44, diagonal_vertical_gravity.hpp 39-43,
    density.cpp 30-34.  Result: the new accumulator (p ends at ep). *)
Definition scan (data : list pixel) (p ep inc acc : Z) : res Z :=
  loop (S (Z.to_nat (ep - p)))
    (fun '(p, acc) =>
       if p =? ep then Ok (inr acc)
       else
         v <- rd data p ;;
         Ok (inl (p + 1, if is_pix_letter v then u32 (acc + inc) else acc)))
    (p, acc).

(** horizontal_direction.hpp 40-59. *)
Definition horizontal_direction (img : image) : res top_bottom :=
  let ep := to_size_t img 0 (ih img / 2) in
  top <- scan (idata img) 0 ep 1 0 ;;
  let p := if Z.odd (ih img) then ep + iw img else ep in
  bottom <- scan (idata img) p (data_end img) 1 0 ;;
  Ok (mktb top bottom).

(** horizontal_gravity.hpp 31-51. *)
Definition horizontal_box_gravity (data : list pixel) (bndw bndh p ep : Z) (is_top : bool)
  : res Z :=
  loop (S (Z.to_nat bndh))
    (fun '(p, h, g) =>
       if p =? ep then Ok (inr g)
       else
         g' <- scan data p (p + bndw) h g ;;
         Ok (inl (p + bndw, if is_top then u32 (h - 1) else u32 (h + 1), g')))
    (p, if is_top then bndh else 1, 0).

(** horizontal_gravity.hpp 66-77. *)
Definition horizontal_gravity (img : image) : res top_bottom :=
  let k := ih img / 2 in
  let ep := to_size_t img 0 k in
  top <- horizontal_box_gravity (idata img) (iw img) k 0 ep true ;;
  let p := if Z.odd (ih img) then ep + iw img else ep in
  bottom <- horizontal_box_gravity (idata img) (iw img) k p (data_end img) false ;;
  Ok (mktb top bottom).

(** diagonal_vertical_direction.hpp 37 (also 56, 73 and
    diagonal_vertical_gravity.hpp 36, 60): the left margin. *)
Definition dv_margin (w n : Z) : res Z :=
  q <- divu w n ;; Ok (u32 (w / 2 - q / 2)).

(** A bound on the rows that the loops below go through: the number of rows, or when
    the end has wrapped around, and may be jumped over, the number of rows after which
    the divisor of the margin is null. *)
Definition row_fuel (w h : Z) : nat := S (Z.to_nat (if w * h <? 4294967296 then h else 4294967296)).

(** diagonal_vertical_direction.hpp 30-47. *)
Definition count_diagonal_vertical_direction (data : list pixel) (bndw bndh p ep : Z)
    (is_top : bool) : res Z :=
  loop (row_fuel bndw bndh)
    (fun '(p, k, d) =>
       if p =? ep then Ok (inr d)
       else
         x <- dv_margin bndw (if is_top then u32 (1 + k) else u32 (bndh - k)) ;;
         d' <- scan data (p + x) (p + bndw - x) 1 d ;;
         Ok (inl (p + bndw, u32 (k + 1), d')))
    (p, 0, 0).

(** diagonal_vertical_direction.hpp 63-77. *)
Definition diagonal_vertical_direction_area (img : image) : res Z :=
  let k := ih img / 2 in
  let ep := to_size_t img 0 k in
  a <- loop (row_fuel (iw img) k)
    (fun '(p, i, area) =>
       if p =? ep then Ok (inr area)
       else
         x <- dv_margin (iw img) (u32 (1 + i)) ;;
         Ok (inl (p + iw img, u32 (i + 1), u32 (area + (iw img - x * 2)))))
    (0, 0, 0) ;;
  Ok (u32 (a * 2)).

(** diagonal_vertical_direction.hpp 92-104. *)
Definition diagonal_vertical_direction (img : image) : res top_bottom :=
  let k := ih img / 2 in
  let ep := to_size_t img 0 k in
  top <- count_diagonal_vertical_direction (idata img) (iw img) k 0 ep true ;;
  let p := if Z.odd (ih img) then ep + iw img else ep in
  bottom <- count_diagonal_vertical_direction (idata img) (iw img) k p (data_end img) false ;;
  Ok (mktb top bottom).

(** diagonal_vertical_gravity.hpp 28-47. *)
Definition count_diagonal_vertical_gravity (data : list pixel) (bndw bndh p ep : Z)
    (is_top : bool) : res Z :=
  loop (row_fuel bndw bndh)
    (fun '(p, k, coef, g) =>
       if p =? ep then Ok (inr g)
       else
         x <- dv_margin bndw (if is_top then u32 (1 + k) else u32 (bndh - k)) ;;
         g' <- scan data (p + x) (p + bndw - x) coef g ;;
         Ok (inl (p + bndw, u32 (k + 1), if is_top then u32 (coef - 1) else u32 (coef + 1), g')))
    (p, 0, if is_top then bndh else 1, 0).

(** diagonal_vertical_gravity.hpp 50-64. *)
Definition diagonal_vertical_gravity_area (img : image) : res Z :=
  let k := ih img / 2 in
  let ep := to_size_t img 0 k in
  a <- loop (S (Z.to_nat k))
    (fun '(p, i, area) =>
       if p =? ep then Ok (inr area)
       else
         x <- dv_margin (iw img) (u32 (k - i)) ;;
         Ok (inl (p + iw img, u32 (i + 1), u32 (area + (iw img - x * 2) * (i + 1)))))
    (0, 0, 0) ;;
  Ok (u32 (a * 2)).

(** diagonal_vertical_gravity.hpp 79-92. *)
Definition diagonal_vertical_gravity (img : image) : res top_bottom :=
  let k := ih img / 2 in
  let ep := to_size_t img 0 k in
  top <- count_diagonal_vertical_gravity (idata img) (iw img) k 0 ep true ;;
  let p := if Z.odd (ih img) then ep + iw img else ep in
  bottom <- count_diagonal_vertical_gravity (idata img) (iw img) k p (data_end img) false ;;
  Ok (mktb top bottom).

(** hdirection.cpp 28-29, hgravity.cpp 28-29, dvdirection.cpp 28-29,
    dvgravity.cpp 28-29. *)
Definition balance (tb : top_bottom) : Z :=
  let sum := u32 (tb_top tb + tb_bottom tb) in
  if sum =? 0 then 100
  else u32 (u32 (sum + tb_top tb - tb_bottom tb) * 100) / sum.

(** The features built on a TopBottom run in two parts: what comes before the
    use of the context ([inl] is an early return, [inr] a denominator), and
    what is done with the value of the context.  The caching of contexts is
    modelled in DatasModel. *)
Definition tb_feature (pre : image -> res (Z + Z)) (post : Z -> top_bottom -> res Z)
    (compute : image -> res top_bottom) (img : image) : res Z :=
  r <- pre img ;;
  match r with
  | inl v => Ok v
  | inr a => tb <- compute img ;; post a tb
  end.

(** hdirection.cpp 25-30, hgravity.cpp 25-30, dvdirection.cpp 25-30,
    dvgravity.cpp 25-30. *)
Definition no_pre (img : image) : res (Z + Z) := Ok (inr 0).
Definition balance_post (a : Z) (tb : top_bottom) : res Z := Ok (balance tb).

(** hdirection2.cpp 28-32. *)
Definition hdirection2_pre (img : image) : res (Z + Z) :=
  let hby2 := ih img / 2 in
  if hby2 =? 0 then Ok (inl 50) else Ok (inr (u32 (hby2 * iw img))).
(** hgravity2.cpp 28-32. *)
Definition hgravity2_pre (img : image) : res (Z + Z) :=
  let hby2 := ih img / 2 in
  if hby2 =? 0 then Ok (inl 50) else Ok (inr (u32 ((u32 (hby2 * (hby2 + 1)) / 2) * iw img))).
(** hdirection2.cpp 33-35, hgravity2.cpp 33-35. *)
Definition share_post (a : Z) (tb : top_bottom) : res Z :=
  divu (u32 (u32 (a + tb_top tb - tb_bottom tb) * 100)) (u32 (a * 2)).

(** dvdirection2.cpp 27-30. *)
Definition dvdirection2_pre (img : image) : res (Z + Z) :=
  a <- diagonal_vertical_direction_area img ;;
  Ok (if a =? 0 then inl 50 else inr a).
(** dvgravity2.cpp 27-30. *)
Definition dvgravity2_pre (img : image) : res (Z + Z) :=
  a <- diagonal_vertical_gravity_area img ;;
  Ok (if a =? 0 then inl 50 else inr a).
(** dvdirection2.cpp 31-34 and dvgravity2.cpp 31-34. *)
Definition balance2 (tb : top_bottom) (a : Z) : res Z :=
  let sum := u32 (tb_top tb + tb_bottom tb) in
  divu (u32 (u32 (sum + tb_top tb - tb_bottom tb) * 100)) a.
Definition balance2_post (a : Z) (tb : top_bottom) : res Z := balance2 tb a.

(** The features with a fresh context. *)
Definition hdirection : image -> res Z := tb_feature no_pre balance_post horizontal_direction.
Definition hdirection2 : image -> res Z := tb_feature hdirection2_pre share_post horizontal_direction.
Definition hgravity : image -> res Z := tb_feature no_pre balance_post horizontal_gravity.
Definition hgravity2 : image -> res Z := tb_feature hgravity2_pre share_post horizontal_gravity.
Definition dvdirection : image -> res Z := tb_feature no_pre balance_post diagonal_vertical_direction.
Definition dvdirection2 : image -> res Z := tb_feature dvdirection2_pre balance2_post diagonal_vertical_direction.
Definition dvgravity : image -> res Z := tb_feature no_pre balance_post diagonal_vertical_gravity.
Definition dvgravity2 : image -> res Z := tb_feature dvgravity2_pre balance2_post diagonal_vertical_gravity.

(** density.cpp 25-36. *)
Definition density (img : image) : res Z :=
  count <- scan (idata img) 0 (data_end img) 1 0 ;;
  divu (u32 (count * 100)) (area img).

(** proportionality.cpp 25-26. *)
Definition proportionality (img : image) : res Z :=
  divu (u32 (iw img * 100)) (u32 (iw img + ih img)).

(** dzdensity.cpp 49-67 with dzdensity_load_impl 28-46 inlined.  [data] is the
    offset of the current row; the pixels from data+xs to data+xe are counted
    with std::count_if (an empty or reversed range with xs > xe would be UB).
    Signed divisions truncate towards zero (Z.quot).  The conversions of
    unsigned sizes to int are treated as UB when they do not fit. *)
Definition dzdensity (img : image) : res Z :=
  if (iw img <? 3) || (ih img <? 3) then Ok 0
  else
    a <- i32 (area img) ;;
    h3 <- i32 (u32 (ih img * 3)) ;;
    w3 <- i32 (u32 (iw img * 3)) ;;
    w <- i32 (iw img) ;;
    '(_, res, ar, _) <-
      for_up (Z.to_nat (ih img)) 0
        (fun _ '(yp, cnt, ar, data) =>
           s1 <- i32 (w3 + yp) ;;
           s2 <- i32 (s1 - a) ;;
           s3 <- i32 (s2 + h3) ;;
           s4 <- i32 (s3 - 1) ;;
           e1 <- i32 (yp + a) ;;
           let xs := Z.max 0 (Z.quot s4 h3) in
           let xe := Z.min w (Z.quot e1 h3) in
           let xs := Z.max 0 xs in
           let xe := Z.min w xe in
           if xe <? xs then UB else
           c <- scan (idata img) (data + xs) (data + xe) 1 0 ;;
           cnt' <- i32 (cnt + c) ;;
           ar' <- i32 (ar + (xe - xs)) ;;
           yp' <- i32 (yp + w3) ;;
           Ok (yp', cnt', ar', data + iw img))
        (0, 0, 0, 0) ;;
    r100 <- i32 (res * 100) ;;
    if ar =? 0 then UB else Ok (u32 (Z.quot r100 ar)).

(** alternations.hpp: alternations_type {start_contains_letter, count}. *)
Record alternation := mkalt { alt_start : bool; alt_count : Z }.

(** image.hpp 172-192: AnyPixelGet(h, step)(p). *)
Definition any_pixel (data : list pixel) (h step p : Z) : res bool :=
  let e := p + u32 (h * step) in
  loop (S (Z.to_nat h))
    (fun p =>
       if p =? e then Ok (inr false)
       else
         v <- rd data p ;;
         if is_pix_letter v then Ok (inr true) else Ok (inl (p + step)))
    p.

(** image.hpp 102-107: NormalPixelGet. *)
Definition normal_pixel (data : list pixel) (p : Z) : res bool :=
  v <- rd data p ;; Ok (is_pix_letter v).

(** image.hpp 232-241: rng::next_alternation(it, last); result: (more, it). *)
Definition next_alternation (get : Z -> res bool) (it last : Z) : res (bool * Z) :=
  x <- get it ;;
  it' <- loop (S (Z.to_nat (last - it)))
    (fun it =>
       if it =? last then Ok (inr it)
       else
         b <- get it ;;
         if Bool.eqb b x then Ok (inl (it + 1)) else Ok (inr it))
    it ;;
  Ok (negb (it' =? last), it').

(** alternations.cpp 29-43: make_alternations. *)
Definition make_alternations (get : Z -> res bool) (first w : Z) : res alternation :=
  let last := first + w in
  start <- get first ;;
  loop (S (Z.to_nat w))
    (fun '(it, count) =>
       '(more, it') <- next_alternation get it last ;;
       if more : bool then Ok (inl (it', u32 (count + 1)))
       else Ok (inr (mkalt start count)))
    (first, 1).

(** alternations.cpp 46-76: a row, and a block of rows. *)
Definition alt_row (img : image) (y : Z) : res alternation :=
  make_alternations (normal_pixel (idata img)) (to_size_t img 0 y) (iw img).
Definition alt_block (img : image) (y h : Z) : res alternation :=
  make_alternations (any_pixel (idata img) h (iw img)) (to_size_t img 0 y) (iw img).
Definition alternations (img img90 : image) : res (list alternation) :=
  let h := ih img in
  a0 <- (if h <? 2 then Ok (mkalt false 0) else alt_row img ((h - 2) / 3)) ;;
  a1 <- alt_row img (u32 (h * 2 - 1) / 3) ;;
  a2 <- alt_block img 0 (h / 3) ;;
  a3 <- alt_block img (h - h / 3) (h / 3) ;;
  let h9 := ih img90 in
  a4 <- alt_row img90 (u32 (h9 - 1) / 2) ;;
  a5 <- alt_block img90 (h9 - h9 / 3) (h9 / 3) ;;
  a6 <- alt_block img90 0 (h9 / 3) ;;
  Ok [a0; a1; a2; a3; a4; a5; a6].

(** std::all_of(p, p+w, is_pix_letter_fn()) as in hbar.cpp 33. *)
Definition all_letters (data : list pixel) (p w : Z) : res bool :=
  let e := p + w in
  loop (S (Z.to_nat w))
    (fun p =>
       if p =? e then Ok (inr true)
       else
         v <- rd data p ;;
         if is_pix_letter v then Ok (inl (p + 1)) else Ok (inr false))
    p.

(** hbar.cpp 26-44. *)
Definition hbar (img : image) : res Z :=
  let e := data_end img in
  loop (S (Z.to_nat (ih img)))
    (fun '(p, prev, n) =>
       if p =? e then Ok (inr n)
       else
         full <- all_letters (idata img) p (iw img) ;;
         if full : bool
         then Ok (inl (p + iw img, true, if prev : bool then n else u32 (n + 1)))
         else Ok (inl (p + iw img, false, n)))
    (0, false, 0).

(** utils/relationship.hpp 29-36 for unsigned values. *)
Definition compute_relationship (a b interval : Z) : res Z :=
  q <- divu (u32 ((if a <? b then b - a else a - b) * 100)) interval ;;
  Ok (u32 (100 - q)).

(** relationship/interval.hpp 34-37. *)
Definition interval_compute (interval a b : Z) : res Z := compute_relationship a b interval.
(** relationship/interval.hpp 45-48. *)
Definition interval_in_dist (a b d : Z) : bool :=
  if a <? b then u32 (a + d) <? b else u32 (b + d) <? a.
(** relationship/equal.hpp 34-48. *)
Definition equal_compute (a b : Z) : bool := a =? b.
Definition equal_in_dist (a b d : Z) : bool := a =? b.
(** relationship/array_compare.hpp 32-43, for arrays of the same size. *)
Fixpoint count_eq {T} (eqb : T -> T -> bool) (a b : list T) : Z :=
  match a, b with
  | x :: a', y :: b' => (if eqb x y then 1 else 0) + count_eq eqb a' b'
  | _, _ => 0
  end.
Definition array_compute {T} (eqb : T -> T -> bool) (a b : list T) : res Z :=
  divu (count_eq eqb a b * 100) (Z.of_nat (List.length a)).
(** relationship/array_compare.hpp 51-54. *)
Definition array_in_dist {T} (eqb : T -> T -> bool) (a b : list T) (d : Z) : res bool :=
  c <- array_compute eqb a b ;; Ok (d <=? c).
(** alternations.hpp: alternations_type::operator== and operator<. *)
Definition alt_eqb (a b : alternation) : bool :=
  Bool.eqb (alt_start a) (alt_start b) && (alt_count a =? alt_count b).
Definition alt_ltb (a b : alternation) : bool :=
  (alt_count a <? alt_count b) ||
  ((alt_count a =? alt_count b) && (negb (alt_start a) && alt_start b)).
