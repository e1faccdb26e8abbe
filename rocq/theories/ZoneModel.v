(** Model of the zone features: strategies/utils/count_zone.hpp,
    strategies/zone.cpp and strategies/proportionality_zone.cpp. *)
From Verif Require Import Base ImageModel StratModel.

(** count_zone.hpp 32-53: Buffer<unsigned>, as the list of its cells; [junk] is
    the indeterminate content of a fresh allocation.  alloc_and_init_to_zero
    (35-43). *)
Definition alloc_zero (junk : Z -> Z) (n : Z) (buf : list Z) : list Z :=
  let b := if Z.of_nat (List.length buf) <? n then map junk (zrange (n * 2)) else buf in
  repeat 0 (Z.to_nat n) ++ skipn (Z.to_nat n) b.

(** count_zone.hpp 102-165: ZoneInfo. *)
Record zone_info := mkzi { zi_count : Z; zi_cells : list Z }.
(** count_zone.hpp 167-179: count_zone_fn. *)
Record zone_ctx := mkzc { zc_zone : zone_info; zc_buf : list Z }.
Definition new_zone_ctx : zone_ctx := mkzc (mkzi 0 []) [].

(** count_zone.hpp 106-110: ZoneInfo::alloc. *)
Definition zi_alloc (junk : Z -> Z) (count : Z) (zi : zone_info) : zone_info :=
  mkzi count (alloc_zero junk (u32 (count * 4)) (zi_cells zi)).
(** count_zone.hpp 161-164, 62-66, 95-99: cell i of view d. *)
Definition zi_offset (zi : zone_info) (d i : Z) : Z := u32 (zi_count zi * d) + i.
Definition zi_get (zi : zone_info) (d i : Z) : res Z := rd (zi_cells zi) (zi_offset zi d i).

(** count_zone.hpp 200-205: push_if; [sp] is the offset of stack_it. *)
Definition push_if (img : image) (c j : Z) (st : list Z * Z) : res (list Z * Z) :=
  let '(m, sp) := st in
  v <- rd m j ;;
  if negb (v =? 0) then Ok (m, sp)
  else
    p <- rd (idata img) j ;;
    if is_pix_letter p then Ok (m, sp)
    else
      m1 <- wr m j c ;;
      m2 <- wr m1 sp j ;;
      Ok (m2, sp + 1).

(** count_zone.hpp 197-218: the four neighbours of idx. *)
Definition visit (img : image) (c idx : Z) (st : list Z * Z) : res (list Z * Z) :=
  y <- divu idx (iw img) ;;
  let x := idx mod iw img in
  st <- (if y =? 0 then Ok st else push_if img c (u32 (idx - iw img)) st) ;;
  st <- (if u32 (y + 1) =? ih img then Ok st else push_if img c (u32 (idx + iw img)) st) ;;
  st <- (if x =? 0 then Ok st else push_if img c (u32 (idx - 1)) st) ;;
  (if u32 (x + 1) =? iw img then Ok st else push_if img c (u32 (idx + 1)) st).

(** count_zone.hpp 193-225: labelling of the zone of pixel i. *)
Definition flood (img : image) (c i : Z) (m : list Z) : res (list Z) :=
  m0 <- wr m i c ;;
  loop (S (S (Z.to_nat (area img * 2))))
    (fun '(idx, m, sp) =>
       '(m', sp') <- visit img c idx (m, sp) ;;
       if sp' =? area img then Ok (inr m')
       else
         idx' <- rd m' (sp' - 1) ;;
         Ok (inl (idx', m', sp' - 1)))
    (i, m0, area img).

(** count_zone.hpp 186-228: labelling of all the zones. *)
Definition label_zones (img : image) (m : list Z) : res (list Z * Z) :=
  for_up (Z.to_nat (area img)) 0
    (fun i '(m, c) =>
       v <- rd m i ;;
       if negb (v =? 0) then Ok (m, c)
       else
         p <- rd (idata img) i ;;
         if is_pix_letter p then Ok (m, c)
         else
           m' <- flood img c i m ;;
           Ok (m', u32 (c + 1)))
    (m, 1).

(** count_zone.hpp 232-237: insert. *)
Definition zi_insert (img : image) (m : list Z) (d x y : Z) (zi : zone_info) : res zone_info :=
  let i := to_size_t img x y in
  v <- rd m i ;;
  if v =? 0 then Ok zi
  else
    let o := zi_offset zi d (u32 (v - 1)) in
    n <- rd (zi_cells zi) o ;;
    cells <- wr (zi_cells zi) o (u32 (n + 1)) ;;
    Ok (mkzi (zi_count zi) cells).

(** count_zone.hpp 181-248: count_zone_fn::compute; d is 0 for top, 1 for
    right, 2 for bottom, 3 for left. *)
Definition count_zone_compute (junk : Z -> Z) (img : image) (ctx : zone_ctx) : res zone_ctx :=
  let m := alloc_zero junk (u32 (u32 (area img * 2) + 2)) (zc_buf ctx) in
  '(m, c) <- label_zones img m ;;
  let zi := zi_alloc junk (u32 (c - 1)) (zc_zone ctx) in
  zi <- for_up (Z.to_nat (iw img)) 0
    (fun x zi =>
       zi <- zi_insert img m 0 x 0 zi ;;
       zi_insert img m 2 x (u32 (ih img - 1)) zi) zi ;;
  zi <- for_up (Z.to_nat (ih img)) 0
    (fun y zi =>
       zi <- zi_insert img m 3 0 y zi ;;
       zi_insert img m 1 (u32 (iw img - 1)) y zi) zi ;;
  Ok (mkzc zi m).

(** count_zone.hpp 78-87: MappingZoneView::count_used_zone. *)
Definition count_used_zone (zi : zone_info) (d : Z) : res Z :=
  for_up (Z.to_nat (zi_count zi)) 0
    (fun i n => v <- zi_get zi d i ;; Ok (if v =? 0 then n else u32 (n + 1))) 0.

(** count_zone.hpp 137-150: ZoneInfo::count_total_used_zone. *)
Definition count_total_used_zone (zi : zone_info) : res Z :=
  for_up (Z.to_nat (zi_count zi)) 0
    (fun i n =>
       a <- zi_get zi 0 i ;;
       if negb (a =? 0) then Ok (u32 (n + 1)) else
       b <- zi_get zi 1 i ;;
       if negb (b =? 0) then Ok (u32 (n + 1)) else
       c <- zi_get zi 2 i ;;
       if negb (c =? 0) then Ok (u32 (n + 1)) else
       d <- zi_get zi 3 i ;;
       if negb (d =? 0) then Ok (u32 (n + 1)) else Ok n) 0.

Definition bool_u (b : bool) : Z := if b then 1 else 0.

(** zone.cpp 27-39, from the zone information of the image. *)
Definition zone_value (img : image) (zi : zone_info) : res (list Z) :=
  tl <- img_at img 0 0 ;;
  br <- img_at img (u32 (iw img - 1)) (u32 (ih img - 1)) ;;
  t <- count_used_zone zi 0 ;;
  r <- count_used_zone zi 1 ;;
  b <- count_used_zone zi 2 ;;
  l <- count_used_zone zi 3 ;;
  u <- count_total_used_zone zi ;;
  Ok [bool_u (is_pix_letter tl); bool_u (is_pix_letter br); t; r; b; l; u32 (zi_count zi - u)].

(** proportionality_zone.cpp 39-43. *)
Definition pz_value (zi : zone_info) (i : Z) : res Z :=
  t <- zi_get zi 0 i ;; if negb (t =? 0) then Ok t else
  r <- zi_get zi 1 i ;; if negb (r =? 0) then Ok r else
  b <- zi_get zi 2 i ;; if negb (b =? 0) then Ok b else
  zi_get zi 3 i.

(** proportionality_zone.cpp 37-49: total and list of the non null values; the
    vector has one cell per zone, which the iterator cannot leave. *)
Definition pz_values (zi : zone_info) : res (Z * list Z) :=
  for_up (Z.to_nat (zi_count zi)) 0
    (fun i '(total, out) =>
       v <- pz_value zi i ;;
       if v =? 0 then Ok (total, out)
       else
         out' <- emit (zi_count zi) out v ;;
         Ok (u32 (total + v), out')) (0, []).

(** proportionality_zone.cpp 53-55. *)
Fixpoint pz_percents (total : Z) (l : list Z) : res (list Z) :=
  match l with
  | [] => Ok []
  | n :: l' =>
    q <- divu (u32 (n * 100)) total ;;
    r <- pz_percents total l' ;;
    Ok (q :: r)
  end.

(** proportionality_zone.cpp 28-60, from the zone information of the image;
    [sort] stands for std::sort. *)
Definition pz_load (sort : list Z -> list Z) (zi : zone_info) : res (list Z) :=
  '(total, l) <- pz_values zi ;;
  q <- pz_percents total l ;;
  Ok (sort q).

(** proportionality_zone.cpp 70-74: the inner product. *)
Fixpoint pz_product (acc : Z) (a b : list Z) : res Z :=
  match a, b with
  | x :: a', y :: b' =>
    q <- divu (u32 (x * 100)) (u32 (x + y)) ;;
    pz_product (u32 (acc + q)) a' b'
  | _, _ => Ok acc
  end.

(** proportionality_zone.cpp 62-76. *)
Definition pz_compute (a b : list Z) : res Z :=
  if negb (Nat.eqb (List.length a) (List.length b)) then Ok 0
  else match a with
  | [] => Ok 100
  | _ =>
    s <- pz_product 0 a b ;;
    total <- divu s (Z.of_nat (List.length a)) ;;
    compute_relationship total 50 100
  end.

(** proportionality_zone.cpp 89-95. *)
Definition pz_in_dist (a b : list Z) (d : Z) : res bool :=
  v <- pz_compute a b ;; Ok (d <=? v).
