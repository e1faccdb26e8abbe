(** Model of os << x for a double x, with the flags and the precision of a new
    stream: the conversion %g of printf with the precision 6, of the C++ library.
    Used by main/extract_text6.cpp 220 and 234, main/extract_text8.cpp 209 and 218,
    main/ocr2_extract_text.cpp 190-194. *)
From Verif Require Import Base StreamModel FloatModel.
From Coq Require Import SpecFloat.

(** n / d, for d > 0, rounded to the nearest, and to even. *)
Definition div_even (n d : Z) : Z :=
  let q := n / d in
  let r := n mod d in
  if (d <? 2 * r) || ((d =? 2 * r) && Z.odd q) then q + 1 else q.
(** The exponent of n / d in base 10, for n / d >= 1 and for n / d < 1. *)
Fixpoint exponent_up (f : nat) (n d : Z) : Z :=
  match f with O => 0 | S f' => if n <? 10 * d then 0 else 1 + exponent_up f' n (10 * d) end.
Fixpoint exponent_down (f : nat) (n d : Z) : Z :=
  match f with O => 0 | S f' => if d <=? n then 0 else exponent_down f' (10 * n) d - 1 end.
Definition exponent_of (n d : Z) : Z :=
  if d <=? n then exponent_up (S (Z.to_nat (Z.log2 n))) n d else exponent_down (S (Z.to_nat (Z.log2 d))) n d.
(** The six digits, as a number, and the exponent of the conversion %e. *)
Definition six_round (n d : Z) : Z * Z :=
  let x := exponent_of n d in
  let q := if x <=? 5 then div_even (n * 10 ^ (5 - x)) d else div_even n (d * 10 ^ (x - 5)) in
  if q =? 1000000 then (100000, x + 1) else (q, x).

(** The digits without the zeros at the end. *)
Fixpoint drop_zeros (l : list Z) : list Z :=
  match l with c :: l' => if c =? 48 then drop_zeros l' else l | [] => [] end.
Definition strip_zeros (l : list Z) : list Z := rev (drop_zeros (rev l)).
(** A point before the digits, when there are some. *)
Definition pointed (l : list Z) : list Z := match l with [] => [] | _ => 46 :: l end.
Definition print_exponent (x : Z) : list Z :=
  (if x <? 0 then str "e-" else str "e+") ++ (if Z.abs x <? 10 then [48] else []) ++ print_uint (Z.abs x).
(** n / d > 0. *)
Definition print_ratio (n d : Z) : list Z :=
  let '(q, x) := six_round n d in
  let ds := print_uint q in
  if (-4 <=? x) && (x <? 6) then
    if 0 <=? x then firstn (Z.to_nat (x + 1)) ds ++ pointed (strip_zeros (skipn (Z.to_nat (x + 1)) ds))
    else [48] ++ pointed (repeat 48 (Z.to_nat (- x - 1)) ++ strip_zeros ds)
  else firstn 1 ds ++ pointed (strip_zeros (skipn 1 ds)) ++ print_exponent x.
(** [nan] is "nan" or "-nan". *)
Definition print_double (nan : list Z) (x : double) : list Z :=
  match x with
  | S754_nan => nan
  | S754_infinity s => (if s then [45] else []) ++ str "inf"
  | S754_zero s => (if s then [45] else []) ++ [48]
  | S754_finite s m e =>
    (if s then [45] else []) ++ (if 0 <=? e then print_ratio (Z.pos m * 2 ^ e) 1 else print_ratio (Z.pos m) (2 ^ (- e)))
  end.
