(** almost_equal and the iterator over integers. *)
From Verif Require Import Base FloatModel.
From Coq Require Import SpecFloat.

Definition dadd : double -> double -> double := SFadd 53 1024.
Definition dsub : double -> double -> double := SFsub 53 1024.
(** std::abs. *)
Definition dabs : double -> double := SFabs.
(** std::numeric_limits<double>::epsilon() and min(): 2^-52 and 2^-1022. *)
Definition depsilon : double := S754_finite false 4503599627370496 (-104).
Definition dmin : double := S754_finite false 4503599627370496 (-1074).
(** src/ppocr/math/almost_equal.hpp 28-37, for double; the int [ulp] is converted to
    double. *)
Definition almost_equal (x y : double) (ulp : Z) : bool :=
  dlt (dabs (dsub x y)) (dmul (dmul depsilon (dabs (dadd x y))) (double_of ulp)) ||
  dlt (dabs (dsub x y)) dmin.

(** src/ppocr/utils/integer_iterator.hpp 24-50, for T = unsigned: the iterator is
    its number. *)
Definition it_next (n : Z) : Z := u32 (n + 1).
(** 37: a difference of unsigned, converted to std::ptrdiff_t. *)
Definition it_minus (n other : Z) : Z := u32 (n - other).
(** 39-43: += and + (-= and -), with a std::ptrdiff_t. *)
Definition it_add (n d : Z) : Z := u32 (n + d).
Definition it_sub (n d : Z) : Z := u32 (n - d).
(** 45-48 *)
Definition it_eq (n other : Z) : bool := n =? other.
Definition it_ne (n other : Z) : bool := negb (n =? other).
Definition it_lt (n other : Z) : bool := n <? other.
Definition it_le (n other : Z) : bool := n <? other.
(** extract_text6.cpp 768-771, extract_text8.cpp 619-622: std::vector<unsigned> of a
    range of random access iterators: room for the distance, then one element after
    the other until the iterators are equal. *)
Definition vector_of_range (first last : Z) : res (list Z) :=
  let room := it_minus last first in
  loop (S (Z.to_nat room))
    (fun '(i, l) =>
       if it_ne i last then l <- emit room l i ;; Ok (inl (it_next i, l))
       else Ok (inr l))
    (first, []).
