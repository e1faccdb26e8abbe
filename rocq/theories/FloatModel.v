(** double: the binary64 format of the standard library's SpecFloat, which
    computes exactly what IEEE 754 prescribes with rounding to nearest even. *)
From Verif Require Import Base.
From Coq Require Import SpecFloat.

Notation double := spec_float.
Definition dmul : double -> double -> double := SFmul 53 1024.
Definition ddiv : double -> double -> double := SFdiv 53 1024.
(** static_cast<double> of an unsigned. *)
Definition double_of (n : Z) : double := binary_normalize 53 1024 n 0 false.
(** a < b, a <= b: false when one is not a number. *)
Definition dlt (a b : double) : bool := SFltb a b.
Definition dle (a b : double) : bool := SFleb a b.
(** 0., 1., 100. and 0.5. *)
Definition d0 : double := S754_zero false.
Definition d1 : double := S754_finite false 4503599627370496 (-52).
Definition d100 : double := S754_finite false 7036874417766400 (-46).
Definition dhalf : double := S754_finite false 4503599627370496 (-53).
