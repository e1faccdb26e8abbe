(** Doubles between 0 and 1. *)
From Verif Require Import Base FloatModel.
From Coq Require Import SpecFloat.

(** A double is m * 2^e; its exponent is the one of the format: m has 53 bits, or
    less when e is the least exponent, -1074. *)
Definition normal_form (m : positive) (e : Z) : Prop :=
  -1074 <= e /\ Z.pos m < 2 ^ 53 /\ (e = -1074 \/ 2 ^ 52 <= Z.pos m).

(** Positive zero, or a positive number that is at most 1. *)
Definition unit_double (x : double) : Prop :=
  x = d0 \/ exists m e, x = S754_finite false m e /\ normal_form m e /\ e <= 0 /\ Z.pos m <= 2 ^ (- e).

(** The value of x is at most c times the value of y (c a positive integer). *)
Definition at_most (c : Z) (x y : double) : Prop :=
  match x, y with
  | S754_zero _, _ => True
  | S754_finite _ mx ex, S754_finite _ my ey =>
    Z.pos mx * 2 ^ (ex - Z.min ex ey) <= c * (Z.pos my * 2 ^ (ey - Z.min ex ey))
  | _, _ => False
  end.
(** x parts of n of a double. *)
Definition share (p : double) (x n : Z) : double := ddiv (dmul p (double_of x)) (double_of n).
