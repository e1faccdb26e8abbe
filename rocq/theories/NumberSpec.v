(** Doubles that are close to each other, and ranges of numbers. *)
From Verif Require Import Base FloatModel.
From Coq Require Import SpecFloat.

(** Zero or a finite number. *)
Definition finite_double (x : double) : Prop :=
  match x with S754_zero _ | S754_finite _ _ _ => True | _ => False end.
(** Two positive neighbours of the same power of two, far from the ends of the
    exponents. *)
Definition neighbours (x y : double) : Prop :=
  exists m e, x = S754_finite false m e /\ y = S754_finite false (m + 1) e /\ 2 ^ 52 <= Z.pos m < 2 ^ 53 - 1 /\ -1022 <= e <= 890.
(** A number of the format: 2^52 <= m < 2^53, or the least exponent. *)
Definition format_double (x : double) : Prop :=
  match x with
  | S754_zero _ => True
  | S754_finite _ m e => -1074 <= e <= 971 /\ Z.pos m < 2 ^ 53 /\ (e = -1074 \/ 2 ^ 52 <= Z.pos m)
  | _ => False
  end.
(** The multiple of 2^-1074 that it is. *)
Definition units (x : double) : Z :=
  match x with S754_finite s m e => (if s then -1 else 1) * (Z.pos m * 2 ^ (e + 1074)) | _ => 0 end.
(** The numbers from [a], [n] of them, modulo 2^32. *)
Definition from (a n : Z) : list Z := map (fun i => (a + i) mod 4294967296) (zrange n).
