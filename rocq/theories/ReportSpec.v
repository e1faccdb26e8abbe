(** The percentage of characters that are not recognised. *)
From Verif Require Import Base FloatModel.
From Coq Require Import SpecFloat.

(** The double nearest to 100 * count / size. *)
Definition percentage (count size : Z) : double := ddiv (double_of (100 * count)) (double_of size).
