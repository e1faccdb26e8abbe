(** Zones of a balance, and streams in which there is something to read. *)
From Verif Require Import Base StreamModel.

(** The distance between the two sums, compared with the height and a quarter of it. *)
Definition zone_of (h t b : Z) : Z :=
  3 + Z.sgn (t - b) * (if Z.abs (t - b) <=? h / 4 then 0 else if Z.abs (t - b) <=? h then 1 else 2).

(** The stream is in a good state and a character that is not a blank is left. *)
Definition something_left (s : istream) : Prop :=
  is_eof s = false /\ is_fail s = false /\ exists c, In c (is_rest s) /\ is_space c = false.
