(** What a range must contain. *)
From Verif Require Import Base RangeModel.

Section Range.
Context {A B : Type}.
(** Two positions of the buffer, in order. *)
Definition well_placed (r : @range A B) : Prop := 0 <= rg_first r <= rg_last r /\ rg_last r <= Z.of_nat (List.length (rg_mem r)).
(** The cells between the positions. *)
Definition between (r : @range A B) (l : list A) : Prop :=
  exists before after, rg_mem r = before ++ l ++ after /\ Z.of_nat (List.length before) = rg_first r /\ Z.of_nat (List.length (before ++ l)) = rg_last r.
End Range.
