(** Vocabulary for statements about assertions. *)
From Verif Require Import Base.

(** None of the assertions that were evaluated is false. *)
Definition all_true (l : list bool) : Prop := forall b, In b l -> b = true.
