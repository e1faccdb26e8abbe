(** What the dictionary program makes of a list of lines. *)
From Verif Require Import Base DecodeSpec.

(** Two lists of lines spell the same words: the characters of the lines, up to a stopper
    (C30), are the same ones, whatever the order and the repetitions. *)
Definition same_spellings (ls ls' : list (list Z)) : Prop :=
  forall gs, (exists l, In l ls /\ characters l gs) <-> (exists l, In l ls' /\ characters l gs).

(** Both cannot be put in a dictionary, or both can and spell the same words. *)
Definition same_dictionary (ls ls' : list (list Z)) : Prop :=
  (Exists unusable ls /\ Exists unusable ls') \/ (~ Exists unusable ls /\ ~ Exists unusable ls' /\ same_spellings ls ls').
