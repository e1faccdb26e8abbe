(** Tactics for the loops of the model. *)
From Verif Require Import Base BaseProofs.

(** Replaces the first [for_up] of the goal by its result, whose state satisfies
    the invariant: goals are the step, the start and the rest. *)
Ltac for_up_with Inv :=
  match goal with
  | |- context [for_up ?n0 ?i0 ?body0 ?s0] =>
    let L := fresh "L" in
    assert (L : exists s', for_up n0 i0 body0 s0 = Ok s' /\ Inv (i0 + Z.of_nat n0) s');
    [apply (for_up_total body0 Inv n0 i0)
    |let r := fresh "st" in let E := fresh "Eloop" in let H := fresh "Hloop" in
     destruct L as (r & E & H); rewrite E; clear E]
  end.

(** The same for [loop]: step, start, measure, rest. *)
Ltac loop_with Inv M Post :=
  match goal with
  | |- context [loop ?n0 ?body0 ?s0] =>
    let L := fresh "L" in
    assert (L : exists r, loop n0 body0 s0 = Ok r /\ Post r);
    [apply (loop_total body0 Inv M Post)
    |let r := fresh "st" in let E := fresh "Eloop" in let H := fresh "Hloop" in
     destruct L as (r & E & H); rewrite E; clear E]
  end.
