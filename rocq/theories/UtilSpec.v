(** What reindexing and the image context are meant to give. *)
From Verif Require Import Base ImageModel ImageSpec TrieModel.

(** The elements at the given positions, in that order. *)
Definition elements_at {T} (cont : list T) (indexes : list Z) (r : list T) : Prop :=
  vsize r = vsize indexes /\
  forall k i, nth_error indexes k = Some i -> exists x, nth_error cont (Z.to_nat i) = Some x /\ nth_error r k = Some x.
(** Every position of the container once. *)
Definition permutation_of_positions {T} (cont : list T) (indexes : list Z) : Prop :=
  NoDup indexes /\ vsize indexes = vsize cont /\ forall i, In i indexes -> 0 <= i < vsize cont.
(** Whatever the positions: an element that was already taken has been moved as many
    times as it was taken. *)
Definition elements_moved {T} (moved : T -> T) (cont : list T) (indexes : list Z) (r : list T) : Prop :=
  vsize r = vsize indexes /\
  forall k i, nth_error indexes k = Some i -> exists x, nth_error cont (Z.to_nat i) = Some x /\
    nth_error r k = Some (Nat.iter (count_occ Z.eq_dec (firstn k indexes) i) moved x).
(** Images that fit twice in a buffer whose size is a 32-bit number. *)
Definition fits_twice (img : image) : Prop := wf_image img /\ iw img * ih img < 2147483648.
(** The quarter turn. *)
Definition quarter_turn (img r : image) : Prop :=
  wf_image r /\ iw r = ih img /\ ih r = iw img /\
  forall x y, 0 <= x < iw r -> 0 <= y < ih r -> pix r x y = pix img (iw img - 1 - y) x.
