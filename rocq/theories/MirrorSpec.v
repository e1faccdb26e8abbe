(** An image seen in a mirror. *)
From Verif Require Import Base ImageModel ImageSpec TurnSpec.

(** Left and right are exchanged. *)
Definition mirrored (a b : image) : Prop :=
  wf_image b /\ iw b = iw a /\ ih b = ih a /\ forall x y, 0 <= x < iw a -> 0 <= y < ih a -> pix b x y = pix a (iw a - 1 - x) y.
(** Top and bottom are exchanged. *)
Definition flipped (a b : image) : Prop :=
  wf_image b /\ iw b = iw a /\ ih b = ih a /\ forall x y, 0 <= x < iw a -> 0 <= y < ih a -> pix b x y = pix a x (ih a - 1 - y).
(** What is said of a corner: 1 if it is ink, 0 otherwise. *)
Definition corner (img : image) (x y : Z) : Z := if ink img x y then 1 else 0.
