(** The features of an image that is enlarged. *)
From Verif Require Import Base ImageModel ImageSpec BoxModel.

(** Each pixel becomes a block of [j] columns and [k] rows. *)
Definition scaled (j k : Z) (a b : image) : Prop :=
  iw b = j * iw a /\ ih b = k * ih a /\ forall x y, pix b x y = pix a (x / j) (y / k).
(** Such an image. *)
Definition enlarge (j k : Z) (a : image) : image :=
  mkimage (j * iw a) (k * ih a)
    (flat_map (fun y => flat_map (fun x => match pix a (x / j) (y / k) with Some p => [p] | None => [] end) (zrange (j * iw a))) (zrange (k * ih a))).

(** The box of an enlarged character. *)
Definition scaled_box (j k : Z) (t : box) : box := mkbox (j * bx t) (k * by_ t) (j * bw t) (k * bh t).
(** The last column is blank. *)
Definition blank_edge (a : image) : Prop := forall y, ink a (iw a - 1) y = false.
