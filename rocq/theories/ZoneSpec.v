(** What a zone of an image is: a 4-connected component of the paper (the
    pixels without ink). *)
From Verif Require Import Base ImageModel ImageSpec StratSpec.

Definition paper (img : image) (x y : Z) : bool :=
  match pix img x y with
  | Some p => negb (p =? 120)
  | None => false
  end.

Definition touching (p q : Z * Z) : Prop :=
  Z.abs (fst p - fst q) + Z.abs (snd p - snd q) = 1.

(** A path of adjacent paper pixels. *)
Inductive linked (img : image) : Z * Z -> Z * Z -> Prop :=
| linked_here x y : paper img x y = true -> linked img (x, y) (x, y)
| linked_next p q x y : linked img p q -> touching q (x, y) -> paper img x y = true ->
    linked img p (x, y).

(** Reading order. *)
Definition rank (img : image) (p : Z * Z) : Z := snd p * iw img + fst p.

(** [lab] numbers the zones 1..k: equal numbers exactly for linked pixels,
    every number is used, and the numbers follow the reading order of the first
    pixels of the zones. *)
Definition zone_numbering (img : image) (k : Z) (lab : Z -> Z -> Z) : Prop :=
  (forall x y, paper img x y = true -> 1 <= lab x y <= k) /\
  (forall x y, paper img x y = false -> lab x y = 0) /\
  (forall x y x' y', paper img x y = true -> paper img x' y' = true ->
     (lab x y = lab x' y' <-> linked img (x, y) (x', y'))) /\
  exists first : Z -> Z * Z,
    (forall v, 1 <= v <= k ->
       paper img (fst (first v)) (snd (first v)) = true /\
       lab (fst (first v)) (snd (first v)) = v /\
       forall x y, paper img x y = true -> lab x y = v -> rank img (first v) <= rank img (x, y)) /\
    (forall v v', 1 <= v -> v < v' -> v' <= k -> rank img (first v) < rank img (first v')).

(** Number of pixels of zone v on each side. *)
Definition on_top (img : image) (lab : Z -> Z -> Z) (v : Z) : Z :=
  zsum (fun x => if lab x 0 =? v then 1 else 0) (iw img).
Definition on_bottom (img : image) (lab : Z -> Z -> Z) (v : Z) : Z :=
  zsum (fun x => if lab x (ih img - 1) =? v then 1 else 0) (iw img).
Definition on_left (img : image) (lab : Z -> Z -> Z) (v : Z) : Z :=
  zsum (fun y => if lab 0 y =? v then 1 else 0) (ih img).
Definition on_right (img : image) (lab : Z -> Z -> Z) (v : Z) : Z :=
  zsum (fun y => if lab (iw img - 1) y =? v then 1 else 0) (ih img).

(** Number of v in 1..k satisfying a predicate. *)
Definition count_zones (k : Z) (P : Z -> bool) : Z :=
  zsum (fun i => if P (i + 1) then 1 else 0) k.

(** The size of the contact of zone v with the border used by
    proportionality_zone: the first non null one of top, right, bottom, left. *)
Definition contact (img : image) (lab : Z -> Z -> Z) (v : Z) : Z :=
  if 0 <? on_top img lab v then on_top img lab v
  else if 0 <? on_right img lab v then on_right img lab v
  else if 0 <? on_bottom img lab v then on_bottom img lab v
  else on_left img lab v.

(** The zones touching the border, and the sum of their contacts. *)
Definition border_zones (img : image) (k : Z) (lab : Z -> Z -> Z) : list Z :=
  filter (fun v => 0 <? contact img lab v) (map (fun i => i + 1) (zrange k)).
Definition contact_total (img : image) (k : Z) (lab : Z -> Z -> Z) : Z :=
  fold_right Z.add 0 (map (contact img lab) (border_zones img k lab)).

(** The likeness of two lists of proportions: the mean of the shares of the first list in
    the sums of the proportions at the same place is 50 for equal lists. *)
Definition mean_share (a b : list Z) : Z :=
  fold_right Z.add 0 (map (fun '(x, y) => 100 * x / (x + y)) (combine a b)) / Z.of_nat (List.length a).
Definition likeness (a b : list Z) : Z :=
  if Nat.eqb (List.length a) (List.length b) then match a with [] => 100 | _ => 100 - Z.abs (mean_share a b - 50) end else 0.
(** Two lists of the same length with a 0 at the same place. *)
Definition shared_zero (a b : list Z) : Prop := List.length a = List.length b /\ In (0, 0) (combine a b).
