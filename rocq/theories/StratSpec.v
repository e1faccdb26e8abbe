(** What the scanning features are meant to measure. *)
From Verif Require Import Base ImageModel ImageSpec StratModel.

(** f 0 + f 1 + ... + f (n-1). *)
Definition zsum (f : Z -> Z) (n : Z) : Z := fold_right Z.add 0 (map f (zrange n)).

(** Total weight of the inked positions; total weight of all the positions. *)
Definition ink_sum (img : image) (weight : Z -> Z -> Z) : Z :=
  zsum (fun y => zsum (fun x => if ink img x y then weight x y else 0) (iw img)) (ih img).
Definition cell_sum (img : image) (weight : Z -> Z -> Z) : Z :=
  zsum (fun y => zsum (fun x => weight x y) (iw img)) (ih img).

(** Upper and lower halves; the middle row of an odd height is in neither. *)
Definition upper (h y : Z) : bool := y <? h / 2.
Definition lower (h y : Z) : bool := h - h / 2 <=? y.

(** 1 on the first and last rows, 2 on the next ones, ... *)
Definition border_rank (h y : Z) : Z := Z.min (y + 1) (h - y).
(** 1 next to the middle, increasing up to h/2 on the first and last rows. *)
Definition center_rank (h y : Z) : Z := h / 2 + 1 - border_rank h y.

(** The two wedges: full width on the first and last rows, narrowing (by the
    rank of the row) towards the middle column near the middle row. *)
Definition wedge_margin (w h y : Z) : Z := w / 2 - w / border_rank h y / 2.
Definition in_wedge (w h x y : Z) : bool :=
  (wedge_margin w h y <=? x) && (x <? w - wedge_margin w h y).

(** Weights of the four measures. *)
Definition half (side : Z -> Z -> bool) (img : image) (x y : Z) : Z :=
  if side (ih img) y then 1 else 0.
Definition half_gravity (side : Z -> Z -> bool) (img : image) (x y : Z) : Z :=
  if side (ih img) y then center_rank (ih img) y else 0.
Definition wedge (side : Z -> Z -> bool) (img : image) (x y : Z) : Z :=
  if side (ih img) y && in_wedge (iw img) (ih img) x y then 1 else 0.
Definition wedge_gravity (side : Z -> Z -> bool) (img : image) (x y : Z) : Z :=
  if side (ih img) y && in_wedge (iw img) (ih img) x y then center_rank (ih img) y else 0.

(** Share of the top in a top/bottom pair, from 0 (all at the bottom) to 200. *)
Definition share (t b : Z) : Z := if t + b =? 0 then 100 else 200 * t / (t + b).

(** Non-empty images on which the 32-bit percentages do not overflow. *)
Definition measurable (img : image) (bound : Z) : Prop :=
  wf_image img /\ 1 <= iw img /\ 1 <= ih img /\ 100 * bound < 4294967296.

(** Runs of equal values along a sequence of [n] booleans. *)
Definition run_count (f : Z -> bool) (n : Z) : Z :=
  1 + zsum (fun i => if Bool.eqb (f i) (f (i + 1)) then 0 else 1) (n - 1).

(** Some row y with y0 <= y < y1 has ink in column x. *)
Definition column_ink (img : image) (y0 y1 x : Z) : bool :=
  existsb (fun y => ink img x (y0 + y)) (zrange (y1 - y0)).

(** Alternation entry of a line of pixels. *)
Definition line_alternation (f : Z -> bool) (n : Z) : alternation :=
  mkalt (f 0) (run_count f n).

(** Row y is fully inked. *)
Definition full_row (img : image) (y : Z) : bool :=
  forallb (fun x => ink img x y) (zrange (iw img)).

(** Columns of row y counted by dzdensity: the band of horizontal half-width
    w/3 around the diagonal from the top left to the bottom right corner:
    ceil((y+1)*w/h - w/3) <= x < floor(y*w/h + w/3), clipped to the image. *)
Definition in_diag_band (w h x y : Z) : bool :=
  (3 * w * (y + 1) - w * h <=? 3 * h * x) && (3 * h * (x + 1) <=? 3 * w * y + w * h) .

(** Some column x with x0 <= x < x1 has ink in row y. *)
Definition row_ink (img : image) (x0 x1 y : Z) : bool :=
  existsb (fun x => ink img (x0 + x) y) (zrange (x1 - x0)).

(** The seven alternation entries, in terms of the image only: two rows, the
    top and bottom thirds seen from above, the middle column, and the left and
    right thirds seen from the side. *)
Definition alternations_spec (img : image) : list alternation :=
  let w := iw img in
  let h := ih img in
  [ if h <? 2 then mkalt false 0 else line_alternation (fun x => ink img x ((h - 2) / 3)) w;
    line_alternation (fun x => ink img x ((2 * h - 1) / 3)) w;
    line_alternation (fun x => column_ink img 0 (h / 3) x) w;
    line_alternation (fun x => column_ink img (h - h / 3) h x) w;
    line_alternation (fun y => ink img (w / 2) y) h;
    line_alternation (fun y => row_ink img 0 (w / 3) y) h;
    line_alternation (fun y => row_ink img (w - w / 3) w y) h ].

(** Number of groups of consecutive full rows: rows that are full while the
    row above is not (or does not exist). *)
Definition bar_count (img : image) : Z :=
  zsum (fun y => if full_row img y && negb (full_row img (y - 1)) then 1 else 0) (ih img).

(** Weight 1 on the diagonal band. *)
Definition band (img : image) (x y : Z) : Z :=
  if in_diag_band (iw img) (ih img) x y then 1 else 0.
