(** Vocabulary for character boxes. *)
From Verif Require Import Base ImageModel ImageSpec BoxModel.

(** Column [c] holds ink. *)
Definition col_has_ink (img : image) (c : Z) : Prop := exists y, ink img c y = true.

(** Columns [c] and [c+1] touch: some ink of [c] is 8-adjacent to ink of [c+1]. *)
Definition col_linked (img : image) (c : Z) : Prop :=
  exists y y', ink img c y = true /\ ink img (c + 1) y' = true /\ y - 1 <= y' <= y + 1.

(** Row [r] holds ink in the columns [x0, x1). *)
Definition row_has_ink (img : image) (x0 x1 r : Z) : Prop :=
  exists x, x0 <= x < x1 /\ ink img x r = true.

(** The box is one the callers go on with. *)
Definition nonempty_box (b : box) : Prop := bw b <> 0 /\ bh b <> 0.

(** [b] is the tight box of the linked run of columns starting at the first
    inked column at or after [s]. *)
Definition tight_box (img : image) (s : Z) (b : box) : Prop :=
  s <= bx b /\ 0 < bw b /\ 0 < bh b /\
  (* starts at the first inked column *)
  col_has_ink img (bx b) /\ (forall c, s <= c < bx b -> ~ col_has_ink img c) /\
  (* does not reach the last column *)
  bx b + bw b < iw img /\
  (* consecutive columns are linked *)
  (forall c, bx b <= c < bx b + bw b - 1 -> col_linked img c) /\
  (* maximal, unless stopped by the last column *)
  (bx b + bw b < iw img - 1 -> ~ col_linked img (bx b + bw b - 1)) /\
  (* tight rows *)
  0 <= by_ b /\ by_ b + bh b <= ih img /\
  row_has_ink img (bx b) (bx b + bw b) (by_ b) /\
  row_has_ink img (bx b) (bx b + bw b) (by_ b + bh b - 1) /\
  (forall r, row_has_ink img (bx b) (bx b + bw b) r -> by_ b <= r < by_ b + bh b).

(** Position (x,y) lies in the box. *)
Definition in_box (b : box) (x y : Z) : Prop :=
  bx b <= x < bx b + bw b /\ by_ b <= y < by_ b + bh b.

(** Sizes for which the 32-bit offsets of the search do not wrap. *)
Definition box_searchable (img : image) : Prop :=
  wf_image img /\ 1 <= iw img /\ 1 <= ih img /\ iw img * ih img + iw img < 4294967296.

(** Reading order: the boxes are taken one after the other, each being the tight
    box found from the end of the previous one, until no ink is left before the
    last column. *)
Inductive read_boxes (img : image) : Z -> list box -> Prop :=
| read_done s :
    (forall c, s <= c < iw img - 1 -> ~ col_has_ink img c) -> read_boxes img s []
| read_next s b rest :
    tight_box img s b -> read_boxes img (bx b + bw b) rest -> read_boxes img s (b :: rest).
