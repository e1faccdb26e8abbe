(** Properties C09-C11: cutting a line image into character boxes. *)
From Verif Require Import Base ImageModel ImageSpec BoxModel BoxSpec BoxProofs.

(** A 6x3 picture with an accent-like group of two linked columns, a blank
    column, and a last glyph touching the right border:
      x---xx
      -x--x-
      ------   *)
Definition ex_img : image := mkimage 6 3 (str "x---xx-x--x-------").

Example ex_searchable : box_searchable ex_img.
Proof. repeat split; simpl; lia. Qed.

(** C09: the box found from column [s] on is the tight box of a maximal run of
    linked columns, or empty when no column before the last one has ink. *)
Theorem C09_box_tight :
  forall img s, box_searchable img -> 0 <= s <= iw img ->
  exists b, make_box_character img s 0 (iw img) (ih img) = Ok b /\
    (((forall c, s <= c < iw img - 1 -> ~ col_has_ink img c) /\ bw b = 0 /\ bh b = 0) \/
     tight_box img s b).
Proof. exact (fun img s Hs => make_box_spec img Hs s). Qed.
Print Assumptions C09_box_tight.

Example C09_ex : make_box_character ex_img 0 0 6 3 = Ok (mkbox 0 0 2 2).
Proof. reflexivity. Qed.
Example C09_ex_hyp : tight_box ex_img 0 (mkbox 0 0 2 2).
Proof.
  destruct (C09_box_tight ex_img 0 ex_searchable) as (b & E & [(_ & Hw & _)|Ht]).
  - simpl; lia.
  - vm_compute in E. injection E as <-. discriminate Hw.
  - vm_compute in E. injection E as <-. exact Ht.
Qed.

(** C10: segmentation always finishes without touching memory outside the
    image; it yields at most width-1 boxes, all non-empty and inside the image,
    from left to right and without a common column; and they are the successive
    tight boxes of the image. *)
Theorem C10_segmentation :
  forall img, box_searchable img ->
  exists boxes, segment img = Ok boxes /\ read_boxes img 0 boxes /\
    Z.of_nat (List.length boxes) <= iw img - 1 /\
    Forall (fun b => nonempty_box b /\ 0 <= bx b /\ bx b + bw b <= iw img /\
                     0 <= by_ b /\ by_ b + bh b <= ih img) boxes /\
    ForallOrdPairs (fun a b => bx a + bw a <= bx b) boxes.
Proof. exact segment_order. Qed.
Print Assumptions C10_segmentation.

Example C10_ex : segment ex_img = Ok [mkbox 0 0 2 2; mkbox 4 0 1 2].
Proof. reflexivity. Qed.

(** C09: the sides of a box that was found are its first and last inked columns and rows. *)
Theorem C09_sides : forall img boxes b, box_searchable img -> segment img = Ok boxes -> In b boxes ->
  (forall x y, in_box b x y <-> bx b <= x <= box_right b /\ box_top b <= y <= box_bottom b) /\
  col_has_ink img (bx b) /\ col_has_ink img (box_right b) /\
  row_has_ink img (bx b) (box_right b + 1) (box_top b) /\ row_has_ink img (bx b) (box_right b + 1) (box_bottom b).
Proof. exact segment_sides. Qed.
Print Assumptions C09_sides.

(** C11 (full statement): every ink pixel of the image lies in one of the boxes.
    It is false; what holds is that the ink lying in some box is exactly the
    ink that is not in the last column of the image. *)
Theorem C11_ink_covered_partial :
  forall img, box_searchable img ->
  exists boxes, segment img = Ok boxes /\
    forall x y, ink img x y = true ->
      ((exists b, In b boxes /\ in_box b x y) <-> x < iw img - 1).
Proof. exact segment_coverage. Qed.
Print Assumptions C11_ink_covered_partial.

(** The ink of the last column is lost. *)
Theorem C11_ink_covered_refuted :
  exists img, box_searchable img /\
    exists boxes x y, segment img = Ok boxes /\ ink img x y = true /\
      forall b, In b boxes -> ~ in_box b x y.
Proof.
  exists ex_img. split; [exact ex_searchable|].
  exists [mkbox 0 0 2 2; mkbox 4 0 1 2], 5, 0.
  split; [reflexivity|]. split; [reflexivity|].
  intros b [<-|[<-|[]]] (H & _); simpl in H; lia.
Qed.
Print Assumptions C11_ink_covered_refuted.

(** A whole glyph may be lost: an image with a single inked column, the last. *)
Theorem C11_glyph_lost_refuted :
  exists img, box_searchable img /\ segment img = Ok [] /\
    exists x y, ink img x y = true.
Proof.
  exists (mkimage 3 2 (str "--x--x")). split.
  - repeat split; simpl; lia.
  - split; [reflexivity|]. exists 2, 0. reflexivity.
Qed.
Print Assumptions C11_glyph_lost_refuted.
