(** Properties C01-C04: images. *)
From Verif Require Import Base ImageModel ImageSpec ImageProofs.

(** A 3x2 image used as a witness: "x-x" / "--x". *)
Definition img32 : image := mkimage 3 2 (str "x-x--x").
Lemma img32_wf : wf_image img32.
Proof. repeat split; vm_compute; congruence. Qed.

(** C01: rotate90 never fails, exchanges the sizes and maps pixels. *)
Theorem C01_rotate90_quarter_turn : forall img, wf_image img ->
  exists r, rotate90 img = Ok r /\ wf_image r /\
    iw r = ih img /\ ih r = iw img /\
    forall x y, 0 <= x < iw r -> 0 <= y < ih r ->
      pix r x y = pix img (iw img - 1 - y) x.
Proof. exact rotate90_law. Qed.
Print Assumptions C01_rotate90_quarter_turn.

Example C01_nonvacuous :
  wf_image img32 /\ rotate90 img32 = Ok (mkimage 2 3 (str "xx--x-")).
Proof. split; [exact img32_wf|vm_compute; reflexivity]. Qed.

(** C02: four quarter turns are the identity. *)
Theorem C02_rotate90_four_times : forall img, wf_image img ->
  exists r1 r2 r3, rotate90 img = Ok r1 /\ rotate90 r1 = Ok r2 /\
    rotate90 r2 = Ok r3 /\ rotate90 r3 = Ok img.
Proof. exact rotate90_four. Qed.
Print Assumptions C02_rotate90_four_times.

Example C02_nonvacuous : wf_image img32 /\ rotate90 img32 <> Ok img32.
Proof. split; [exact img32_wf|vm_compute; congruence]. Qed.

(** C03: section copies the window; clone is the identity. *)
Theorem C03_section_window : forall img x y bw bh, wf_image img ->
  0 <= x -> 0 <= y -> 0 <= bw -> 0 <= bh ->
  x + bw <= iw img -> y + bh <= ih img ->
  exists r, section img x y bw bh = Ok r /\ wf_image r /\
    iw r = bw /\ ih r = bh /\
    forall i j, 0 <= i < bw -> 0 <= j < bh -> pix r i j = pix img (x + i) (y + j).
Proof. exact section_law. Qed.
Print Assumptions C03_section_window.

Theorem C03_clone_identity : forall img, wf_image img -> clone img = Ok img.
Proof. exact clone_law. Qed.
Print Assumptions C03_clone_identity.

Example C03_nonvacuous :
  wf_image img32 /\ section img32 1 0 2 2 = Ok (mkimage 2 2 (str "-x-x")).
Proof. split; [exact img32_wf|vm_compute; reflexivity]. Qed.

(** C04: image_compare is a total order whose 0 is equality, and it is the
    order "width, height, first differing pixel". *)
Theorem C04_image_compare_order : forall a b, full_image a -> full_image b ->
  exists c, image_compare a b = Ok c /\ image_compare b a = Ok (- c) /\
    (c = -1 \/ c = 0 \/ c = 1) /\
    (c = 0 <-> same_picture a b) /\ (c = -1 <-> picture_before a b) /\
    image_eq a b = Ok (c =? 0).
Proof. exact image_compare_law. Qed.
Print Assumptions C04_image_compare_order.

Theorem C04_image_compare_transitive : forall a b c,
  full_image a -> full_image b -> full_image c ->
  image_compare a b = Ok (-1) -> image_compare b c = Ok (-1) ->
  image_compare a c = Ok (-1).
Proof. exact image_compare_trans. Qed.
Print Assumptions C04_image_compare_transitive.

Example C04_nonvacuous :
  image_compare (mkimage 2 1 (str "--")) (mkimage 2 1 (str "-x")) = Ok (-1) /\
  image_compare (mkimage 2 1 (str "-x")) (mkimage 2 1 (str "x-")) = Ok (-1) /\
  image_compare img32 (mkimage 2 1 (str "x-")) = Ok 1.
Proof. vm_compute. auto. Qed.
