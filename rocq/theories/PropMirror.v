(** Property C116: the features of an image that is seen in a mirror, or upside down. *)
From Verif Require Import Base ImageModel ImageSpec StratModel StratSpec SortModel SortProofs ZoneModel ZoneSpec TurnSpec MirrorSpec MirrorProofs.

(** A 5x5 picture, the same one in a mirror, and upside down:
    xx--x / x--x- / xxxxx / ----x / -x--- *)
Definition ex_face : image := mkimage 5 5 (str "xx--xx--x-xxxxx----x-x---").
Definition ex_glass : image := mkimage 5 5 (str "x--xx-x--xxxxxxx-------x-").
Definition ex_down : image := mkimage 5 5 (str "-x-------xxxxxxx--x-xx--x").
(** A 4x3 picture:  -xx- / -x-- / -xxx *)
Definition ex_four : image := mkimage 4 3 (str "-xx--x---xxx").
Definition ex_fours : image := mkimage 4 3 (str "-xx---x-xxx-").

(** C116.  Full statement: the same for all the features; the refutations below are those that
    do not follow.  The measures of the ink of the upper and of the lower half and of the upper
    and of the lower wedge are the same in a mirror. *)
Theorem C116_mirror_partial : forall a b, ordinary a -> mirrored a b ->
  density b = density a /\ proportionality b = proportionality a /\ hbar b = hbar a /\
  hdirection b = hdirection a /\ hdirection2 b = hdirection2 a /\ hgravity b = hgravity a /\ hgravity2 b = hgravity2 a /\
  dvdirection b = dvdirection a /\ dvdirection2 b = dvdirection2 a /\ dvgravity b = dvgravity a /\ dvgravity2 b = dvgravity2 a.
Proof. exact mirrored_features. Qed.
Print Assumptions C116_mirror_partial.

(** The rows and the upper and lower bands are seen from their other ends; the left and the
    right bands are exchanged, and the middle column is the same one when the width is odd. *)
Theorem C116_alternations_partial : forall a b, ordinary a -> mirrored a b -> 2 <= ih a ->
  exists r1 r2 t u m l r, alternations_of a = Ok [r1; r2; t; u; m; l; r] /\
  exists m', alternations_of b = Ok [from_end r1; from_end r2; from_end t; from_end u; m'; r; l] /\ (Z.odd (iw a) = true -> m' = m).
Proof. exact mirrored_alternations. Qed.
Print Assumptions C116_alternations_partial.

(** The corners are those of the other side; the zones of the left and of the right are exchanged. *)
Theorem C116_zones : forall junk ctx junk' ctx' a b, ordinary a -> mirrored a b ->
  exists t r u l e, zones_of junk ctx a = Ok [corner a 0 0; corner a (iw a - 1) (ih a - 1); t; r; u; l; e] /\
    zones_of junk' ctx' b = Ok [corner a (iw a - 1) 0; corner a 0 (ih a - 1); t; l; u; r; e].
Proof. exact mirror_zones. Qed.
Print Assumptions C116_zones.

(** There are as many proportions of zones. *)
Theorem C116_proportions_partial : forall junk ctx junk' ctx' sort sort' a b,
  ordinary a -> is_std_sort Z.ltb sort -> is_std_sort Z.ltb sort' -> mirrored a b ->
  exists p q, proportions_of junk ctx sort a = Ok p /\ proportions_of junk' ctx' sort' b = Ok q /\ List.length p = List.length q.
Proof. exact mirrored_count. Qed.
Print Assumptions C116_proportions_partial.

(** Upside down, the measures of the halves and of both wedges are opposite, and the zones of
    the top and of the bottom are exchanged. *)
Theorem C116_flip_partial : forall junk ctx junk' ctx' a b, ordinary a -> flipped a b ->
  density b = density a /\ proportionality b = proportionality a /\ hbar b = hbar a /\
  opposite 200 (hdirection a) (hdirection b) /\ opposite 100 (hdirection2 a) (hdirection2 b) /\ opposite 200 (hgravity a) (hgravity b) /\ opposite 100 (hgravity2 a) (hgravity2 b) /\
  opposite 200 (dvdirection a) (dvdirection b) /\ opposite 200 (dvgravity a) (dvgravity b) /\
  exists t r u l e, zones_of junk ctx a = Ok [corner a 0 0; corner a (iw a - 1) (ih a - 1); t; r; u; l; e] /\
    zones_of junk' ctx' b = Ok [corner a 0 (ih a - 1); corner a (iw a - 1) 0; u; r; t; l; e].
Proof. exact flipped_features. Qed.
Print Assumptions C116_flip_partial.

Lemma ex_glass_mirror : mirrored ex_face ex_glass.
Proof. apply mirrored_check; [repeat split; vm_compute; congruence|reflexivity|reflexivity|vm_compute; reflexivity]. Qed.
Lemma ex_fours_mirror : mirrored ex_four ex_fours.
Proof. apply mirrored_check; [repeat split; vm_compute; congruence|reflexivity|reflexivity|vm_compute; reflexivity]. Qed.
Example C116_nonvacuous : ordinary ex_face /\ mirrored ex_face ex_glass /\ flipped ex_face ex_down /\
  hdirection ex_face = Ok 142 /\ hdirection ex_glass = Ok 142 /\ hdirection ex_down = Ok 57 /\
  hgravity2 ex_face = Ok 66 /\ hgravity2 ex_glass = Ok 66 /\ hgravity2 ex_down = Ok 33 /\ hbar ex_glass = Ok 1 /\
  alternations_of ex_face = Ok [mkalt true 4; mkalt false 2; mkalt true 3; mkalt false 3; mkalt false 3; mkalt true 2; mkalt true 4] /\
  alternations_of ex_glass = Ok [mkalt false 4; mkalt true 2; mkalt true 3; mkalt false 3; mkalt false 3; mkalt true 4; mkalt true 2] /\
  zones_of (fun _ => 7) new_zone_ctx ex_face = Ok [1; 0; 1; 2; 1; 1; 0] /\
  zones_of (fun _ => 7) new_zone_ctx ex_glass = Ok [1; 0; 1; 1; 1; 2; 0] /\
  zones_of (fun _ => 7) new_zone_ctx ex_down = Ok [0; 1; 1; 2; 1; 1; 0].
Proof.
  split; [repeat split; vm_compute; congruence|]. split; [exact ex_glass_mirror|].
  split; [apply flipped_check; [repeat split; vm_compute; congruence|reflexivity|reflexivity|vm_compute; reflexivity]|].
  repeat split; vm_compute; reflexivity.
Qed.

(** dzdensity, which looks at a diagonal, tells an image from the same one in a mirror. *)
Theorem C116_diagonal_refuted : exists a b, ordinary a /\ mirrored a b /\ dzdensity a = Ok 50 /\ dzdensity b = Ok 0.
Proof.
  exists ex_four, ex_fours. split; [repeat split; vm_compute; congruence|]. split; [exact ex_fours_mirror|]. split; vm_compute; reflexivity.
Qed.
Print Assumptions C116_diagonal_refuted.

(** When the width is even the middle column is another one in a mirror. *)
Theorem C116_middle_refuted : exists a b, ordinary a /\ mirrored a b /\ 2 <= ih a /\
  (l <- alternations_of a ;; rd l 4) = Ok (mkalt true 3) /\ (l <- alternations_of b ;; rd l 4) = Ok (mkalt true 1).
Proof.
  exists ex_four, ex_fours. split; [repeat split; vm_compute; congruence|]. split; [exact ex_fours_mirror|]. split; [vm_compute; congruence|]. split; vm_compute; reflexivity.
Qed.
Print Assumptions C116_middle_refuted.

(** A zone that touches several sides is measured on the first of the top, the right, the bottom
    and the left; the proportions are not the same in a mirror. *)
Theorem C116_proportions_refuted : exists a b, ordinary a /\ mirrored a b /\
  proportions_of (fun _ => 7) new_zone_ctx (isort Z.ltb) a = Ok [25; 25; 50] /\ proportions_of (fun _ => 7) new_zone_ctx (isort Z.ltb) b = Ok [20; 40; 40].
Proof.
  exists ex_face, ex_glass. split; [repeat split; vm_compute; congruence|]. split; [exact ex_glass_mirror|]. split; vm_compute; reflexivity.
Qed.
Print Assumptions C116_proportions_refuted.

(** Upside down, dvdirection2, which looks at the upper wedge, is not opposite. *)
Theorem C116_upper_wedge_refuted : exists a b, ordinary a /\ flipped a b /\ dvdirection2 a = Ok 100 /\ dvdirection2 b = Ok 33 /\ ~ opposite 100 (dvdirection2 a) (dvdirection2 b).
Proof.
  exists (mkimage 3 2 (str "xxxx--")), (mkimage 3 2 (str "x--xxx")). split; [repeat split; vm_compute; congruence|].
  split; [apply flipped_check; [repeat split; vm_compute; congruence|reflexivity|reflexivity|vm_compute; reflexivity]|].
  assert (E1 : dvdirection2 (mkimage 3 2 (str "xxxx--")) = Ok 100) by (vm_compute; reflexivity). assert (E2 : dvdirection2 (mkimage 3 2 (str "x--xxx")) = Ok 33) by (vm_compute; reflexivity).
  rewrite E1, E2. split; [reflexivity|]. split; [reflexivity|]. intros (u & v & E3 & E4 & B). injection E3 as <-. injection E4 as <-. destruct B as (_ & _ & B). now apply B.
Qed.
Print Assumptions C116_upper_wedge_refuted.
