(** Property C109: the features of an image that is turned. *)
From Verif Require Import Base ImageModel ImageSpec StratModel StratSpec SortModel SortProofs ZoneModel ZoneSpec TurnSpec TurnProofs.

(** A 5x5 picture:  xx--x / x--x- / xxxxx / ----x / -x--- *)
Definition ex_turn : image := mkimage 5 5 (str "xx--xx--x-xxxxx----x-x---").
Definition ex_turned : image := mkimage 5 5 (str "---x-x----xxxxx-x--xx--xx").
(** A 2x4 picture with ink in its upper half, and the same picture upside down. *)
Definition ex_top : image := mkimage 2 4 (str "xxx-----").
Definition ex_low : image := mkimage 2 4 (str "-----xxx").
(** A 5x3 picture:  ---x- / -xx-x / xx-x-, and a 4x3 one:  -xx- / -x-- / -xxx *)
Definition ex_open : image := mkimage 5 3 (str "---x--xx-xxx-x-").
Definition ex_opened : image := mkimage 5 3 (str "-x-xxx-xx--x---").
Definition ex_even : image := mkimage 4 3 (str "-xx--x---xxx").
Definition ex_evened : image := mkimage 4 3 (str "xxx---x--xx-").

(** C109, half a turn.  Full statement: the same for all the features; the refutations below
    are those that do not follow. *)
Theorem C109_half_turn_partial : forall a b, ordinary a -> turned_twice a b ->
  density b = density a /\ proportionality b = proportionality a /\ dzdensity b = dzdensity a /\ hbar b = hbar a /\
  opposite 200 (hdirection a) (hdirection b) /\ opposite 100 (hdirection2 a) (hdirection2 b) /\
  opposite 200 (hgravity a) (hgravity b) /\ opposite 100 (hgravity2 a) (hgravity2 b) /\
  opposite 200 (dvdirection a) (dvdirection b) /\ opposite 200 (dvgravity a) (dvgravity b).
Proof. exact turned_features. Qed.
Print Assumptions C109_half_turn_partial.

(** The lines of the alternations are seen from their other ends; the two rows are exchanged
    when the height is 2 modulo 3, and the middle column is the same one when the width is odd. *)
Theorem C109_alternations_partial : forall a b, ordinary a -> turned_twice a b ->
  exists r1 r2 t u m l r, alternations_of a = Ok [r1; r2; t; u; m; l; r] /\
  exists r1' r2' m', alternations_of b = Ok [r1'; r2'; from_end u; from_end t; m'; from_end r; from_end l] /\
    (ih a mod 3 = 2 -> r1' = from_end r2 /\ r2' = from_end r1) /\
    (Z.odd (iw a) = true -> m' = from_end m).
Proof. exact turned_alternations. Qed.
Print Assumptions C109_alternations_partial.

(** The corners are exchanged, and so are the zones of the top and of the bottom, and those of
    the right and of the left; the zones that touch no side are as many. *)
Theorem C109_zones : forall junk ctx junk' ctx' a b, ordinary a -> turned_twice a b ->
  exists p q t r u l e,
    zones_of junk ctx a = Ok [p; q; t; r; u; l; e] /\ zones_of junk' ctx' b = Ok [q; p; u; l; t; r; e].
Proof. exact turned_zones. Qed.
Print Assumptions C109_zones.

(** A quarter turn: the sides of the zones turn with the image. *)
Theorem C109_quarter_turn : forall junk ctx junk' ctx' a b, ordinary a -> rotate90 a = Ok b ->
  density b = density a /\ opposite 100 (proportionality a) (proportionality b) /\
  exists p q p' q' t r u l e,
    zones_of junk ctx a = Ok [p; q; t; r; u; l; e] /\ zones_of junk' ctx' b = Ok [p'; q'; r; u; l; t; e].
Proof. exact quarter_features. Qed.
Print Assumptions C109_quarter_turn.

(** ... and there are as many proportions of zones. *)
Theorem C109_proportions_partial : forall junk ctx junk' ctx' sort sort' a b,
  ordinary a -> is_std_sort Z.ltb sort -> is_std_sort Z.ltb sort' -> rotate90 a = Ok b ->
  exists p q, proportions_of junk ctx sort a = Ok p /\ proportions_of junk' ctx' sort' b = Ok q /\ List.length p = List.length q.
Proof. exact quarter_count. Qed.
Print Assumptions C109_proportions_partial.

Example C109_nonvacuous : ordinary ex_turn /\ turned_twice ex_turn ex_turned /\
  hdirection ex_turn = Ok 142 /\ hdirection ex_turned = Ok 57 /\ dvgravity ex_turn = Ok 155 /\ dvgravity ex_turned = Ok 44 /\
  hgravity2 ex_turn = Ok 66 /\ hgravity2 ex_turned = Ok 33 /\ hbar ex_turned = Ok 1 /\ dzdensity ex_turned = dzdensity ex_turn /\
  alternations_of ex_turn = Ok [mkalt true 4; mkalt false 2; mkalt true 3; mkalt false 3; mkalt false 3; mkalt true 2; mkalt true 4] /\
  alternations_of ex_turned = Ok [mkalt true 2; mkalt false 4; mkalt false 3; mkalt true 3; mkalt false 3; mkalt false 4; mkalt false 2] /\
  zones_of (fun _ => 7) new_zone_ctx ex_turn = Ok [1; 0; 1; 2; 1; 1; 0] /\
  zones_of (fun _ => 7) new_zone_ctx ex_turned = Ok [0; 1; 1; 1; 1; 2; 0].
Proof.
  split; [repeat split; vm_compute; congruence|]. split; [eexists; split; [vm_compute; reflexivity|vm_compute; reflexivity]|].
  repeat split; vm_compute; reflexivity.
Qed.

(** dvdirection2 and dvgravity2, which only look at the upper wedge, are not opposite. *)
Theorem C109_upper_wedge_refuted : exists a b, ordinary a /\ turned_twice a b /\
  dvdirection2 a = Ok 100 /\ dvdirection2 b = Ok 0 /\ dvgravity2 a = Ok 100 /\ dvgravity2 b = Ok 0 /\
  exists a' b', ordinary a' /\ turned_twice a' b' /\ dvdirection2 a' = Ok 100 /\ dvdirection2 b' = Ok 100.
Proof.
  exists ex_top, ex_low. split; [repeat split; vm_compute; congruence|]. split; [eexists; split; [vm_compute; reflexivity|vm_compute; reflexivity]|].
  do 4 (split; [vm_compute; reflexivity|]). exists (mkimage 1 2 (str "xx")), (mkimage 1 2 (str "xx")).
  split; [repeat split; vm_compute; congruence|]. split; [eexists; split; [vm_compute; reflexivity|vm_compute; reflexivity]|]. split; vm_compute; reflexivity.
Qed.
Print Assumptions C109_upper_wedge_refuted.

(** The proportions of the zones change when the image is turned by half a turn. *)
Theorem C109_proportions_refuted : exists a b, ordinary a /\ turned_twice a b /\ is_std_sort Z.ltb (isort Z.ltb) /\
  proportions_of (fun _ => 7) new_zone_ctx (isort Z.ltb) a = Ok [16; 16; 16; 50] /\
  proportions_of (fun _ => 7) new_zone_ctx (isort Z.ltb) b = Ok [20; 20; 20; 40].
Proof.
  exists ex_open, ex_opened. split; [repeat split; vm_compute; congruence|]. split; [eexists; split; [vm_compute; reflexivity|vm_compute; reflexivity]|].
  split; [apply isort_is_sort|]. split; vm_compute; reflexivity.
Qed.
Print Assumptions C109_proportions_refuted.

(** For other heights and widths, the rows and the column of the alternations are not those
    of the turned image. *)
Theorem C109_alternations_refuted : exists a b, ordinary a /\ turned_twice a b /\
  exists r1 r2 t u m l r, alternations_of a = Ok [r1; r2; t; u; m; l; r] /\
  exists r1' r2' m', alternations_of b = Ok [r1'; r2'; from_end u; from_end t; m'; from_end r; from_end l] /\
    r1' <> from_end r2 /\ m' <> from_end m.
Proof.
  exists ex_even, ex_evened. split; [repeat split; vm_compute; congruence|]. split; [eexists; split; [vm_compute; reflexivity|vm_compute; reflexivity]|].
  do 7 eexists. split; [vm_compute; reflexivity|]. do 3 eexists. split; [vm_compute; reflexivity|]. split; vm_compute; congruence.
Qed.
Print Assumptions C109_alternations_refuted.
