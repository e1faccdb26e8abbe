(** Properties C12-C19: similarity scores and image measures. *)
From Verif Require Import Base ImageModel ImageSpec StratModel StratSpec StratFeatures StratFeatures2 StratFeatures3.

(** A 4x5 picture used as a witness:  xxxx / x--- / -xx- / ---x / xxxx *)
Definition img45 : image := mkimage 4 5 (str "xxxxx----xx----xxxxx").
Lemma img45_wf : wf_image img45.
Proof. repeat split; vm_compute; congruence. Qed.
Lemma img45_measurable : measurable img45 (4 * 5 * 5).
Proof. split; [exact img45_wf|]. repeat split; vm_compute; congruence. Qed.

(** C12: similarity with an interval. *)
Theorem C12_interval_similarity : forall i a b,
  0 < i -> 100 * i < 4294967296 -> 0 <= a <= i -> 0 <= b <= i ->
  exists v, interval_compute i a b = Ok v /\ interval_compute i b a = Ok v /\ 0 <= v <= 100 /\
    (a = b -> v = 100) /\
    v = 100 - 100 * Z.abs (a - b) / i /\
    (forall c u, 0 <= c <= i -> Z.abs (a - b) <= Z.abs (a - c) ->
      interval_compute i a c = Ok u -> u <= v).
Proof. exact interval_law. Qed.
Print Assumptions C12_interval_similarity.

Theorem C12_interval_distance : forall a b d,
  0 <= a -> 0 <= b -> 0 <= d -> a + d < 4294967296 -> b + d < 4294967296 ->
  interval_in_dist a b d = true <-> d < Z.abs (a - b).
Proof. exact interval_in_dist_ok. Qed.
Print Assumptions C12_interval_distance.

(** C12: similarity of two alternation tables: the percentage of equal entries. *)
Theorem C12_array_similarity : forall (a b : list alternation) d,
  a <> [] -> List.length a = List.length b ->
  exists v, array_compute alt_eqb a b = Ok v /\ array_compute alt_eqb b a = Ok v /\ 0 <= v <= 100 /\
    (v = 100 <-> a = b) /\
    v = 100 * Z.of_nat (List.length (filter (fun '(x, y) => alt_eqb x y) (combine a b))) / Z.of_nat (List.length a) /\
    array_in_dist alt_eqb a b d = Ok (d <=? v).
Proof. intros a b d. exact (array_law alt_eqb alt_eqb_eq a b d). Qed.
Print Assumptions C12_array_similarity.

(** C12: similarity of two counts of bars: they are equal or they are not. *)
Theorem C12_equal_similarity : forall a b d,
  (equal_compute a b = true <-> a = b) /\ (equal_in_dist a b d = true <-> a = b).
Proof. intros a b d. split; apply Z.eqb_eq. Qed.
Print Assumptions C12_equal_similarity.

(** On the 0..200 features two values at distance one still score 100. *)
Example C12_nonvacuous :
  interval_compute 100 30 80 = Ok 50 /\ interval_compute 200 7 8 = Ok 100 /\
  interval_in_dist 30 80 10 = true /\ interval_in_dist 30 40 10 = false /\
  array_compute alt_eqb [mkalt true 1; mkalt true 2; mkalt false 2]
                        [mkalt true 1; mkalt true 3; mkalt true 2] = Ok 33.
Proof. vm_compute; repeat split. Qed.

(** C13. *)
Theorem C13_hdirection : forall img, measurable img (iw img * ih img) ->
  let t := ink_sum img (half upper img) in let b := ink_sum img (half lower img) in
  hdirection img = Ok (share t b) /\ 0 <= share t b <= 200.
Proof. intros img (Hwf & Hw & Hh & Hb). exact (hdirection_ok img Hwf Hw Hh Hb). Qed.
Print Assumptions C13_hdirection.

Theorem C13_hdirection2 : forall img, measurable img (iw img * ih img) ->
  let t := ink_sum img (half upper img) in let b := ink_sum img (half lower img) in
  let A := cell_sum img (half upper img) in
  exists v, hdirection2 img = Ok v /\ 0 <= v <= 100 /\
    v = if ih img <? 2 then 50 else (A + t - b) * 100 / (2 * A).
Proof. intros img (Hwf & Hw & Hh & Hb). exact (hdirection2_ok img Hwf Hw Hh Hb). Qed.
Print Assumptions C13_hdirection2.

Example C13_nonvacuous : measurable img45 (4 * 5 * 5) /\
  hdirection img45 = Ok 100 /\ hdirection (mkimage 2 3 (str "xx--x-")) = Ok 133 /\
  hdirection2 (mkimage 2 3 (str "xx--x-")) = Ok 75.
Proof. split; [exact img45_measurable|vm_compute; repeat split]. Qed.

(** C14. *)
Theorem C14_hgravity : forall img, measurable img (iw img * ih img * ih img) ->
  let t := ink_sum img (half_gravity upper img) in
  let b := ink_sum img (half_gravity lower img) in
  hgravity img = Ok (share t b) /\ 0 <= share t b <= 200.
Proof. intros img (Hwf & Hw & Hh & Hb). exact (hgravity_ok img Hwf Hw Hh Hb). Qed.
Print Assumptions C14_hgravity.

Theorem C14_hgravity2 : forall img, measurable img (iw img * ih img * ih img) ->
  let t := ink_sum img (half_gravity upper img) in
  let b := ink_sum img (half_gravity lower img) in
  let A := cell_sum img (half_gravity upper img) in
  exists v, hgravity2 img = Ok v /\ 0 <= v <= 100 /\
    v = if ih img <? 2 then 50 else (A + t - b) * 100 / (2 * A).
Proof. intros img (Hwf & Hw & Hh & Hb). exact (hgravity2_ok img Hwf Hw Hh Hb). Qed.
Print Assumptions C14_hgravity2.

Definition img24 : image := mkimage 2 4 (str "xxx----x").
Example C14_nonvacuous : measurable img24 (2 * 4 * 4) /\
  hgravity img24 = Ok 142 /\ hgravity2 img24 = Ok 75.
Proof.
  split; [|vm_compute; repeat split]. repeat split; vm_compute; congruence.
Qed.

(** C15.  The second variants ignore the lower wedge altogether: they are the
    percentage of ink in the upper wedge. *)
Theorem C15_dvdirection : forall img, measurable img (iw img * ih img) ->
  let t := ink_sum img (wedge upper img) in let b := ink_sum img (wedge lower img) in
  dvdirection img = Ok (share t b) /\ 0 <= share t b <= 200.
Proof. intros img (Hwf & Hw & Hh & Hb). exact (dvdirection_ok img Hwf Hw Hh Hb). Qed.
Print Assumptions C15_dvdirection.

Theorem C15_dvgravity : forall img, measurable img (iw img * ih img * ih img) ->
  let t := ink_sum img (wedge_gravity upper img) in
  let b := ink_sum img (wedge_gravity lower img) in
  dvgravity img = Ok (share t b) /\ 0 <= share t b <= 200.
Proof. intros img (Hwf & Hw & Hh & Hb). exact (dvgravity_ok img Hwf Hw Hh Hb). Qed.
Print Assumptions C15_dvgravity.

Theorem C15_dvdirection2 : forall img, measurable img (iw img * ih img) ->
  let t := ink_sum img (wedge upper img) in
  let A := cell_sum img (wedge upper img) in
  exists v, dvdirection2 img = Ok v /\ 0 <= v <= 100 /\
    v = if ih img <? 2 then 50 else 100 * t / A.
Proof. intros img (Hwf & Hw & Hh & Hb). exact (dvdirection2_ok img Hwf Hw Hh Hb). Qed.
Print Assumptions C15_dvdirection2.

Theorem C15_dvgravity2 : forall img, measurable img (iw img * ih img * ih img) ->
  let t := ink_sum img (wedge_gravity upper img) in
  let A := cell_sum img (wedge_gravity upper img) in
  exists v, dvgravity2 img = Ok v /\ 0 <= v <= 100 /\
    v = if ih img <? 2 then 50 else 100 * t / A.
Proof. intros img (Hwf & Hw & Hh & Hb). exact (dvgravity2_ok img Hwf Hw Hh Hb). Qed.
Print Assumptions C15_dvgravity2.

Example C15_nonvacuous : measurable img45 (4 * 5 * 5) /\
  dvdirection img45 = Ok 100 /\ dvgravity img45 = Ok 100 /\
  dvdirection2 img45 = Ok 66 /\ dvgravity2 img45 = Ok 80.
Proof. split; [exact img45_measurable|vm_compute; repeat split]. Qed.

(** C16. *)
Theorem C16_density : forall img, measurable img (iw img * ih img) ->
  exists v, density img = Ok v /\ 0 <= v <= 100 /\
    v = 100 * ink_sum img (fun _ _ => 1) / (iw img * ih img).
Proof. exact density_ok. Qed.
Print Assumptions C16_density.

Theorem C16_proportionality : forall img,
  0 <= iw img -> 0 <= ih img -> 1 <= iw img + ih img < 4294967296 -> 100 * iw img < 4294967296 ->
  exists v, proportionality img = Ok v /\ 0 <= v <= 100 /\ v = 100 * iw img / (iw img + ih img).
Proof. exact proportionality_ok. Qed.
Print Assumptions C16_proportionality.

(** Without the size bound the density is wrong: a fully inked line of 42949673
    pixels has density 0. *)
Theorem C16_density_overflow_refuted :
  exists img, wf_image img /\ 1 <= iw img /\ 1 <= ih img /\
    exists v, density img = Ok v /\ v <> 100 * ink_sum img (fun _ _ => 1) / (iw img * ih img).
Proof. exact density_wraps. Qed.
Print Assumptions C16_density_overflow_refuted.

Example C16_nonvacuous : measurable img45 (4 * 5 * 5) /\
  density img45 = Ok 60 /\ proportionality img45 = Ok 44.
Proof. split; [exact img45_measurable|vm_compute; repeat split]. Qed.

(** C17. *)
Theorem C17_dzdensity : forall img,
  wf_image img -> 100 * (iw img * ih img) < 2147483648 ->
  exists v, dzdensity img = Ok v /\ 0 <= v <= 100 /\
    v = if (iw img <? 3) || (ih img <? 3) then 0
        else 100 * ink_sum img (band img) / cell_sum img (band img).
Proof. exact dzdensity_ok. Qed.
Print Assumptions C17_dzdensity.

Example C17_nonvacuous : wf_image img45 /\ dzdensity img45 = Ok 50.
Proof. split; [exact img45_wf|vm_compute; repeat split]. Qed.

(** C18. *)
Theorem C18_alternations : forall img,
  wf_image img -> 1 <= iw img -> 1 <= ih img -> ih img < 2147483648 ->
  exists img90, rotate90 img = Ok img90 /\ alternations img img90 = Ok (alternations_spec img).
Proof. exact alternations_ok. Qed.
Print Assumptions C18_alternations.

Example C18_nonvacuous : wf_image img45 /\
  alternations_spec img45 =
    [mkalt true 2; mkalt false 2; mkalt true 1; mkalt true 1; mkalt true 5; mkalt true 3; mkalt true 3].
Proof. split; [exact img45_wf|vm_compute; reflexivity]. Qed.

(** C19. *)
Theorem C19_hbar : forall img, wf_image img -> 1 <= iw img -> hbar img = Ok (bar_count img).
Proof. exact hbar_ok. Qed.
Print Assumptions C19_hbar.

Example C19_nonvacuous : wf_image img45 /\ bar_count img45 = 2.
Proof. split; [exact img45_wf|vm_compute; reflexivity]. Qed.
