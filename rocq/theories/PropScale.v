(** Property C114: the features and the characters of an image that is enlarged. *)
From Verif Require Import Base SortModel SortProofs ImageModel ImageSpec ImageProofs BoxModel BoxSpec StratModel StratSpec ZoneModel ZoneSpec GlyphIoModel ExtractModel ExtractSpec LearnModel Ocr6Model
  TurnSpec PropPipeline PropRead PropOcr6 PropCompose ScaleSpec ScaleProofs3 ScaleProofs4.

(** A 4x6 picture:  -xx- / -x-- / -xxx / -x-- / -x-- / xxx- *)
Definition ex_scale : image := rows 4 ["-xx-"; "-x--"; "-xxx"; "-x--"; "-x--"; "xxx-"]%string.
(** A 5x5 picture:  xx--x / x--x- / xxxxx / ----x / -x--- *)
Definition ex_odd : image := rows 5 ["xx--x"; "x--x-"; "xxxxx"; "----x"; "-x---"]%string.

(** An image with blocks of [j] columns and [k] rows in the place of its pixels. *)
Theorem C114_enlarged : forall j k a, 0 < j -> 0 < k -> wf_image a -> j * iw a * (k * ih a) < 4294967296 -> 1 <= iw a -> 1 <= ih a ->
  wf_image (enlarge j k a) /\ scaled j k a (enlarge j k a).
Proof. exact enlarged. Qed.
Print Assumptions C114_enlarged.

(** C114, full statement: an image and the same one enlarged have the same features, and
    the same text is read.  The features that are always the same: *)
Theorem C114_counts : forall j k a b, 0 < j -> 0 < k -> wf_image a -> ordinary b -> scaled j k a b -> forall junk ctx junk' ctx',
  density b = density a /\ hbar b = hbar a /\ exists z, zones_of junk ctx a = Ok z /\ zones_of junk' ctx' b = Ok z.
Proof. exact scaled_counts. Qed.
Print Assumptions C114_counts.
(** ... those that are the same when both sides are enlarged as much: *)
Theorem C114_same : forall j k a b, 0 < j -> 0 < k -> wf_image a -> ordinary b -> scaled j k a b -> forall junk ctx junk' ctx' sort sort', j = k -> is_std_sort Z.ltb sort -> is_std_sort Z.ltb sort' ->
  proportionality b = proportionality a /\ exists q, proportions_of junk ctx sort a = Ok q /\ proportions_of junk' ctx' sort' b = Ok q.
Proof. exact scaled_same. Qed.
Print Assumptions C114_same.
(** ... those that are the same for even heights; the gravity is that of the halves, less
    what the rows of a block add. *)
Theorem C114_halves_partial : forall j k a b, 0 < j -> 0 < k -> wf_image a -> ordinary b -> scaled j k a b -> Z.even (ih a) = true -> hdirection b = hdirection a /\ hdirection2 b = hdirection2 a /\
  let g side := 2 * k * ink_sum a (half_gravity side a) - (k - 1) * ink_sum a (half side a) in hgravity b = Ok (share (g upper) (g lower)).
Proof. exact scaled_halves. Qed.
Print Assumptions C114_halves_partial.
(** ... the alternations of the second row and of the middle column; those of the first row,
    of the thirds from above and from below, and of those from the sides, for some sizes. *)
Theorem C114_alternations_partial : forall j k a b, 0 < j -> 0 < k -> wf_image a -> ordinary b -> scaled j k a b ->
  exists r1 r2 t u m l r, alternations_of a = Ok [r1; r2; t; u; m; l; r] /\
  exists r1' t' u' l' r', alternations_of b = Ok [r1'; r2; t'; u'; m; l'; r'] /\
    (ih a mod 3 <> 1 -> r1' = r1) /\ (ih a mod 3 = 0 -> t' = t /\ u' = u) /\ (iw a mod 3 = 0 -> l' = l /\ r' = r).
Proof. exact scaled_alternations. Qed.
Print Assumptions C114_alternations_partial.

(** The characters are enlarged, if the last column is blank. *)
Theorem C114_characters_partial : forall j k a b, 0 < j -> 0 < k -> scaled j k a b -> blank_edge a -> box_searchable a -> box_searchable b -> forall boxes, segment a = Ok boxes ->
  segment b = Ok (map (scaled_box j k) boxes) /\
  forall t im im', char_image a t im -> char_image b (scaled_box j k t) im' -> scaled j k im im'.
Proof. intros j k a b Hj Hk HS BE Sa Sb boxes E. exact (conj (segment_scaled j k a b Hj Hk HS BE Sa Sb boxes E) (chars_scaled j k a b Hj Hk HS)). Qed.
Print Assumptions C114_characters_partial.

Lemma ex_enlarged j k a : (0 <? j) && (0 <? k) && (1 <=? iw a) && (1 <=? ih a) && (j * iw a * (k * ih a) <? 4294967296) = true -> wf_image a -> scaled j k a (enlarge j k a).
Proof. intros H W. apply enlarged; [lia|lia|exact W|lia|lia|lia]. Qed.
Ltac enlarging := apply ex_enlarged; [vm_compute; reflexivity|repeat split; vm_compute; congruence].

Example C114_nonvacuous : wf_image ex_scale /\ ordinary (enlarge 2 2 ex_scale) /\ scaled 2 2 ex_scale (enlarge 2 2 ex_scale) /\ ordinary (enlarge 1 3 ex_scale) /\ scaled 1 3 ex_scale (enlarge 1 3 ex_scale) /\
  is_std_sort Z.ltb (isort Z.ltb) /\ Z.even (ih ex_scale) = true /\
  density ex_scale = Ok 45 /\ density (enlarge 2 2 ex_scale) = Ok 45 /\ hdirection ex_scale = Ok 109 /\ hdirection (enlarge 1 3 ex_scale) = Ok 109 /\
  proportions_of (fun _ => 7) new_zone_ctx (isort Z.ltb) (enlarge 2 2 ex_scale) = Ok [20; 20; 60] /\ zones_of (fun _ => 7) new_zone_ctx (enlarge 1 3 ex_scale) = Ok [0; 0; 2; 2; 1; 1; 0] /\
  blank_edge ex_ring /\ box_searchable ex_ring /\ box_searchable (enlarge 3 2 ex_ring) /\ segment ex_ring = Ok [mkbox 1 0 3 3] /\ segment (enlarge 3 2 ex_ring) = Ok [mkbox 3 0 9 6].
Proof.
  split; [repeat split; vm_compute; congruence|]. split; [repeat split; vm_compute; congruence|]. split; [enlarging|]. split; [repeat split; vm_compute; congruence|]. split; [enlarging|].
  split; [apply isort_is_sort|]. do 7 (split; [vm_compute; reflexivity|]).
  split.
  { intros y. destruct (ink ex_ring (iw ex_ring - 1) y) eqn:E; [|reflexivity]. pose proof (ink_inside _ _ _ E) as (_ & Hy). change (ih ex_ring) with 3 in Hy.
    assert (C : y = 0 \/ y = 1 \/ y = 2) by lia. destruct C as [-> | [-> | ->]]; vm_compute in E; discriminate. }
  split; [repeat split; vm_compute; congruence|]. split; [repeat split; vm_compute; congruence|]. split; vm_compute; reflexivity.
Qed.

(** The upper and lower halves of an odd height leave out the row in the middle, which
    becomes several rows. *)
Theorem C114_odd_refuted : exists a, wf_image a /\ ordinary (enlarge 2 2 a) /\ scaled 2 2 a (enlarge 2 2 a) /\
  hdirection a = Ok 142 /\ hdirection (enlarge 2 2 a) = Ok 125 /\ hdirection2 a = Ok 65 /\ hdirection2 (enlarge 2 2 a) = Ok 62.
Proof. exists ex_odd. split; [repeat split; vm_compute; congruence|]. split; [repeat split; vm_compute; congruence|]. split; [enlarging|]. repeat split; vm_compute; reflexivity. Qed.
Print Assumptions C114_odd_refuted.
(** The features that follow the rows or the diagonals, for an even height. *)
Theorem C114_gravity_refuted : exists a, wf_image a /\ ordinary (enlarge 2 2 a) /\ scaled 2 2 a (enlarge 2 2 a) /\ Z.even (ih a) = true /\
  hgravity a = Ok 95 /\ hgravity (enlarge 2 2 a) = Ok 93 /\ dvdirection a = Ok 85 /\ dvdirection (enlarge 2 2 a) = Ok 90 /\ dvdirection2 a = Ok 50 /\ dvdirection2 (enlarge 2 2 a) = Ok 62 /\
  dvgravity a = Ok 84 /\ dvgravity (enlarge 2 2 a) = Ok 89 /\ dvgravity2 a = Ok 50 /\ dvgravity2 (enlarge 2 2 a) = Ok 62 /\ dzdensity a = Ok 25 /\ dzdensity (enlarge 2 2 a) = Ok 38 /\
  hgravity2 a = Ok 47 /\ hgravity2 (enlarge 3 3 a) = Ok 46.
Proof. exists ex_scale. split; [repeat split; vm_compute; congruence|]. split; [repeat split; vm_compute; congruence|]. split; [enlarging|]. repeat split; vm_compute; reflexivity. Qed.
Print Assumptions C114_gravity_refuted.
(** The proportions of an image that is only made higher. *)
Theorem C114_higher_refuted : exists a, wf_image a /\ ordinary (enlarge 1 2 a) /\ scaled 1 2 a (enlarge 1 2 a) /\ is_std_sort Z.ltb (isort Z.ltb) /\
  proportionality a = Ok 40 /\ proportionality (enlarge 1 2 a) = Ok 25 /\
  proportions_of (fun _ => 7) new_zone_ctx (isort Z.ltb) a = Ok [20; 20; 60] /\ proportions_of (fun _ => 7) new_zone_ctx (isort Z.ltb) (enlarge 1 2 a) = Ok [12; 12; 75].
Proof. exists ex_scale. split; [repeat split; vm_compute; congruence|]. split; [repeat split; vm_compute; congruence|]. split; [enlarging|]. split; [apply isort_is_sort|]. repeat split; vm_compute; reflexivity. Qed.
Print Assumptions C114_higher_refuted.
(** The lines of the alternations for the other sizes: the thirds of a 5x5 picture, the
    first row of a height that is 1 modulo 3. *)
Theorem C114_alternations_refuted :
  (exists a r1 r2 t u m l r u' l' r', wf_image a /\ ordinary (enlarge 2 2 a) /\ scaled 2 2 a (enlarge 2 2 a) /\ alternations_of a = Ok [r1; r2; t; u; m; l; r] /\
    alternations_of (enlarge 2 2 a) = Ok [r1; r2; t; u'; m; l'; r'] /\ u' <> u /\ l' <> l /\ r' <> r) /\
  (exists a r1 r1' rest, wf_image a /\ ordinary (enlarge 1 2 a) /\ scaled 1 2 a (enlarge 1 2 a) /\ ih a mod 3 = 1 /\ alternations_of a = Ok (r1 :: rest) /\ alternations_of (enlarge 1 2 a) = Ok (r1' :: rest) /\ r1' <> r1).
Proof.
  split.
  - exists ex_odd. do 10 eexists. split; [repeat split; vm_compute; congruence|]. split; [repeat split; vm_compute; congruence|]. split; [enlarging|]. split; [vm_compute; reflexivity|].
    split; [vm_compute; reflexivity|]. split; [discriminate|]. split; discriminate.
  - exists (rows 2 ["xx"; "x-"; "--"; "--"]%string). do 3 eexists. split; [repeat split; vm_compute; congruence|]. split; [repeat split; vm_compute; congruence|]. split; [enlarging|]. split; [vm_compute; reflexivity|].
    split; [vm_compute; reflexivity|]. split; [vm_compute; reflexivity|]. discriminate.
Qed.
Print Assumptions C114_alternations_refuted.
(** Ink in the last column, which is not seen, is seen when there are two of them. *)
Theorem C114_edge_refuted : exists a, box_searchable a /\ box_searchable (enlarge 2 1 a) /\ scaled 2 1 a (enlarge 2 1 a) /\ segment a = Ok [] /\ segment (enlarge 2 1 a) = Ok [mkbox 2 0 1 1].
Proof. exists (rows 2 ["-x"]%string). split; [repeat split; vm_compute; congruence|]. split; [repeat split; vm_compute; congruence|]. split; [enlarging|]. split; vm_compute; reflexivity. Qed.
Print Assumptions C114_edge_refuted.
(** A character that extract_text6 was taught is not read when it is twice as large. *)
Theorem C114_text_refuted : scaled 2 2 ex_ring (enlarge 2 2 ex_ring) /\ blank_edge ex_ring /\
  extract_text6 ex_rt6 (write_glyphs ex_ohs) ex_features (picture ex_ring) None = Ok (str "o ", str "o ", str "o") /\
  extract_text6 ex_rt6 (write_glyphs ex_ohs) ex_features (picture (enlarge 2 2 ex_ring)) None = Ok (str "_ ", str "_ ", []).
Proof. split; [enlarging|]. split; [apply C114_nonvacuous|]. split; vm_compute; reflexivity. Qed.
Print Assumptions C114_text_refuted.
