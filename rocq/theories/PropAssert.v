(** Property C90: the assertions of the code. *)
From Verif Require Import Base SortModel DatasModel ImageModel ImageSpec ImageProofs BoxModel BoxSpec BoxProofs StratModel Ocr6Model AssertModel AssertSpec AssertProofs.
From Verif Require Import TrieModel SpellModel IndexModel GlyphsModel RecogModel AssembleModel AssembleSpec AssembleProofs FilterSpec AssertModel2 AssertProofs2 PropAssemble.

(** C90 (full statement): in a build with assertions, no assertion of the code
    about the pixels of an image is ever false.  It is false.  Cutting an image
    into boxes evaluates only true assertions exactly when the image has at
    least two rows or has ink in its last column. *)
Theorem C90_boxes_partial :
  forall img, box_searchable img ->
  exists l, segment_asserts img = Ok l /\
    (all_true l <-> 2 <= ih img \/ col_has_ink img (iw img - 1)).
Proof. exact segment_asserts_ok. Qed.
Print Assumptions C90_boxes_partial.

(** A blank line of one row stops a program built with assertions. *)
Theorem C90_one_row_refuted :
  exists img l, box_searchable img /\ segment_asserts img = Ok l /\ ~ all_true l.
Proof.
  exists (mkimage 3 1 (str "---")), [true; false]. split; [|split].
  - repeat split; simpl; lia.
  - reflexivity.
  - intros H. specialize (H false (or_intror (or_introl eq_refl))). discriminate H.
Qed.
Print Assumptions C90_one_row_refuted.

(** The assertions of Image::section say exactly that the section is inside the
    image and starts at one of its pixels. *)
Theorem C90_section :
  forall img x y w h, wf_image img -> 0 <= x -> 0 <= w -> 0 <= y -> 0 <= h ->
  x + w < 4294967296 -> y + h < 4294967296 ->
  (assert_section img x y w h = true <-> x < iw img /\ y < ih img /\ x + w <= iw img /\ y + h <= ih img).
Proof. exact section_iff. Qed.
Print Assumptions C90_section.

(** clone() stops exactly on the images without pixels. *)
Theorem C90_clone :
  forall img, wf_image img -> (all_true (clone_asserts img) <-> 0 < iw img /\ 0 < ih img).
Proof. exact clone_asserts_ok. Qed.
Print Assumptions C90_clone.

(** The features of an image and of its quarter turn evaluate only true
    assertions. *)
Theorem C90_features :
  forall img img90, wf_image img -> 1 <= iw img -> 1 <= ih img ->
  wf_image img90 -> iw img90 = ih img -> ih img90 = iw img ->
  all_true (middle_asserts img ++ middle_asserts img90 ++ corner_asserts img ++ corner_asserts img90 ++
            alternation_asserts img img90).
Proof. exact features_asserts_ok. Qed.
Print Assumptions C90_features.

(** Two values of a feature within its interval satisfy the assertion of
    compute_relationship; the assertion allows a distance of at most 1% more. *)
Theorem C90_relation_inside :
  forall i a b, 0 < i -> 100 * i < 4294967296 -> 0 <= a <= i -> 0 <= b <= i -> relation_assert a b i = Ok true.
Proof. exact relation_assert_ok. Qed.
Print Assumptions C90_relation_inside.
Theorem C90_relation :
  forall i a b, 0 < i -> 0 <= a < 4294967296 -> 0 <= b < 4294967296 -> 100 * Z.abs (a - b) < 4294967296 ->
  exists v, relation_assert a b i = Ok v /\ (v = true <-> 100 * Z.abs (a - b) < 101 * i).
Proof. exact relation_assert_iff. Qed.
Print Assumptions C90_relation.

(** The last group of extract_text6 ends at the last glyph, for every column
    that fits the interval of the feature. *)
Theorem C90_groups :
  forall interval col, 0 <= interval < 1000 -> (forall x, In x col -> 0 <= x /\ x / 10 <= interval) ->
  Z.of_nat (List.length col) < 4294967296 -> groups_assert interval col = Ok true.
Proof. exact groups_assert_ok. Qed.
Print Assumptions C90_groups.

(** The assembly of a line evaluates only true assertions, whatever the
    dictionary whose answers are [spell] (C36_ligatures_read). *)
Theorem C90_assembly :
  forall g dict st amb brks spell,
  resolvable g st amb -> increasing_breaks (vsize amb) brks -> vsize amb < 4294967296 ->
  spelled_by dict (line_of g st amb brks) spell ->
  exists a, assemble_asserts g dict st amb (brks ++ [vsize amb]) = Ok a /\ all_true a.
Proof. exact assemble_asserts_ok. Qed.
Print Assumptions C90_assembly.

(** The distance of two values of a feature satisfies the assertion of
    dist_with. *)
Theorem C90_distance_interval :
  forall n a b, 0 < n -> 100 * n < 4294967296 -> 0 <= a <= n -> 0 <= b <= n -> dist_assert (RInterval n) (VNum a) (VNum b) = Ok true.
Proof. exact dist_interval. Qed.
Print Assumptions C90_distance_interval.
Theorem C90_distance_equal : forall a b, dist_assert REqual (VNum a) (VNum b) = Ok true.
Proof. exact dist_equal. Qed.
Print Assumptions C90_distance_equal.
Theorem C90_distance_alternations :
  forall a b, a <> [] -> List.length a = List.length b -> dist_assert RAlts (VAlts a) (VAlts b) = Ok true.
Proof. exact dist_alts. Qed.
Print Assumptions C90_distance_alternations.
Theorem C90_distance_zones :
  forall a b, a <> [] -> List.length a = List.length b -> dist_assert RZones (VArr a) (VArr b) = Ok true.
Proof. exact dist_zones. Qed.
Print Assumptions C90_distance_zones.
Theorem C90_distance_proportionality :
  forall a b, (forall x, In x a -> 0 <= x <= 100) -> (forall y, In y b -> 0 <= y <= 100) ->
  (forall x y, In (x, y) (combine a b) -> 0 < x + y) -> 100 * Z.of_nat (List.length a) < 4294967296 ->
  dist_assert RPz (VVec a) (VVec b) = Ok true.
Proof. exact dist_pz. Qed.
Print Assumptions C90_distance_proportionality.

(** The indexes of extract_text6 and extract_text8 are as many as the glyphs
    exactly when those can be counted with an unsigned integer. *)
Theorem C90_indexes : forall count, 0 <= count -> (indexes_assert count = true <-> count < 4294967296).
Proof. exact indexes_assert_iff. Qed.
Print Assumptions C90_indexes.

Example C90_boxes_ex :
  segment_asserts (mkimage 4 2 (str "x---xx--")) = Ok [true; true; true; true; true].
Proof. reflexivity. Qed.
Example C90_one_row_ink : segment_asserts (mkimage 3 1 (str "--x")) = Ok [true; true].
Proof. reflexivity. Qed.
Example C90_features_nonvacuous :
  exists img img90, wf_image img /\ rotate90 img = Ok img90 /\ wf_image img90 /\
    iw img90 = ih img /\ ih img90 = iw img /\ List.length (alternation_asserts img img90) = 7%nat.
Proof.
  exists (mkimage 3 2 (str "x--xx-")). eexists. split; [repeat split; simpl; lia|].
  split; [reflexivity|]. split; [repeat split; simpl; lia|]. repeat split.
Qed.
Example C90_relation_ex : relation_assert 201 0 100 = Ok false /\ relation_assert 100 0 100 = Ok true.
Proof. split; reflexivity. Qed.
Example C90_groups_ex : groups_assert 20 [0; 31; 57; 200; 205] = Ok true.
Proof. reflexivity. Qed.
Example C90_assembly_ex :
  assemble_asserts ex_table [] ex_store [1; 2; 0; 3; 1] [3; 5] =
    Ok [true; true; true; true; true; true; true; true; true; true; true; true] /\
  assemble_asserts ex_table [] ex_store [1; 2; 0; 3; 1] [3; 2] = Ok [true; true; true; true; true; true; false].
Proof. split; vm_compute; reflexivity. Qed.
Example C90_distance_ex :
  dist_assert (RInterval 100) (VNum 150) (VNum 0) = Ok false /\ dist_assert RPz (VVec [20; 80]) (VVec [50; 50]) = Ok true.
Proof. split; vm_compute; reflexivity. Qed.
