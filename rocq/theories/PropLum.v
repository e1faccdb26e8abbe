(** Property C118: the luminance. *)
From Verif Require Import Base SortModel ImageModel ImageSpec PnmModel PnmSpec BoxModel StratModel StratSpec ShowModel LearnModel LumSpec LumProofs.

(** C118, full statement: a greater luminance only takes ink away, so that the density
    and the number of characters do not increase.  Proved for the ink, whatever the
    file ends with, and for the density. *)
Theorem C118_ink : forall buf lum lum', lum <= lum' ->
  (exists a b, image_of_bytes buf lum = Ok a /\ image_of_bytes buf lum' = Ok b /\ less_ink a b) \/
  ((forall a, image_of_bytes buf lum <> Ok a) /\ image_of_bytes buf lum' = image_of_bytes buf lum).
Proof. exact luminance_less. Qed.
Print Assumptions C118_ink.
Theorem C118_density_partial : forall buf lum lum' a b, lum <= lum' -> image_of_bytes buf lum = Ok a -> image_of_bytes buf lum' = Ok b -> measurable a (iw a * ih a) ->
  exists v v', density a = Ok v /\ density b = Ok v' /\ v' <= v.
Proof. exact luminance_density. Qed.
Print Assumptions C118_density_partial.
(** Exactly: the images are the same when no colour has a luminance between them. *)
Theorem C118_same : forall w h hdr payload lum lum', header_text 54 w h hdr -> bytes payload -> 0 < w * h < 4294967296 -> Z.of_nat (List.length payload) = 3 * (w * h) -> lum <= lum' ->
  (image_of_bytes (hdr ++ payload) lum' = image_of_bytes (hdr ++ payload) lum <-> forall c, has_luminance payload c -> ~ lum <= c < lum').
Proof. exact luminance_same. Qed.
Print Assumptions C118_same.
(** All is ink with 0, nothing with 256; the other luminances are as these. *)
Theorem C118_extremes : forall buf lum a, coloured buf -> image_of_bytes buf lum = Ok a ->
  (lum <= 0 -> Forall (eq 120) (idata a)) /\ (256 <= lum -> Forall (eq 45) (idata a)).
Proof. exact luminance_extremes. Qed.
Print Assumptions C118_extremes.
Theorem C118_range : forall buf lum, image_of_bytes buf (clamp lum) = image_of_bytes buf lum.
Proof. exact luminance_clamped. Qed.
Print Assumptions C118_range.
(** The luminance only matters for maps of colours. *)
Theorem C118_other_files : forall buf lum lum', ~ coloured buf -> image_of_bytes buf lum' = image_of_bytes buf lum.
Proof. exact luminance_uncoloured. Qed.
Print Assumptions C118_other_files.
(** So it is of show_glyphs and write_glyphs, whose images are the first of three
    names. *)
Theorem C118_programs_range : forall disk lum names out,
  show_files disk (clamp lum) names out = show_files disk lum names out /\ learn_files disk (clamp lum) names out = learn_files disk lum names out.
Proof. exact programs_clamped. Qed.
Print Assumptions C118_programs_range.
Theorem C118_programs_other : forall disk lum lum' names out,
  (Forall (fun n => plain_file (disk n)) names -> show_files disk lum' names out = show_files disk lum names out) /\
  ((forall k i, nth_error names (3 * k) = Some i -> plain_file (disk i)) -> learn_files disk lum' names out = learn_files disk lum names out).
Proof. exact programs_plain. Qed.
Print Assumptions C118_programs_other.

(** Two bright columns and a dim one between them, then a dark one. *)
Definition ex_dim : list Z := str "P6" ++ [10] ++ str "4 1" ++ [10] ++ str "255" ++ [10; 250; 250; 250; 100; 100; 100; 200; 200; 200; 0; 0; 0].
Definition ex_boxes (lum : Z) : res (list box) := img <- image_of_bytes ex_dim lum ;; segment img.
Theorem C118_characters_refuted :
  ex_boxes 50 = Ok [mkbox 0 0 3 1] /\ ex_boxes 150 = Ok [mkbox 0 0 1 1; mkbox 2 0 1 1] /\ ex_boxes 220 = Ok [mkbox 0 0 1 1] /\ ex_boxes 256 = Ok [].
Proof. repeat split; vm_compute; reflexivity. Qed.
Print Assumptions C118_characters_refuted.
Example C118_nonvacuous : coloured ex_dim /\ image_of_bytes ex_dim 50 = Ok (mkimage 4 1 (str "xxx-")) /\ image_of_bytes ex_dim 150 = Ok (mkimage 4 1 (str "x-x-")) /\
  image_of_bytes ex_dim 151 = image_of_bytes ex_dim 150 /\ image_of_bytes ex_dim (- 7) = Ok (mkimage 4 1 (str "xxxx")) /\ image_of_bytes ex_dim 256 = Ok (mkimage 4 1 (str "----")) /\
  measurable (mkimage 4 1 (str "xxx-")) 4 /\ density (mkimage 4 1 (str "xxx-")) = Ok 75 /\ density (mkimage 4 1 (str "x-x-")) = Ok 50.
Proof.
  split.
  - exists 4, 1, (str "P6" ++ [10] ++ str "4 1" ++ [10] ++ str "255" ++ [10]), [250; 250; 250; 100; 100; 100; 200; 200; 200; 0; 0; 0]. split; [|reflexivity].
    apply (header_text_max 54 4 1 [] (str "4") (str "1") (str "255") 255); try lia; [constructor|..]; repeat split; try discriminate; repeat constructor; unfold digit; simpl; lia.
  - repeat split; vm_compute; congruence.
Qed.
