(** What main/extract_text8.cpp is expected to compute. *)
From Verif Require Import Base SortModel ImageModel BoxModel StratModel ZoneModel DatasModel DatasSpec FloatModel FloatSpec RecogModel RecogSpec ExtractSpec AssembleSpec
  TrieModel StreamModel GlyphIoModel GlyphIoSpec IndexModel Ocr6Model Ocr6Spec Ocr8Model.
From Coq Require Import Sorted SpecFloat Permutation.

(** * Recognition *)
(** The candidates: every simple feature at a tenth of its range at most. *)
Definition near8 (cols : list (list fval)) (n : Z) (value : strategy -> Z) (i : Z) : Prop :=
  0 <= i < n /\ forall s a, In s simple_strategies -> cell6 cols s i (VNum a) -> Z.abs (a - value s) <= range s / 10.
(** The similarity of two values of a feature, in hundredths. *)
Definition similarity (s : strategy) (a b : Z) : Z := (range s - Z.abs (a - b)) * 100 / range s.
(** The order in which the features are used. *)
Definition feature_order : list strategy :=
  [mkst Dvdirection true; mkst Hgravity2 false; mkst Dvgravity true; mkst Density false; mkst Hgravity true;
   mkst Dvdirection false; mkst Proportionality false; mkst Hgravity false; mkst Hgravity2 true; mkst Dvgravity false;
   mkst Hdirection2 true; mkst Dvgravity2 false; mkst Dvdirection2 false; mkst Dvdirection2 true; mkst Hdirection true;
   mkst Hdirection2 false; mkst Dzdensity true; mkst Dvgravity2 true; mkst Hdirection false; mkst Dzdensity false].
(** The score is the product of the similarities. *)
Definition product8 (row value : strategy -> Z) : double :=
  fold_left (fun p s => share p (similarity s (row s) (value s)) 100) feature_order d1.
Definition row_of (cols : list (list fval)) (i : Z) (row : strategy -> Z) : Prop :=
  forall s, In s simple_strategies -> cell6 cols s i (VNum (row s)).
(** The candidates, in the order of the rows, with their scores. *)
Definition found8 (cols : list (list fval)) (n : Z) (value : strategy -> Z) (ps : list prob) : Prop :=
  StronglySorted Z.lt (map pr_i ps) /\
  (forall i, In i (map pr_i ps) <-> near8 cols n value i) /\
  forall p row, In p ps -> row_of cols (pr_i p) row -> pr_p p = product8 row value.
(** The result for a character: the decision of extract_text6, with these candidates. *)
Definition outcome8 zsort (img : image) (cols : list (list fval)) (words : list (list (list Z))) (f : found6) : Prop :=
  exists value ps, (forall s, In s simple_strategies -> seen6 zsort img s (VNum (value s))) /\
    found8 cols (Z.of_nat (List.length words)) value ps /\ decision6 zsort img cols words ps f.
(** It is not defined when the decision is not. *)
Definition undefined8 zsort (img : image) (cols : list (list fval)) (words : list (list (list Z))) : Prop :=
  exists value ps, (forall s, In s simple_strategies -> seen6 zsort img s (VNum (value s))) /\
    found8 cols (Z.of_nat (List.length words)) value ps /\ undecided6 zsort img cols words ps.
(** The simple features of a row are those of the image. *)
Definition identical8 zsort (img : image) (cols : list (list fval)) (n i : Z) : Prop :=
  0 <= i < n /\ forall s v, In s simple_strategies -> cell6 cols s i v -> seen6 zsort img s v.
Definition sound_env8 (e : env8) : Prop := base6 (e8_rt e) (e8_cols e) (e8_words e) (e8_by_word e).

(** * Loading *)
(** [n] rows of values of the features. *)
Definition rows8 (cols : list (list fval)) (n : Z) : Prop :=
  List.length cols = List.length all_strategies /\ n < 4294967296 /\
  forall s c, In (s, c) (combine all_strategies cols) -> Z.of_nat (List.length c) = n /\ forall v, In v c -> typed s v.
(** Rows that have different features. *)
Definition differ8 (cols : list (list fval)) (i j : Z) : Prop :=
  exists s a b, In s all_strategies /\ cell6 cols s i a /\ cell6 cols s j b /\ a <> b.
Definition legal8 (rt : runtime8) : Prop := legal6 (r8_base rt).
(** Glyphs that have different features. *)
Definition differ_glyphs z (g h : glyph) : Prop :=
  exists s a b, In s all_strategies /\ true6 z (gl_img g) s a /\ true6 z (gl_img h) s b /\ a <> b.
(** The rows of the tables are the glyphs in some order. *)
Definition built8 (z : list Z -> list Z) (gs : list glyph) (e : env8) : Prop :=
  sound_env8 e /\ exists gs', Permutation gs gs' /\ List.length (e8_words e) = List.length gs' /\
    forall i g, nth_error gs' i = Some g -> labels6 (e8_words e) (Z.of_nat i) = squeeze (map vw_word (gl_views g)) /\
      forall s v, In s all_strategies -> (cell6 (e8_cols e) s (Z.of_nat i) v <-> true6 z (gl_img g) s v).

(** * The whole program *)
Definition near_glyph8 z (im : image) (g : glyph) : Prop :=
  forall s a b, In s simple_strategies -> seen6 z im s (VNum a) -> true6 z (gl_img g) s (VNum b) -> Z.abs (b - a) <= range s / 10.
Definition named8 z (gs : list glyph) (im : image) (l : list (list Z)) : Prop :=
  forall w, In w l -> w = unknown \/ exists g, In g gs /\ near_glyph8 z im g /\ In w (map vw_word (gl_views g)).
(** The glyphs with the same simple features are found. *)
Definition same8 z (im : image) (g : glyph) : Prop :=
  forall s v, In s simple_strategies -> true6 z (gl_img g) s v -> seen6 z im s v.
Definition complete8 z (gs : list glyph) (im : image) (l : list (list Z)) : Prop :=
  forall g w, In g gs -> same8 z im g -> In w (map vw_word (gl_views g)) -> In w l.
Definition readable8 z (gs : list glyph) (img : image) (b : box) : Prop :=
  forall im, char_image img b im -> recognisable im /\ (comparable_glyphs z gs im \/ exists g, In g gs /\ same8 z im g).
(** The glyphs that have other features than the [i]-th. *)
Definition others8 z (gs : list glyph) (i : nat) (ds : list nat) : Prop :=
  NoDup ds /\ forall j, In j ds <-> exists g h, nth_error gs i = Some g /\ nth_error gs j = Some h /\ differ_glyphs z g h.

(** * The tables, for every glyph file *)
(** The order of the glyphs: that of their first feature. *)
Definition ordered8 z (gs : list glyph) : Prop :=
  forall i j g h a b, (i <= j)%nat -> nth_error gs i = Some g -> nth_error gs j = Some h ->
    true6 z (gl_img g) first_feature (VNum a) -> true6 z (gl_img h) first_feature (VNum b) -> a <= b.
(** The glyph at the position [p] has other features than the first. *)
Definition other8 z (gs : list glyph) (p : nat) : Prop :=
  exists g h, nth_error gs 0 = Some g /\ nth_error gs p = Some h /\ differ_glyphs z g h.
(** [w] is a word of the glyph at [p] or, when this one is not as the first, of one
    before it with none as the first between. *)
Definition joined8 z (gs : list glyph) (p : nat) (w : list Z) : Prop :=
  exists q h, (q <= p)%nat /\ nth_error gs q = Some h /\ In w (map vw_word (gl_views h)) /\ forall r, (q < r <= p)%nat -> other8 z gs r.
(** The rows of the tables are the glyphs in this order.  A row takes the words that
    are joined to it, unless the row that follows takes them. *)
Definition joined_rows8 z (gs : list glyph) (e : env8) : Prop :=
  List.length (e8_words e) = List.length gs /\
  forall i g, nth_error gs i = Some g ->
    (forall s v, In s all_strategies -> (cell6 (e8_cols e) s (Z.of_nat i) v <-> true6 z (gl_img g) s v)) /\
    (~ other8 z gs (S i) -> forall w, In w (labels6 (e8_words e) (Z.of_nat i)) <-> joined8 z gs i w).
