(** When the choices that the C++ standard leaves open - the order in which std::sort
    leaves equivalent elements, the content of fresh memory - cannot be seen. *)
From Verif Require Import Base SortModel ImageModel IndexModel FloatModel RecogModel RecogSpec StreamModel GlyphsModel
  BoxModel BoxSpec DatasModel DatasIoModel ExtractSpec ShowModel FilterSpec PrintModel GlyphTextSpec.

(** The same columns and the same labels; the indexes may differ. *)
Definition same_data (t t' : table) : Prop := t_cols t = t_cols t' /\ t_glyphs t = t_glyphs t'.
(** The labels of a row. *)
Definition row_labels (t : table) (i : Z) : list oview := nth (Z.to_nat i) (t_glyphs t) [].
(** Rows with the same score have the same labels. *)
Definition untied (inp : input) (t : table) : Prop :=
  (forall i j, certain inp t i -> certain inp t j -> row_labels t i = row_labels t j) /\
  ((forall i, ~ certain inp t i) -> forall i j x, retained inp t i -> retained inp t j -> scored inp t scoring i x -> scored inp t scoring j x ->
     row_labels t i = row_labels t j).
Definition untied_picture (t : table) (im : image) : Prop := forall inp, sound_input inp -> in_img inp = im -> untied inp t.

(** The lines of two different entries of the file are not those of the same word. *)
Definition single_lines (g : glyphs_table) (ls : list (list Z * word_lines)) : Prop :=
  forall infos, index_lines g ls = Ok infos -> NoDup (map wi_word infos).

(** The pictures of a line leave nothing open: the characters are small enough for the features, and
    glyphs of equal scores have the same labels. *)
Definition settled_line (t : table) (img : image) : Prop :=
  box_searchable img /\ forall boxes b, segment img = Ok boxes -> In b boxes -> small_character img b /\ forall im, char_image img b im -> untied_picture t im.
(** The files of the arguments of ocr2_extract_text leave nothing open: if all can be loaded, the
    feature file has a value for each glyph, and the lines and the picture leave nothing open. *)
Definition settled_files (disk : list Z -> option (list Z)) (args : list (list Z)) : Prop :=
  forall fg fd fi options cols g ls, args = fg :: fd :: fi :: options -> load_disk disk (read_datas all_strategies) fd = Ok cols -> load_disk disk load_glyphs fg = Ok g ->
    match nth_error options 0 with Some f => load_disk disk read_words_lines f | None => Ok [] end = Ok ls ->
    single_lines g ls /\ Z.of_nat (List.length (gt_views g)) < 4294967296 /\ (forall c, In c cols -> Z.of_nat (List.length c) = Z.of_nat (List.length (gt_views g))) /\
    forall img t, load_image (disk fi) 128 = Ok img -> t_strategies t = all_strategies -> t_cols t = cols -> t_glyphs t = gt_views g -> settled_line t img.

(** The pictures found in the files have fewer than 2^30 pixels. *)
Definition small_files (disk : list Z -> option (list Z)) (names : list (list Z)) : Prop :=
  forall name bytes, In name names -> disk name = Some bytes -> exists imgs b, pictures_text bytes imgs b /\ Forall (fun img => iw img * ih img < 1073741824) imgs.
