(** Property C99: the glyphs of a file of any bytes. *)
From Verif Require Import Base SortModel ImageModel StreamModel GlyphIoModel GlyphIoSpec RefuseSpec GlyphFileSpec GlyphTextSpec GlyphTextProofs
  StratModel ZoneModel DatasModel DatasIoModel GlyphsModel NormModel NormSpec LearnModel LearnProofs ShowModel ProgModel RecogWitness.

(** A glyph file of any bytes is read as the glyphs written in it, and it is accepted
    when what stops the reading is its end. *)
Theorem C99_glyphs : forall text, exists gs b, glyphs_text text gs b /\ (forall gs' b', glyphs_text text gs' b' -> gs = gs' /\ b = b') /\
  (exists s, read_glyphs (open_stream text) = Ok (gs, s) /\ is_eof s = b) /\
  load_file read_glyphs text = (if b then Ok gs else Throw ExReadFile).
Proof. exact glyph_text_outcome. Qed.
Print Assumptions C99_glyphs.

(** The pictures have the pixels of their sizes. *)
Theorem C99_pixels_partial : forall text gs b, glyphs_text text gs b ->
  Forall (fun g => Z.of_nat (List.length (idata (gl_img g))) = (iw (gl_img g) * ih (gl_img g)) mod 4294967296) gs.
Proof. exact glyphs_text_sizes. Qed.
Print Assumptions C99_pixels_partial.
(** Full statement: each picture has width times height pixels, without the modulus.
    Refuted: a picture of 65536 by 65536 is read without any pixel. *)
Theorem C99_pixels_refuted : load_file read_glyphs (str "65536 65536 0 ") = Ok [mkglyph (mkimage 65536 65536 []) []].
Proof. vm_compute. reflexivity. Qed.
Print Assumptions C99_pixels_refuted.

(** write_datas: the features of the pictures written in the file, the labels being
    skipped as lines. *)
Theorem C99_write_datas : forall text, (exists imgs b, pictures_text text imgs b) /\ forall junk zsort cx imgs b, pictures_text text imgs b ->
  write_datas_file junk zsort cx text =
  (d <- datas_load_all junk zsort all_strategies (mkdatas (repeat [] (List.length all_strategies)) cx) imgs ;; Ok (if b then Some (write_datas (d_cols d)) else None)).
Proof. exact write_datas_texts. Qed.
Print Assumptions C99_write_datas.
(** A picture without size is read, and the computation of its features is undefined. *)
Theorem C99_no_size_refuted : write_datas_file (fun _ => 0) (isort Z.ltb) new_ctxs (str "0 0 0 ") = UB.
Proof. vm_compute. reflexivity. Qed.
Print Assumptions C99_no_size_refuted.

(** normalize_glyphs: the glyphs of all the files are normalized, or the program ends with
    the code of the first file that is missing or that stops before its end. *)
Theorem C99_normalize : forall disk name names, (exists r, files_text disk (name :: names) r) /\ forall r, files_text disk (name :: names) r -> forall sort sort_views prog,
  normalize_main sort sort_views disk (prog :: name :: names) =
  match r with inl gs => out <- normalize sort sort_views gs ;; Ok (write_glyphs out, Exits 0) | inr code => Ok ([], Exits code) end.
Proof. exact normalize_texts. Qed.
Print Assumptions C99_normalize.

(** A file of word lines of any bytes. *)
Theorem C99_lines : forall text, exists ls b, lines_text text ls b /\ (forall ls' b', lines_text text ls' b' -> ls = ls' /\ b = b') /\
  load_file read_words_lines text = (if b then Ok ls else Throw ExReadFile).
Proof. exact lines_outcome. Qed.
Print Assumptions C99_lines.

Definition ex_text_glyph : glyph := mkglyph (mkimage 2 1 [120; 45]) [mkview (str "a") (str "f") 3].
Example C99_nonvacuous :
  load_file read_glyphs (str "2 1 x-1 a f 3 ") = Ok [ex_text_glyph] /\
  load_file read_glyphs (str "2 1 x-1 a f 3 2 1 x-1 b f") = Ok [ex_text_glyph] /\
  load_file read_glyphs (str "2 1 x-1 a f 3 ?") = Throw ExReadFile /\
  load_file read_words_lines (str "a 1 2 3 4 b 9 8 7 6 longwords 1 1 1 1 c 2") = Ok [(str "a", mkwl 1 2 3 4); (str "b", mkwl 1 0 7 6)] /\
  load_file read_words_lines (str "a 1 2 3 4 b c") = Throw ExReadFile /\
  normalize_main (isort glyph_less) (isort view_less) (fun n => if Z.of_nat (List.length n) =? 1 then Some (str "2 1 x-1 a f 3 ?") else None) [str "p"; str "q"] = Ok ([], Exits 5).
Proof. repeat split; vm_compute; reflexivity. Qed.
