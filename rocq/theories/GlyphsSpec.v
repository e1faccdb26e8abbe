(** What a glyph file says, and what its table must hold. *)
From Verif Require Import Base StreamModel GlyphIoModel GlyphIoSpec TrieModel TrieSpec IndexModel GlyphsModel.

(** A label of the file: word, font, and the rest of the line. *)
Record flabel := mkfl { fl_word : list Z; fl_font : list Z; fl_rest : list Z }.
(** A glyph: a line for its image, and labels. *)
Record fglyph := mkfg { fg_head : list Z; fg_labels : list flabel }.
Definition label_text (l : flabel) : list Z := fl_word l ++ [32] ++ fl_font l ++ fl_rest l ++ [10].
Definition fglyph_text (g : fglyph) : list Z :=
  fg_head g ++ [10] ++ print_uint (vsize (fg_labels g)) ++ [10] ++ flat_map label_text (fg_labels g).
Definition file_text (gs : list fglyph) : list Z := flat_map fglyph_text gs.

Definition bytes (w : list Z) : Prop := forall c, In c w -> 0 <= c < 256.
Definition good_label (l : flabel) : Prop :=
  plain_text (fl_word l) /\ bytes (fl_word l) /\ plain_text (fl_font l) /\ ~ In 10 (fl_rest l) /\
  match fl_rest l with [] => True | c :: _ => is_space c = true end.
(** A glyph of the table: its line has no end of line, and it has a label. *)
Definition good_glyph (g : fglyph) : Prop :=
  ~ In 10 (fg_head g) /\ fg_labels g <> [] /\ Forall good_label (fg_labels g).

Definition words_of (gs : list fglyph) : list (list Z) := flat_map (fun g => map fl_word (fg_labels g)) gs.
Definition fonts_of (gs : list fglyph) : list (list Z) := flat_map (fun g => map fl_font (fg_labels g)) gs.

(** The number of unsigned of the distinct words: a size, the characters and
    padding. *)
Definition block (ws : list (list Z)) : Z :=
  fold_right (fun w n => (vsize w + 3) / 4 + 1 + n) 0 (nodup (list_eq_dec Z.eq_dec) ws).
Definition good_file (gs : list fglyph) : Prop :=
  Forall good_glyph gs /\ vsize (words_of gs) < 4294967296 /\ block (words_of gs) < 4294967296 /\
  forall w, In w (words_of gs) -> vsize w < 4294967296.

(** The greatest word, in the order of the bytes. *)
Definition greatest (ws : list (list Z)) (w : list Z) : Prop :=
  In w ws /\ forall w', In w' ws -> w' = w \/ lex_lt w' w.
(** [w'] follows [w] among the distinct words. *)
Definition follows (ws : list (list Z)) (w w' : list Z) : Prop :=
  In w ws /\ In w' ws /\ lex_lt w w' /\ forall x, In x ws -> ~ (lex_lt w x /\ lex_lt x w').

(** A table that holds the file: [wid] and [fid] are the identifiers of words and
    fonts. *)
Definition holds (gs : list fglyph) (t : glyphs_table) (wid fid : list Z -> Z) : Prop :=
  gt_views t = map (fun g => map (fun l => mkov (wid (fl_word l)) (fid (fl_font l))) (fg_labels g)) gs /\
  (forall w, In w (words_of gs) -> word_text t (wid w) = Ok w) /\
  (forall f f', In f (fonts_of gs) -> In f' (fonts_of gs) -> fid f = fid f' -> f = f').

Definition starts_with (s w : list Z) : Prop := exists r, w = s ++ r.
(** The word that the search of s finds: the least one that starts with s. *)
Definition designates (ws : list (list Z)) (s w : list Z) : Prop :=
  In w ws /\ starts_with s w /\ forall w', In w' ws -> starts_with s w' -> w' = w \/ lex_lt w w'.
Definition answer (ws : list (list Z)) (wid : list Z -> Z) (s : list Z) (i : Z) : Prop :=
  (exists w, designates ws s w /\ i = wid w) \/ ((forall w, In w ws -> ~ starts_with s w) /\ i = no_index).
(** Texts whose characters are above the lengths of the words. *)
Definition searchable (ws : list (list Z)) (s : list Z) : Prop :=
  (forall c, In c s -> 0 < c) /\ forall w c, In w ws -> In c s -> vsize w < c.

(** Lines of a file of word lines. *)
Record fline := mkfline { fn_word : list Z; fn_a : Z; fn_c : Z; fn_m : Z; fn_b : Z }.
Definition fline_text (l : fline) : list Z :=
  fn_word l ++ [32] ++ print_uint (fn_a l) ++ [32] ++ print_uint (fn_c l) ++ [32] ++
  print_uint (fn_m l) ++ [32] ++ print_uint (fn_b l) ++ [10].
Definition good_fline (l : fline) : Prop :=
  plain_text (fn_word l) /\ 0 <= fn_a l < 4294967296 /\ 0 <= fn_c l < 4294967296 /\
  0 <= fn_m l < 4294967296 /\ 0 <= fn_b l < 4294967296.
Definition fline_entry (l : fline) : list Z * word_lines :=
  (fn_word l, mkwl (fn_a l mod 8) (fn_c l mod 8) (fn_m l mod 8) (fn_b l mod 8)).

(** A text of the lines is registered for the word of identifier i. *)
Definition registered (g : glyphs_table) (ls : list (list Z * word_lines)) (i : Z) (wl : word_lines) : Prop :=
  exists s, In (s, wl) ls /\ word_index_of g s = Ok i.
