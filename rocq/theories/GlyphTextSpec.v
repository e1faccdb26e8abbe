(** The glyphs found in a file of any bytes by the training programs. *)
From Verif Require Import Base ImageModel StreamModel GlyphIoModel GlyphIoSpec GlyphsModel RefuseSpec GlyphFileSpec.

(** No number starts the text; [b] tells whether the text ends before one could. *)
Definition stops_number (t : list Z) (b : bool) : Prop :=
  (forall n r, ~ starts_number t n r) /\ (b = true <-> exists p sign ds, blank p /\ signed sign ds /\ t = p ++ sign ++ ds).
Definition starts_word (t w r : list Z) : Prop :=
  exists p, blank p /\ plain_text w /\ t = p ++ w ++ r /\ match r with c :: _ => is_space c = true | [] => True end.
(** A label: word, font and line. *)
Definition starts_view (t : list Z) (v : view) (r : list Z) : Prop :=
  exists r1 r2, starts_word t (vw_word v) r1 /\ starts_word r1 (vw_font v) r2 /\ starts_number r2 (vw_line v) r.
Definition stops_view (t : list Z) (b : bool) : Prop :=
  (blank t /\ b = true) \/ (exists w r1, starts_word t w r1 /\ blank r1 /\ b = true) \/
  (exists w r1 f r2, starts_word t w r1 /\ starts_word r1 f r2 /\ stops_number r2 b).
(** n labels, or a text that does not hold them. *)
Inductive views_in : Z -> list Z -> list view -> list Z -> Prop :=
| vi_none t : views_in 0 t [] t
| vi_one n t v r vs r' : 0 <= n -> starts_view t v r -> views_in n r vs r' -> views_in (n + 1) t (v :: vs) r'.
Inductive views_stop : Z -> list Z -> bool -> Prop :=
| vs_now n t b : 0 < n -> stops_view t b -> views_stop n t b
| vs_later n t v r b : 0 <= n -> starts_view t v r -> views_stop n r b -> views_stop (n + 1) t b.
(** A picture: its sizes, one character, and as many pixels as the product of the sizes
    in 32 bits. *)
Definition starts_img (t : list Z) (img : image) (r : list Z) : Prop :=
  exists r1 c, starts_number t (iw img) r1 /\ starts_number r1 (ih img) (c :: idata img ++ r) /\
    Z.of_nat (List.length (idata img)) = (iw img * ih img) mod 4294967296.
Definition stops_img (t : list Z) (b : bool) : Prop :=
  stops_number t b \/ (exists w r1, starts_number t w r1 /\ stops_number r1 b) \/
  (exists w h r1, starts_number t w r1 /\ starts_number r1 h [] /\ b = true) \/
  (exists w h r1 c x, starts_number t w r1 /\ starts_number r1 h (c :: x) /\ Z.of_nat (List.length x) < (w * h) mod 4294967296 /\ b = true).
Inductive glyphs_text : list Z -> list glyph -> bool -> Prop :=
| gt_end t b : stops_img t b -> glyphs_text t [] b
| gt_cut t img r b : starts_img t img r -> stops_number r b -> glyphs_text t [] b
| gt_labels t img r n r1 b : starts_img t img r -> starts_number r n r1 -> views_stop n r1 b -> glyphs_text t [] b
| gt_more t img r n r1 vs r2 gs b : starts_img t img r -> starts_number r n r1 -> views_in n r1 vs r2 -> glyphs_text r2 gs b ->
    glyphs_text t (mkglyph img vs :: gs) b.

(** The pictures that write_datas finds: the labels are only lines. *)
Inductive after_lines : Z -> list Z -> list Z -> Prop :=
| al_none t : after_lines 0 t t
| al_one n t r r' : 0 <= n -> next_line t r -> after_lines n r r' -> after_lines (n + 1) t r'.
Inductive pictures_text : list Z -> list image -> bool -> Prop :=
| pt_end t b : stops_img t b -> pictures_text t [] b
| pt_cut t img r b : starts_img t img r -> stops_number r b -> pictures_text t [] b
| pt_more t img r n r1 r2 imgs b : starts_img t img r -> starts_number r n r1 -> after_lines (n + 1) r1 r2 -> pictures_text r2 imgs b ->
    pictures_text t (img :: imgs) b.

(** The files of normalize_glyphs: their glyphs, or the code of the first that is missing
    or that is not read to its end. *)
Inductive files_text (disk : list Z -> option (list Z)) : list (list Z) -> list glyph + Z -> Prop :=
| ft_none : files_text disk [] (inl [])
| ft_missing n names : disk n = None -> files_text disk (n :: names) (inr 2)
| ft_refused n names text gs : disk n = Some text -> glyphs_text text gs false -> files_text disk (n :: names) (inr 5)
| ft_stop n names text gs code : disk n = Some text -> glyphs_text text gs true -> files_text disk names (inr code) -> files_text disk (n :: names) (inr code)
| ft_read n names text gs gs' : disk n = Some text -> glyphs_text text gs true -> files_text disk names (inl gs') -> files_text disk (n :: names) (inl (gs ++ gs')).

(** The lines of a file of word lines: a word and four numbers, kept modulo 8; the words
    of more than 8 bytes are dropped. *)
Inductive starts_numbers : list Z -> list Z -> list Z -> Prop :=
| sn_none t : starts_numbers t [] t
| sn_one t n r ns r' : starts_number t n r -> starts_numbers r ns r' -> starts_numbers t (n :: ns) r'.
Inductive stops_numbers : nat -> list Z -> bool -> Prop :=
| sn_now k t b : stops_number t b -> stops_numbers (S k) t b
| sn_later k t n r b : starts_number t n r -> stops_numbers k r b -> stops_numbers (S k) t b.
Inductive lines_text : list Z -> list (list Z * word_lines) -> bool -> Prop :=
| lt_end t : blank t -> lines_text t [] true
| lt_cut t w r b : starts_word t w r -> stops_numbers 4 r b -> lines_text t [] b
| lt_kept t w r a c m e r' ls b : starts_word t w r -> starts_numbers r [a; c; m; e] r' -> Z.of_nat (List.length w) <= 8 -> lines_text r' ls b ->
    lines_text t ((w, mkwl (a mod 8) (c mod 8) (m mod 8) (e mod 8)) :: ls) b
| lt_dropped t w r ns r' ls b : starts_word t w r -> starts_numbers r ns r' -> List.length ns = 4%nat -> 8 < Z.of_nat (List.length w) -> lines_text r' ls b ->
    lines_text t ls b.
