(** What the glyph loader makes of a file of any bytes: the glyphs and labels found in the
    text, and the table they give. *)
From Verif Require Import Base StreamModel GlyphIoSpec RefuseSpec TrieModel IndexModel GlyphsModel GlyphsSpec.

Definition blank (l : list Z) : Prop := forall c, In c l -> is_space c = true.
(** The text after the next end of line, nothing if there is none. *)
Inductive next_line : list Z -> list Z -> Prop :=
| nl_some x r : ~ In 10 x -> next_line (x ++ 10 :: r) r
| nl_none x : ~ In 10 x -> next_line x [].
(** The text starts with a number, [r] follows. *)
Definition starts_number (t : list Z) (n : Z) (r : list Z) : Prop :=
  exists p f, blank p /\ number_text 4294967296 n f /\ t = p ++ f ++ r /\ match r with c :: _ => is_digit c = false | [] => True end.
(** The text starts with a word and a font, and does not end there; [r] follows their
    line. *)
Definition starts_label (t : list Z) (w f : list Z) (r : list Z) : Prop :=
  exists p q c x, blank p /\ plain_text w /\ q <> [] /\ blank q /\ plain_text f /\ is_space c = true /\
    t = p ++ w ++ q ++ f ++ c :: x /\ next_line (c :: x) r.
(** At most n labels; the rest of the text if there are n. *)
Inductive labels_in : Z -> list Z -> list (list Z * list Z) -> option (list Z) -> Prop :=
| li_all t : labels_in 0 t [] (Some t)
| li_one n t w f r ls o : 0 <= n -> starts_label t w f r -> labels_in n r ls o -> labels_in (n + 1) t ((w, f) :: ls) o
| li_stop n t : 0 < n -> (forall w f r, ~ starts_label t w f r) -> labels_in n t [] None.

(** A glyph: the number of labels announced and those found. *)
Record entry := mkentry { en_count : Z; en_labels : list (list Z * list Z) }.
(** The glyphs of a text; the last value tells whether the text is read to its end. *)
Inductive glyphs_in : list Z -> list entry -> bool -> Prop :=
| gi_end t r b : next_line t r -> (forall n r', ~ starts_number r n r') ->
    (b = true <-> exists p sign ds, blank p /\ signed sign ds /\ r = p ++ sign ++ ds) -> glyphs_in t [] b
| gi_last t r n r' ls : next_line t r -> starts_number r n r' -> labels_in n r' ls None -> glyphs_in t [mkentry n ls] true
| gi_more t r n r' ls r'' es b : next_line t r -> starts_number r n r' -> labels_in n r' ls (Some r'') -> glyphs_in r'' es b ->
    glyphs_in t (mkentry n ls :: es) b.

(** The labels of all glyphs. *)
Definition found (es : list entry) : list (list Z * list Z) := flat_map en_labels es.
(** The labels of the table: the missing labels repeat the first label of the file;
    nothing if there is none. *)
Definition completed (es : list entry) : option (list (list (list Z * list Z))) :=
  match found es with
  | [] => if forallb (fun e => en_count e =? 0) es then Some (map (fun _ => []) es) else None
  | first :: _ => Some (map (fun e => en_labels e ++ repeat first (Z.to_nat (en_count e) - List.length (en_labels e))) es)
  end.
(** The labels are few enough to be numbered, and their words to be stored. *)
Definition fits (es : list entry) : Prop :=
  vsize (found es) < 4294967296 /\ block (map fst (found es)) < 4294967296 /\
  forall w, In w (map fst (found es)) -> vsize w < 4294967296.
Definition resolved_by (ls : list (list Z * list Z)) (views : list (list (list Z * list Z))) (t : glyphs_table) (wid : list Z -> Z) (fid : list Z -> Z) : Prop :=
  gt_views t = map (map (fun '(w, f) => mkov (wid w) (fid f))) views /\
  (forall w, In w (map fst ls) -> word_text t (wid w) = Ok w) /\
  (forall f f', In f (map snd ls) -> In f' (map snd ls) -> fid f = fid f' -> f = f').
Definition resolved (ls : list (list Z * list Z)) (views : list (list (list Z * list Z))) (t : glyphs_table) : Prop :=
  exists wid fid, resolved_by ls views t wid fid.
