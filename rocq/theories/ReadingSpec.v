(** The candidates of the characters of a line, from the glyphs, the lines of the words
    and the image: the recognition, then the filter by lines, then the filter by fonts. *)
From Verif Require Import Base SortModel ImageModel ImageSpec BoxModel BoxSpec StratModel ZoneModel DatasModel DatasSpec GlyphIoModel TrieModel IndexModel
  RecogModel RecogSpec GlyphsModel GlyphsSpec FilterModel FilterSpec LinesSpec ExtractSpec AssembleModel AssembleSpec PipelineSpec ReadSpec.

(** The table of the glyphs: a row for each glyph, its features and its labels, the words
    and the fonts being numbered. *)
Record table_of (gs : list glyph) (wid fid : list Z -> Z) (t : table) : Prop := {
  tf_sound : sound_table t;
  tf_features : exists z, is_std_sort Z.ltb z /\ forall s i g v, In s all_strategies -> 0 <= i -> nth_error gs (Z.to_nat i) = Some g ->
    (cell t s i v <-> exists img90, rotate90 (gl_img g) = Ok img90 /\ feature_alone z s (gl_img g) img90 = Ok v);
  tf_labels : t_glyphs t = map (fun g => map (fun v => mkov (wid (vw_word v)) (fid (vw_font v))) (gl_views g)) gs;
  tf_fonts : forall f f', In f (flat_map (fun g => map vw_font (gl_views g)) gs) -> In f' (flat_map (fun g => map vw_font (gl_views g)) gs) ->
    fid f = fid f' -> f = f' }.

(** The candidates of a picture (C41). *)
Definition candidates_of (t : table) (im : image) (l : list oview) : Prop :=
  exists inp, sound_input inp /\ in_img inp = im /\ outcome inp t l.

(** The lines of the words (C46). *)
Definition lines_given (ws : list (list Z)) (ls : list fline) (wid : list Z -> Z) (get : Z -> option word_infos) : Prop :=
  forall w, In w ws -> match get (wid w) with
    | Some wi => exists l, In l ls /\ vsize (fn_word l) <= 8 /\ designates ws (fn_word l) w /\ wi_lines wi = snd (fline_entry l)
    | None => forall l, In l ls -> vsize (fn_word l) <= 8 -> ~ designates ws (fn_word l) w
    end.

(** The filter by fonts (C47). *)
Definition font_filtered (st : list (list oview)) (amb : list Z) (st' : list (list oview)) : Prop :=
  ((forall f, singles st amb f = 0) /\ st' = st) \/
  exists f, elected st amb f /\
    ((decisive st amb f /\ forall r, In r amb -> chosen f (list_at st r) (list_at st' r)) \/ (~ decisive st amb f /\ st' = st)).

(** The candidate words of the characters of a line. *)
Definition reading (gs : list glyph) (ls : list fline) (img : image) (boxes : list box) (cs : list (list (list Z))) : Prop :=
  exists wid fid text t get st amb st1 st2,
    table_of gs wid fid t /\ (forall w, In w (labels gs) -> text (wid w) = w) /\ lines_given (labels gs) ls wid get /\
    shared img boxes amb /\
    Forall2 (fun b r => 0 <= r < vsize st /\ forall im, char_image img b im -> candidates_of t im (list_at st r)) boxes amb /\
    (boxes = [] \/ lines_filtered get st amb boxes st1) /\
    font_filtered st1 amb st2 /\
    cs = map (fun r => map text (distinct_words (list_at st2 r))) amb.
(** The file of the lines. *)
Definition lines_text (ws : list (list Z)) (file : option (list Z)) (ls : list fline) : Prop :=
  (file = None /\ ls = []) \/
  (file = Some (flat_map fline_text ls) /\ Forall good_fline ls /\ forall l, In l ls -> searchable ws (fn_word l)).

(** * The outcome for any line
    The comparison of a picture with the table divides by zero (C41). *)
Definition unreadable (t : table) (im : image) : Prop :=
  exists inp, sound_input inp /\ in_img inp = im /\ undefined inp t.
(** Undefined when a picture is unreadable, or when a side of a box is out of the buffer of
    the filter by lines (C49); otherwise the text. *)
Definition reading_outcome (gs : list glyph) (ls : list fline) (img : image) (boxes : list box) (spell : list (list (list Z)) -> option (list Z)) (m : res (list Z * Z * Z)) : Prop :=
  exists wid fid text t get,
    table_of gs wid fid t /\ (forall w, In w (labels gs) -> text (wid w) = w) /\ lines_given (labels gs) ls wid get /\
    (((exists b im, In b boxes /\ char_image img b im /\ unreadable t im) /\ m = UB) \/
     ((forall b im, In b boxes -> char_image img b im -> ~ unreadable t im) /\
      exists st amb filtered, shared img boxes amb /\
        Forall2 (fun b r => 0 <= r < vsize st /\ forall im, char_image img b im -> candidates_of t im (list_at st r)) boxes amb /\
        lines_outcome get st amb boxes filtered /\
        match filtered with
        | Ok st1 => exists st2, font_filtered st1 amb st2 /\
            let line := marked 0 boxes (map (fun r => map text (distinct_words (list_at st2 r))) amb) in
            m = Ok (text_of_line spell line, unknown_of_line line, vsize boxes)
        | _ => m = UB
        end)).
