(** What the whole program must print for a line it has learnt. *)
From Verif Require Import Base SortModel ImageModel ImageSpec BoxModel BoxSpec StratModel ZoneModel DatasModel DatasSpec UtfSpec StreamModel GlyphIoModel GlyphIoSpec
  DictIoModel TrieModel TrieSpec SpellSpec IndexModel GlyphsModel GlyphsSpec FloatModel RecogModel RecogSpec ExtractSpec AssembleSpec
  PnmModel LearnSpec PipelineModel.

(** Legal sorts. *)
Definition legal (rt : runtime) : Prop :=
  (forall data, is_std_sort (index_lt data) (rt_first rt data)) /\ (forall views, is_std_sort (ref_lt views) (rt_ids rt views)) /\
  is_std_sort wi_lt (rt_lines rt) /\ (forall ids, is_std_sort (lt_by_views ids) (rt_views rt ids)) /\
  is_std_sort gt_prob (rt_probs rt) /\ is_std_sort Z.ltb (rt_zones rt).

(** A simple feature of a picture; it needs no sort. *)
Definition simple_value (img : image) (s : strategy) (v : Z) : Prop :=
  exists img90, rotate90 img = Ok img90 /\ feature_alone (fun l => l) s img img90 = Ok (VNum v).
(** Pictures that the simple features do not tell apart: they are equal to less
    than a hundredth of their range. *)
Definition resembles (a b : image) : Prop :=
  forall s x y, In s simple_strategies -> simple_value a s x -> simple_value b s y -> 100 * Z.abs (x - y) < range s.

(** Words that the glyph table can hold (C43, C45). *)
Definition loadable (ws : list (list Z)) : Prop :=
  (forall w, In w ws -> bytes w /\ vsize w < 4294967296) /\ vsize ws < 4294967296 /\ block ws < 4294967296 /\
  (forall w, greatest ws w -> vsize w mod 4 <> 0).
(** Glyphs that can be stored and loaded. *)
Definition labels (gs : list glyph) : list (list Z) := flat_map (fun g => map vw_word (gl_views g)) gs.
Definition trainable (gs : list glyph) : Prop :=
  (forall g, In g gs -> storable g /\ recognisable (gl_img g) /\ gl_views g <> [] /\ ~ In 10 (idata (gl_img g))) /\
  vsize gs < 4294967296 /\ loadable (labels gs).

(** The word taught for a picture: some glyph resembles it, and all those that do
    have this word only. *)
Definition taught (gs : list glyph) (im : image) (w : list Z) : Prop :=
  (exists g, In g gs /\ resembles im (gl_img g)) /\
  forall g v, In g gs -> resembles im (gl_img g) -> In v (gl_views g) -> vw_word v = w.

(** The picture in a box is one of a taught word. *)
Definition word_taught (gs : list glyph) (img : image) (b : box) (w : list Z) : Prop :=
  forall im, char_image img b im -> recognisable im /\ taught gs im w.

(** The characters of a line, with the breaks before them. *)
Fixpoint spoken (x : Z) (boxes : list box) (ws : list (list Z)) : list (bool * list (list Z)) :=
  match boxes, ws with
  | b :: boxes', w :: ws' => (x + 4 <? bx b, [w]) :: spoken (bx b + bw b) boxes' ws'
  | _, _ => []
  end.
(** The text of a line: a blank by break, except at the beginning. *)
Definition line_text (boxes : list box) (ws : list (list Z)) : list Z := plain (clear_first (spoken 0 boxes ws)).

(** The first character is not the only lowest one (C49). *)
Definition steady (boxes : list box) : Prop :=
  match boxes with [] => True | b :: boxes' => exists x, In x boxes' /\ box_bottom b <= box_bottom x end.
(** No break after marks at the beginning (C51). *)
Definition no_lost_break (line : list (bool * list (list Z))) : Prop :=
  leading line = O \/ forall c rest, skipn (leading line) line <> (true, c) :: rest.

(** Files of lines of words, for the words of the glyphs. *)
Definition lines_file (ws : list (list Z)) (file : option (list Z)) : Prop :=
  file = None \/ exists ls, file = Some (flat_map fline_text ls) /\ Forall good_fline ls /\
    forall l, In l ls -> searchable ws (fn_word l).
(** Dictionaries, when the words of the line are of one character. *)
Definition dict_file (ws : list (list Z)) (file : option (list Z)) : Prop :=
  file = None \/ exists sort words nodes, file = Some (write_dict nodes) /\ is_std_sort (list_ltb Z.ltb) sort /\ Forall well_formed words /\
    ~ In [] words /\ letters words < 4294967296 /\ make_dictionary sort words = Ok nodes /\ Forall one_char ws.

(** A lesson: an image, its text and its font, with the boxes of the image and the
    words of the text. *)
Record lesson := mklesson { le_img : image; le_text : list Z; le_font : list Z; le_boxes : list box; le_words : list (list Z) }.
Definition good_lesson (l : lesson) : Prop :=
  (exists bytes lum, image_of_bytes bytes lum = Ok (le_img l)) /\ box_searchable (le_img l) /\ segment (le_img l) = Ok (le_boxes l) /\
  text_words (le_text l) (le_words l) /\ plain_text (le_font l) /\ List.length (le_boxes l) = List.length (le_words l) /\
  Forall (small_character (le_img l)) (le_boxes l).
Definition arguments (l : lesson) : image * list Z * list Z := (le_img l, le_text l, le_font l).
Definition teachable (ls : list lesson) : Prop := Forall good_lesson ls /\ loadable (flat_map le_words ls).
(** The lessons teach the word of a picture. *)
Definition teaches (ls : list lesson) (im : image) (w : list Z) : Prop :=
  exists l b, In l ls /\ In (b, w) (combine (le_boxes l) (le_words l)) /\ char_image (le_img l) b im.
(** The word learnt for a picture: it resembles one of the lessons, and all those
    it resembles have this word. *)
Definition learnt (ls : list lesson) (im : image) (w : list Z) : Prop :=
  (exists im' w', teaches ls im' w' /\ resembles im im') /\ forall im' w', teaches ls im' w' -> resembles im im' -> w' = w.
(** Pictures of the lessons that resemble each other have the same word. *)
Definition unambiguous (ls : list lesson) : Prop :=
  forall im w im' w', teaches ls im w -> teaches ls im' w' -> resembles im im' -> w = w'.

(** The program reads what the lessons teach, from these files of glyphs and
    features. *)
Definition reads_learnt (ls : list lesson) (glyphs datas : list Z) : Prop :=
  forall rt cx bytes img boxes ws lines dict, legal rt -> image_of_bytes bytes 128 = Ok img -> box_searchable img -> segment img = Ok boxes ->
    Forall2 (fun b w => forall im, char_image img b im -> recognisable im /\ learnt ls im w) boxes ws -> steady boxes -> no_lost_break (spoken 0 boxes ws) ->
    lines_file (flat_map le_words ls) lines -> dict_file ws dict ->
    extract_text rt cx glyphs datas bytes lines dict = Ok (line_text boxes ws, 0, vsize boxes).
