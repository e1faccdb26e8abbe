(** What the whole program may print for any image. *)
From Verif Require Import Base SortModel ImageModel ImageSpec BoxModel BoxSpec StratModel ZoneModel DatasModel DatasSpec UtfSpec StreamModel GlyphIoModel GlyphIoSpec
  DictIoModel TrieModel TrieSpec SpellSpec IndexModel RecogSpec ExtractSpec AssembleSpec PipelineSpec.

(** Pictures whose simple features differ by at most a tenth of their range. *)
Definition near (a b : image) : Prop :=
  forall s x y, In s simple_strategies -> simple_value a s x -> simple_value b s y -> Z.abs (x - y) <= range s / 10.
(** The zone proportions of a picture; those of a picture and of the glyphs can be
    compared if there is no 0 at the same place (C23). *)
Definition zone_list (im : image) (l : list Z) : Prop :=
  exists z im90, is_std_sort Z.ltb z /\ rotate90 im = Ok im90 /\ feature_alone z (mkst ProportionalityZone false) im im90 = Ok (VVec l).
Definition zones_apart (gs : list glyph) (im : image) : Prop :=
  forall g a b x y, In g gs -> zone_list im a -> zone_list (gl_img g) b -> In (x, y) (combine b a) -> 0 < x + y.
(** The pictures of the line can be read: small enough, and comparable or of a
    glyph they resemble. *)
Definition readable_box (gs : list glyph) (img : image) (b : box) : Prop :=
  forall im, char_image img b im -> recognisable im /\ (zones_apart gs im \/ exists g, In g gs /\ resembles im (gl_img g)).

(** Candidate words are words of glyphs near the picture. *)
Definition named (gs : list glyph) (im : image) (c : list (list Z)) : Prop :=
  forall w, In w c -> exists g v, In g gs /\ near im (gl_img g) /\ In v (gl_views g) /\ vw_word v = w.
(** There are candidates for the pictures that resemble a glyph. *)
Definition not_missed (gs : list glyph) (im : image) (c : list (list Z)) : Prop :=
  (exists g, In g gs /\ resembles im (gl_img g)) -> c <> [].
(** The characters of a line, with the breaks before them. *)
Fixpoint marked (x : Z) (boxes : list box) (cs : list (list (list Z))) : list (bool * list (list Z)) :=
  match boxes, cs with
  | b :: boxes', c :: cs' => (x + 4 <? bx b, c) :: marked (bx b + bw b) boxes' cs'
  | _, _ => []
  end.
(** The text of a line and the number of unknown characters (C51, C59): those at
    the beginning are left out, and so is the break after the leading marks. *)
Definition text_of_line (spell : list (list (list Z)) -> option (list Z)) (line : list (bool * list (list Z))) : list Z :=
  flat_map (fun p => front (snd p)) (firstn (leading line) line) ++ render spell [] (clear_first (skipn (leading line) line)).
Definition unknown_of_line (line : list (bool * list (list Z))) : Z := unknown (skipn (leading line) line).

(** Another character is at least as low as the first, and another starts at least
    as low (C49). *)
Definition steady_line (boxes : list box) : Prop :=
  match boxes with
  | [] => True
  | b :: boxes' => (exists x, In x boxes' /\ box_bottom b <= box_bottom x) /\ (exists x, In x boxes' /\ box_top b <= box_top x)
  end.
(** The dictionary file and its answers. *)
Definition dict_spell (ws : list (list Z)) (file : option (list Z)) (spell : list (list (list Z)) -> option (list Z)) : Prop :=
  (file = None /\ spell = fun _ => None) \/
  exists sort words nodes, file = Some (write_dict nodes) /\ is_std_sort (list_ltb Z.ltb) sort /\ Forall well_formed words /\
    ~ In [] words /\ letters words < 4294967296 /\ make_dictionary sort words = Ok nodes /\ Forall one_char ws /\ spell = first_word words.
(** The pictures of [gs'] with the labels of [gs], in the same order. *)
Definition relabelled (gs gs' : list glyph) : list glyph := map (fun '(g, g') => mkglyph (gl_img g') (gl_views g)) (combine gs gs').
