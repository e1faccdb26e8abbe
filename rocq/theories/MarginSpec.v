(** What may be said of two pictures that show the same line with other margins. *)
From Verif Require Import Base SortModel ImageModel ImageSpec PnmModel BoxModel BoxSpec StratModel ZoneModel DatasModel TrieModel IndexModel FloatModel RecogModel
  GlyphsModel FilterModel ExtractModel AssembleModel PipelineModel.

(** [b] is [a] with blank margins: dx columns before and dy rows above, and any number
    of columns and rows after.  There is no ink in the last column of [a], which is
    not looked at (C11). *)
Definition framed (dx dy : Z) (a b : image) : Prop :=
  0 <= dx /\ 0 <= dy /\ iw a + dx <= iw b /\ ih a + dy <= ih b /\
  (forall x y, 0 <= x < iw a -> 0 <= y < ih a -> pix b (x + dx) (y + dy) = pix a x y) /\
  (forall x y, ink b x y = true -> dx <= x < dx + iw a /\ dy <= y < dy + ih a) /\
  (forall y, ink a (iw a - 1) y = false).

(** A box of [a], in [b]. *)
Definition moved (dx dy : Z) (t : box) : box := mkbox (bx t + dx) (by_ t + dy) (bw t) (bh t).

(** The first character is far from the left side in both pictures, or in none. *)
Definition same_indent (dx : Z) (boxes : list box) : Prop :=
  match boxes with
  | [] => True
  | t :: _ => 4 < bx t \/ bx t + dx <= 4
  end.
(** The line is not one character that is one row high, in the second row. *)
Definition not_second_row (boxes : list box) : Prop :=
  match boxes with
  | [t] => ~ (by_ t = 1 /\ bh t = 1)
  | _ => True
  end.

(** Two files whose pictures are the same line with other margins. *)
Definition same_line (x y : list Z) : Prop :=
  exists dx dy a b, image_of_bytes x 128 = Ok a /\ image_of_bytes y 128 = Ok b /\ box_searchable a /\ box_searchable b /\ framed dx dy a b.

(** The first character of the line is neither unknown nor a mark. *)
Definition opens_with_letter (rt : runtime) (cx : ctxs) (glyphs datas : list Z) (lines dict : option (list Z)) (img : image) : Prop :=
  exists nodes g infos t s st' st font r l,
    load_all rt glyphs datas lines dict = Ok (nodes, g, infos, t) /\
    read_line (mkrec t (rt_views rt) (rt_probs rt) (rt_zones rt) (rt_junk rt)) img cx = Ok s /\
    filter_by_lines infos (l_store s) (l_amb s) (l_boxes s) = Ok st' /\ filter_by_font st' (l_amb s) = Ok (st, font) /\
    nth_error (l_amb s) 0 = Some r /\ rd st r = Ok l /\ search_fn g l = Ok false.
