(** What may be said of a picture in which pictures stand side by side. *)
From Verif Require Import Base ImageModel ImageSpec PnmModel BoxModel BoxSpec IndexModel RecogModel FilterSpec ExtractModel ExtractSpec MarginSpec.

(** A picture and the place of its upper left corner. *)
Definition part : Type := Z * Z * image.
(** The part is in [c].  In its columns there is nothing else, and there is nothing in
    the last of them. *)
Definition stands (c : image) (p : part) : Prop :=
  let '(dx, dy, a) := p in
  0 <= dx /\ 0 <= dy /\ dx + iw a <= iw c /\ dy + ih a <= ih c /\
  (forall x y, 0 <= x < iw a -> 0 <= y < ih a -> pix c (x + dx) (y + dy) = pix a x y) /\
  (forall x y, dx <= x < dx + iw a -> ink c x y = true -> dy <= y < dy + ih a) /\
  (forall y, ink a (iw a - 1) y = false).
(** The parts, from left to right, from column s. *)
Inductive in_a_row : Z -> list part -> Prop :=
| row_end s : in_a_row s []
| row_next s dx dy a l : s <= dx -> in_a_row (dx + iw a) l -> in_a_row s ((dx, dy, a) :: l).
(** All the ink of [c] is that of its parts. *)
Definition composed (c : image) (parts : list part) : Prop :=
  Forall (stands c) parts /\ in_a_row 0 parts /\
  forall x y, ink c x y = true -> exists dx dy a, In (dx, dy, a) parts /\ dx <= x < dx + iw a.
(** Four columns or more between the parts. *)
Inductive apart : list part -> Prop :=
| apart_none : apart []
| apart_one p : apart [p]
| apart_next dx dy a dx' dy' a' l : dx + iw a + 4 <= dx' -> apart ((dx', dy', a') :: l) -> apart ((dx, dy, a) :: (dx', dy', a') :: l).

(** The boxes of the parts, in [c]. *)
Definition placed (parts : list part) (ls : list (list box)) : list box :=
  List.concat (map (fun '((dx, dy, _), l) => map (moved dx dy) l) (combine parts ls)).

(** Texts with a blank between them. *)
Fixpoint in_turn (ts : list (list Z)) : list Z :=
  match ts with
  | [] => []
  | t :: ts' => match ts' with [] => t | _ :: _ => t ++ str " " ++ in_turn ts' end
  end.

(** All the words of the second result are known, and the first is not a mark. *)
Definition begins_well (r2 : list Z) : Prop :=
  ~ In 95 r2 /\
  match r2 with
  | [] => False
  | m :: 32 :: _ => ~ In m [32; 39; 44; 46; 33; 63; 34]
  | _ :: _ => True
  end.

(** What a program gives: two lists of words, and the text. *)
Definition result : Type := list Z * list Z * list Z.
Definition first_words (r : result) : list Z := fst (fst r).
Definition second_words (r : result) : list Z := snd (fst r).
(** The part is the picture of a file, and this is what the program gives for it. *)
Definition part_result (program : list Z -> res result) (p : part) (q : list Z * result) : Prop :=
  image_of_bytes (fst q) 128 = Ok (snd p) /\ box_searchable (snd p) /\ (forall l, segment (snd p) = Ok l -> Forall (small_character (snd p)) l) /\ program (fst q) = Ok (snd q).
(** The program gives for the file [y] the words it gives for the parts; and their
    texts, if there is room between them and their words are known. *)
Definition joined_result (program : list Z -> res result) (y : list Z) (parts : list part) (outs : list result) : Prop :=
  exists text, program y = Ok (List.concat (map first_words outs), List.concat (map second_words outs), text) /\
    (apart parts -> Forall (fun r => begins_well (second_words r)) outs -> text = in_turn (map snd outs)).

(** The candidates of the characters of a line, in order, in ocr2_extract_text. *)
Definition candidates_of (s : lstate) : list (list oview) := map (list_at (l_store s)) (l_amb s).
