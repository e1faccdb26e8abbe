(** The text of a line, stated from its characters. *)
From Verif Require Import Base TrieModel IndexModel GlyphsModel AssembleModel FilterSpec.
From Coq Require Import Sorted.

(** A character: its candidates, the best first; none if it is not recognised. *)
Notation character := (list (list Z)) (only parsing).
(** ! # to . : to ? [ ] { } *)
Definition mark (c : Z) : bool :=
  (c =? 33) || ((35 <=? c) && (c <=? 46)) || ((58 <=? c) && (c <=? 63)) || (c =? 91) || (c =? 93) || (c =? 123) || (c =? 125).
Definition separator (c : character) : bool := match c with [] => true | [m] :: _ => mark m | _ => false end.
(** The text of a character. *)
Definition front (c : character) : list Z := match c with [] => [] | s :: _ => s end.
Definition shown (c : character) : list Z := match c with [] => str "?" | s :: _ => s end.

(** A line: each character with a break before it or not.  Without dictionary: *)
Definition plain (line : list (bool * character)) : list Z :=
  flat_map (fun '(brk, c) => (if brk : bool then str " " else []) ++ shown c) line.
(** With a dictionary: the groups of consecutive characters that are neither marks
    nor unknown are replaced by their spelling if they have one. *)
Section Render.
Context (spell : list character -> option (list Z)).
Definition flush (word : list character) : list Z :=
  match word with
  | [] => []
  | _ => match spell word with Some w => w | None => flat_map front word end
  end.
Fixpoint render (word : list character) (line : list (bool * character)) : list Z :=
  match line with
  | [] => flush word
  | (brk, c) :: line' =>
    let (before, word) := if brk : bool then (flush word ++ str " ", []) else ([], word) in
    before ++ (if separator c then flush word ++ shown c ++ render [] line' else render (word ++ [c]) line')
  end.
End Render.
(** The number of characters that are not recognised. *)
Definition unknown (line : list (bool * character)) : Z :=
  vsize (filter (fun p => match snd p with [] => true | _ => false end) line).

(** The marks and unknown characters at the beginning, before the first break. *)
Fixpoint leading (line : list (bool * character)) : nat :=
  match line with
  | (false, c) :: line' => if separator c then S (leading line') else O
  | _ => O
  end.
Definition clear_first (line : list (bool * character)) : list (bool * character) :=
  match line with (_, c) :: line' => (false, c) :: line' | [] => [] end.

(** The line of a store, references to it, and breaks. *)
Definition text_of_word (g : glyphs_table) (w : Z) : list Z := match word_text g w with Ok s => s | _ => [] end.
(** The words of a list, without the repetitions of a word by its successor. *)
Fixpoint distinct_words (l : list oview) : list Z :=
  match l with
  | [] => []
  | v :: l' =>
    match l' with
    | u :: _ => if ov_word v =? ov_word u then distinct_words l' else ov_word v :: distinct_words l'
    | [] => [ov_word v]
    end
  end.
Definition character_of (g : glyphs_table) (l : list oview) : character := map (text_of_word g) (distinct_words l).
Definition line_of (g : glyphs_table) (st : list (list oview)) (amb brks : list Z) : list (bool * character) :=
  map (fun '(i, r) => (existsb (Z.eqb i) brks, character_of g (list_at st r))) (combine (zrange (vsize amb)) amb).

Definition resolvable (g : glyphs_table) (st : list (list oview)) (amb : list Z) : Prop :=
  forall r, In r amb -> 0 <= r < vsize st /\ forall v, In v (list_at st r) -> exists s, word_text g (ov_word v) = Ok s.
Definition increasing_breaks (n : Z) (brks : list Z) : Prop := StronglySorted Z.lt brks /\ forall b, In b brks -> 0 <= b < n.
