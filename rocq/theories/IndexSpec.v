(** The indexes of the recogniser, defined from the values they index. *)
From Verif Require Import Base IndexModel.

(** The rows within d of x. *)
Definition within (data : list Z) (x d i : Z) : Prop :=
  0 <= i < Z.of_nat (List.length data) /\ x - d <= nth (Z.to_nat i) data 0 <= x + d.

(** The first word of a glyph, and the sequence of its words. *)
Definition first_word (g : list oview) : option Z := option_map ov_word (hd_error g).
Definition words_of (g : list oview) : list Z := map ov_word g.

(** The other glyphs with the same first word. *)
Definition same_word (glyphs : list (list oview)) (i j : Z) : Prop :=
  0 <= i < Z.of_nat (List.length glyphs) /\ 0 <= j < Z.of_nat (List.length glyphs) /\ i <> j /\
  first_word (nth (Z.to_nat i) glyphs []) = first_word (nth (Z.to_nat j) glyphs []).

(** Those glyphs in increasing order; and in the order they are compared: the last one first
    when it is after the glyph. *)
Definition word_eqb (a b : list oview) : bool :=
  match first_word a, first_word b with Some x, Some y => x =? y | None, None => true | _, _ => false end.
Definition others (glyphs : list (list oview)) (i : Z) : list Z :=
  filter (fun j => negb (i =? j) && word_eqb (nth (Z.to_nat i) glyphs []) (nth (Z.to_nat j) glyphs [])) (zrange (Z.of_nat (List.length glyphs))).
Definition scan_order (glyphs : list (list oview)) (i : Z) : list Z :=
  let o := others glyphs i in let t := last o i in if i <? t then t :: removelast o else o.

(** The glyphs are ordered by number of labels, then by words. *)
Definition words_before (a b : list Z) : Prop :=
  (List.length a < List.length b)%nat \/
  (List.length a = List.length b /\
   exists p x y s t, a = p ++ x :: s /\ b = p ++ y :: t /\ x < y).
Definition ordered_glyphs (glyphs : list (list oview)) : Prop :=
  forall i j, 0 <= i < j -> j < Z.of_nat (List.length glyphs) ->
    ~ words_before (words_of (nth (Z.to_nat j) glyphs [])) (words_of (nth (Z.to_nat i) glyphs [])).
