(** Model of ocr2/indexes_ordered.hpp, data_indexes_ordered.hpp,
    data_indexes_by_words.cpp and views_index_ordered.hpp. *)
From Verif Require Import Base SortModel.

(** Cell i of a column, used by the comparator of the sort; the indexes sorted
    are those of the column, and [d] is never used for them. *)
Definition cell_at (data : list Z) (i : Z) : Z := nth (Z.to_nat i) data 0.
(** indexes_ordered.hpp 41-43: the comparator. *)
Definition index_lt (data : list Z) (i j : Z) : bool := cell_at data i <? cell_at data j.

(** indexes_ordered.hpp 37-44: std::iota and std::sort. *)
Definition indexes_ordered (sort : list Z -> list Z) (data : list Z) : list Z :=
  sort (zrange (Z.of_nat (List.length data))).

(** indexes_ordered.hpp 56-75: the positions of the bounds in the indexes. *)
Definition range_bounds (data indexes : list Z) (start stop : Z) : res (Z * Z) :=
  let n := Z.of_nat (List.length data) in
  first <- partition_point (fun k => i <- rd indexes k ;; v <- rd data i ;; Ok (v <? start)) 0 n ;;
  last <- partition_point (fun k => i <- rd indexes k ;; v <- rd data i ;; Ok (negb (stop <? v))) first n ;;
  Ok (first, last).

(** data_indexes_ordered.hpp 42-50: get_range, and the indexes it goes through. *)
Definition get_range (data indexes : list Z) (x d : Z) : res (list Z) :=
  '(first, last) <- range_bounds data indexes (if d <? x then x - d else 0) (u32 (x + d)) ;;
  Ok (firstn (Z.to_nat (last - first)) (skipn (Z.to_nat first) indexes)).

(** glyphs.hpp 31-42: a view is an identifier of word and an identifier of font. *)
Record oview := mkov { ov_word : Z; ov_font : Z }.

(** std::map<unsigned, std::vector<unsigned>>: an association list ordered by
    key; map[k].emplace_back(n). *)
Fixpoint map_push (k n : Z) (m : list (Z * list Z)) : list (Z * list Z) :=
  match m with
  | [] => [(k, [n])]
  | (k', l) :: m' =>
    if k <? k' then (k, [n]) :: m
    else if k =? k' then (k', l ++ [n]) :: m'
    else (k', l) :: map_push k n m'
  end.

(** data_indexes_by_words.cpp 28-32. *)
Fixpoint words_map (glyphs : list (list oview)) (n : Z) (m : list (Z * list Z)) : res (list (Z * list Z)) :=
  match glyphs with
  | [] => Ok m
  | [] :: _ => UB  (* views.front() *)
  | (v :: _) :: gs => words_map gs (u32 (n + 1)) (map_push (ov_word v) n m)
  end.

(** data_indexes_by_words.cpp 40-44: each element of the list is exchanged with
    tmp; [done] are the elements already visited. *)
Fixpoint swap_each (done l : list Z) (tmp : Z) (out : list (list Z)) : res (list (list Z)) :=
  match l with
  | [] => Ok out
  | i :: l' =>
    out' <- wr out i (done ++ tmp :: l') ;;
    swap_each (done ++ [tmp]) l' i out'
  end.

(** data_indexes_by_words.cpp 35-46. *)
Fixpoint fill_by_words (m : list (Z * list Z)) (out : list (list Z)) : res (list (list Z)) :=
  match m with
  | [] => Ok out
  | (_, l) :: m' =>
    if 1 <? Z.of_nat (List.length l) then
      let tmp := last l 0 in
      let l' := removelast l in
      out1 <- wr out tmp l' ;;
      out2 <- swap_each [] l' tmp out1 ;;
      fill_by_words m' out2
    else fill_by_words m' out
  end.

(** data_indexes_by_words.cpp 24-47. *)
Definition indexes_by_words (glyphs : list (list oview)) : res (list (list Z)) :=
  m <- words_map glyphs 0 [] ;;
  fill_by_words m (repeat [] (List.length glyphs)).

(** glyphs.hpp 97-108: EqViewWord, EqViews. *)
Fixpoint eq_views (a b : list oview) : bool :=
  match a, b with
  | [], [] => true
  | x :: a', y :: b' => (ov_word x =? ov_word y) && eq_views a' b'
  | _, _ => false
  end.
(** glyphs.hpp 118-122: std::mismatch of two sequences of the same size. *)
Fixpoint lt_same_size (a b : list oview) : bool :=
  match a, b with
  | x :: a', y :: b' =>
    if ov_word x =? ov_word y then lt_same_size a' b' else ov_word x <? ov_word y
  | _, _ => false
  end.
(** glyphs.hpp 110-124: LtViews. *)
Definition lt_views (a b : list oview) : bool :=
  if Nat.ltb (List.length a) (List.length b) then true
  else if Nat.ltb (List.length b) (List.length a) then false
  else lt_same_size a b.

(** views_index_ordered.hpp 32-33: references to glyphs are their indexes. *)
Definition glyph_at (glyphs : list (list oview)) (i : Z) : list oview := nth (Z.to_nat i) glyphs [].
Definition ref_lt (glyphs : list (list oview)) (i j : Z) : bool :=
  lt_views (glyph_at glyphs i) (glyph_at glyphs j).

(** views_index_ordered.hpp 35-42: [prev] is the reference before. *)
Fixpoint reassign (glyphs : list (list oview)) (prev : Z) (refs : list Z) : list Z :=
  match refs with
  | [] => []
  | r :: refs' =>
    let r' := if eq_views (glyph_at glyphs r) (glyph_at glyphs prev) then prev else r in
    r' :: reassign glyphs r' refs'
  end.

(** views_index_ordered.hpp 29-52. *)
Definition views_indexes_ordered (sort : list Z -> list Z) (glyphs : list (list oview)) : list Z :=
  match sort (zrange (Z.of_nat (List.length glyphs))) with
  | [] => []
  | r :: refs => r :: reassign glyphs r refs
  end.
