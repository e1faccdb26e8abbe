(** Model of ocr2/disambiguous_with_dict.cpp. *)
From Verif Require Import Base SortModel DictIoModel TrieModel SpellModel IndexModel GlyphsModel.

(** disambiguous_with_dict.cpp 61-87: the marks. *)
Definition is_mark (c : Z) : bool :=
  existsb (Z.eqb c) (str "!#$%&'()*+,-.:;<=>?[]{}").
(** disambiguous_with_dict.cpp 54-90: search_fn. *)
Definition search_fn (g : glyphs_table) (vlist : list oview) : res bool :=
  match vlist with
  | [] => Ok true
  | v :: _ =>
    s <- word_text g (ov_word v) ;;
    Ok (match s with [c] => is_mark c | _ => false end)
  end.
(** disambiguous_with_dict.cpp 32-41: append. *)
Definition append_front (g : glyphs_table) (result : list Z) (l : list oview) : res (list Z) :=
  match l with
  | [] => Ok result
  | v :: _ => s <- word_text g (ov_word v) ;; Ok (result ++ s)
  end.
(** disambiguous_with_dict.cpp 110-146: the words of a list, one for each group of
    the same word. *)
Fixpoint other_words (prev : Z) (l : list oview) : list Z :=
  match l with
  | [] => []
  | v :: l' => if ov_word v =? prev then other_words prev l' else ov_word v :: other_words (ov_word v) l'
  end.
Definition group_words (l : list oview) : list Z :=
  match l with [] => [] | v :: l' => ov_word v :: other_words (ov_word v) l' end.
Definition candidates (g : glyphs_table) (l : list oview) : res (list (list Z)) := map_res (word_text g) (group_words l).

Section Assemble.
Context (g : glyphs_table) (dict : list fnode) (st : list (list oview)) (amb : list Z) (spaces : list Z).
(** The list at an iterator. *)
Definition list_of (i : Z) : res (list oview) := r <- rd amb i ;; rd st r.
(** ambiguous.begin() + *it_space. *)
Definition break_at (k : Z) : res Z := e <- rd spaces k ;; if e <=? vsize amb then Ok e else UB.

(** std::find_if (want = true) and std::find_if_not. *)
Fixpoint find_mark (fuel : nat) (want : bool) (i e : Z) : res Z :=
  match fuel with
  | O => NoFuel
  | S fuel' =>
    if i =? e then Ok i
    else
      l <- list_of i ;;
      b <- search_fn g l ;;
      if Bool.eqb b want then Ok i else find_mark fuel' want (i + 1) e
  end.
(** for (; first != middle; ++first) append(result, glyphs, *first). *)
Fixpoint append_all (fuel : nat) (i e : Z) (result : list Z) : res (list Z) :=
  match fuel with
  | O => NoFuel
  | S fuel' =>
    if i =? e then Ok result
    else l <- list_of i ;; result <- append_front g result l ;; append_all fuel' (i + 1) e result
  end.
(** The candidates of the positions [i, e). *)
Fixpoint positions_of (fuel : nat) (i e : Z) : res (list (list (list Z))) :=
  match fuel with
  | O => NoFuel
  | S fuel' =>
    if i =? e then Ok []
    else l <- list_of i ;; c <- candidates g l ;; cs <- positions_of fuel' (i + 1) e ;; Ok (c :: cs)
  end.
(** disambiguous_with_dict.cpp 192-203: the marks and unknown characters from
    middle. *)
Fixpoint append_marks (fuel : nat) (i e : Z) (result : list Z) (count : Z) : res (Z * list Z * Z) :=
  match fuel with
  | O => NoFuel
  | S fuel' =>
    if i =? e then Ok (i, result, count)
    else
      l <- list_of i ;;
      match l with
      | [] => append_marks fuel' (i + 1) e (result ++ [63]) (u32 (count + 1))
      | v :: _ =>
        b <- search_fn g l ;;
        if b : bool then
          result <- append_front g result l ;; append_marks fuel' (i + 1) e result count
        else Ok (i, result, count)
      end
  end.

(** disambiguous_with_dict.cpp 44-213. *)
Definition assemble : res (list Z * Z) :=
  let fuel := S (List.length amb) in
  e0 <- break_at 0 ;;
  middle <- find_mark fuel false 0 e0 ;;
  result <- append_all fuel 0 middle [] ;;
  let it_space := if middle =? e0 then 1 else 0 in
  loop (S fuel)
    (fun '(first, it_space, result, count) =>
       if first =? vsize amb then Ok (inr (result, count))
       else
         e <- break_at it_space ;;
         middle <- find_mark fuel true first e ;;
         ps <- positions_of fuel first middle ;;
         '(found, result) <- disambiguous dict ps result ;;
         result <- (if found : bool then Ok result else append_all fuel first middle result) ;;
         '(middle, result, count) <- append_marks fuel middle e result count ;;
         if (middle =? e) && negb (e =? vsize amb) then Ok (inl (middle, it_space + 1, result ++ [32], count))
         else Ok (inl (middle, it_space, result, count)))
    (middle, it_space, result, 0).
End Assemble.
