(** The assertions of the code that reads the text (see AssertModel): those of
    the assembly of a line and of the distance of two values of a feature. *)
From Verif Require Import Base SortModel TrieModel DictIoModel SpellModel DatasModel IndexModel GlyphsModel FloatModel RecogModel AssembleModel.

(** loader2/datas_loader.hpp 150-154: dist_with. *)
Definition dist_assert (r : relation) (a b : fval) : res bool :=
  x <- rel_dist r a b ;; Ok (dle d0 x && dle x d1).

(** main/extract_text6.cpp 767-772, main/extract_text8.cpp 618-623: the indexes
    are counted with unsigned integers. *)
Definition indexes_assert (count : Z) : bool := u32 count =? count.

(** disambiguous_with_dict.cpp 186-189: one assertion for each character. *)
Definition append_asserts (n first middle : Z) : list bool :=
  map (fun k => first + k <=? n) (zrange (middle - first)).

(** disambiguous_with_dict.cpp 169-213: the assertions of the loop; the program
    stops at a false one. *)
Definition assemble_asserts (g : glyphs_table) (dict : list fnode) (st : list (list oview)) (amb spaces : list Z) : res (list bool) :=
  let fuel := S (List.length amb) in
  let n := vsize amb in
  e0 <- break_at amb spaces 0 ;;
  middle <- find_mark g st amb fuel false 0 e0 ;;
  result <- append_all g st amb fuel 0 middle [] ;;
  let it_space := if middle =? e0 then 1 else 0 in
  loop (S fuel)
    (fun '(first, it_space, result, count, out) =>
       if first =? n then Ok (inr out)
       else
         e <- break_at amb spaces it_space ;;
         let out := out ++ [e <=? n; first <? e] in
         if negb (first <? e) then Ok (inr out)
         else
           middle <- find_mark g st amb fuel true first e ;;
           ps <- positions_of g st amb fuel first middle ;;
           '(found, result) <- disambiguous dict ps result ;;
           let out := out ++ (middle <=? e) :: (if found : bool then [] else append_asserts n first middle) in
           result <- (if found : bool then Ok result else append_all g st amb fuel first middle result) ;;
           '(middle, result, count) <- append_marks g st amb fuel middle e result count ;;
           if (middle =? e) && negb (e =? n) then Ok (inl (middle, it_space + 1, result ++ [32], count, out))
           else Ok (inl (middle, it_space, result, count, out)))
    (middle, it_space, result, 0, []).
