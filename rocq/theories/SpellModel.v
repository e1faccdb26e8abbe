(** Model of spell/word_disambiguouser.hpp. *)
From Verif Require Import Base SortModel UtfModel DictIoModel TrieModel.

(** std::swap_ranges(begin + sz, begin + sz + (size - sz) / 2, rbegin()), line
    40. *)
Definition swap_tail (sz : Z) (out : list Z) : res (list Z) :=
  let n := vsize out in
  for_up (Z.to_nat ((n - sz) / 2)) 0
    (fun i o =>
      a <- rd o (sz + i) ;;
      b <- rd o (n - 1 - i) ;;
      o <- wr o (sz + i) b ;;
      wr o (n - 1 - i) a)
    out.

(** 57-84: disambiguous_utf_char on the children [lo, hi) of a node.  The
    UTF8Iterator is the text, the code read and the offset of the next one;
    [last] is next_first == last and [next] is disambiguous_impl at next_first. *)
Fixpoint utf_char (nodes : list fnode) (last : bool) (next : Z -> Z -> list Z -> res (bool * list Z))
    (fuel : nat) (mem : list Z) (c p lo hi : Z) (out : list Z) : res (bool * list Z) :=
  match fuel with
  | O => NoFuel
  | S fuel' =>
    pos <- range_lower_bound nodes lo hi c ;;
    if pos =? hi then Ok (false, out)
    else
      e <- rd nodes pos ;;
      if fn_char e =? c then
        if last then
          if fn_term e then Ok (true, set_c out c) else Ok (false, out)
        else if fn_count e =? 0 then Ok (false, out)
        else
          '(c', p') <- utf8_next mem p ;;
          let '(lo', hi') := child_range pos e in
          '(b, out') <-
            (if c' =? 0 then next lo' hi' out
             else utf_char nodes last next fuel' mem c' p' lo' hi' out) ;;
          Ok (if b : bool then (true, set_c out' c) else (false, out'))
      else Ok (false, out)
  end.

(** 49-53: the loop over the candidates of one position. *)
Fixpoint try_all (one : list Z -> list Z -> res (bool * list Z)) (candidates : list (list Z))
    (out : list Z) : res (bool * list Z) :=
  match candidates with
  | [] => Ok (false, out)
  | s :: candidates' =>
    '(b, out') <- one s out ;;
    if b : bool then Ok (true, out') else try_all one candidates' out'
  end.

(** 47-55: disambiguous_impl; [positions] is [first, last). *)
Fixpoint disambiguous_impl (nodes : list fnode) (lo hi : Z) (positions : list (list (list Z)))
    (out : list Z) {struct positions} : res (bool * list Z) :=
  match positions with
  | [] => UB  (* *first with first == last *)
  | candidates :: next_first =>
    try_all
      (fun s out =>
        '(c, p) <- utf8_next (c_str s) 0 ;;
        utf_char nodes (match next_first with [] => true | _ :: _ => false end)
          (fun lo' hi' out => disambiguous_impl nodes lo' hi' next_first out)
          (S (S (List.length s))) (c_str s) c p lo hi out)
      candidates out
  end.

(** 32-44: operator(). *)
Definition disambiguous (dict : list fnode) (positions : list (list (list Z))) (out : list Z)
    : res (bool * list Z) :=
  match positions, dict with
  | [], _ | _, [] => Ok (false, out)
  | _, _ =>
    let sz := vsize out in
    '(lo, hi) <- root_range dict ;;
    '(b, out') <- disambiguous_impl dict lo hi positions out ;;
    if b : bool then o <- swap_tail sz out' ;; Ok (true, o) else Ok (false, out')
  end.
