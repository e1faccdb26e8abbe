(** Model of ocr2/filter_by_font.cpp and ocr2/filter_by_lines.cpp.

    The lists of candidates are those of the cache (ocr2/cache.hpp 34-43); an
    ambiguous_t (ocr2/ambiguous.hpp 26) is a list of references to them: here a
    store of lists and a list of positions, that may be repeated. *)
From Verif Require Import Base SortModel BoxModel TrieModel IndexModel GlyphsModel.

Notation store := (list (list oview)) (only parsing).

(** filter_by_font.cpp 25-30: the fonts of the lists of one candidate, counted;
    std::map<unsigned, unsigned> is an association list ordered by key. *)
Fixpoint count_font (f : Z) (m : list (Z * Z)) : list (Z * Z) :=
  match m with
  | [] => [(f, 1)]
  | (k, n) :: m' =>
    if f <? k then (f, 1) :: m
    else if f =? k then (k, u32 (n + 1)) :: m'
    else (k, n) :: count_font f m'
  end.
Fixpoint count_fonts (st : store) (amb : list Z) (m : list (Z * Z)) : res (list (Z * Z)) :=
  match amb with
  | [] => Ok m
  | r :: amb' =>
    vec <- rd st r ;;
    count_fonts st amb' (match vec with [v] => count_font (ov_font v) m | _ => m end)
  end.
(** std::max_element by count: the first of the greatest. *)
Fixpoint max_font (best : Z * Z) (m : list (Z * Z)) : Z * Z :=
  match m with
  | [] => best
  | p :: m' => max_font (if snd best <? snd p then p else best) m'
  end.
(** filter_by_font.cpp 37-45. *)
Definition keep_font (font : Z) (vec : list oview) : list oview :=
  match vec with
  | v :: _ :: _ => [match find (fun v => ov_font v =? font) vec with Some x => x | None => v end]
  | _ => vec
  end.
Fixpoint keep_fonts (font : Z) (st : store) (amb : list Z) : res store :=
  match amb with
  | [] => Ok st
  | r :: amb' =>
    vec <- rd st r ;;
    st <- wr st r (keep_font font vec) ;;
    keep_fonts font st amb'
  end.
(** filter_by_font.cpp 23-50. *)
Definition filter_by_font (st : store) (amb : list Z) : res (store * Z) :=
  fonts <- count_fonts st amb [] ;;
  match fonts with
  | [] => Ok (st, 4294967295)
  | p :: fonts' =>
    let best := max_font p fonts' in
    if (vsize fonts =? 1) || (vsize amb / 2 <=? snd best) then
      st <- keep_fonts (fst best) st amb ;; Ok (st, fst best)
    else Ok (st, fst best)
  end.

(** filter_by_lines.cpp 28-42: the elements of [l] from the first whose word is
    not [word], and those before. *)
Fixpoint split_run (word : Z) (l : list oview) : list oview * list oview :=
  match l with
  | [] => ([], [])
  | v :: l' => if ov_word v =? word then let '(a, b) := split_run word l' in (v :: a, b) else ([], l)
  end.

(** filter_by_lines.cpp 51-55: do ... while; [out] are the elements passed.
    The predicate is called with an element of the list. *)
Fixpoint skip_runs (fuel : nat) (pred : oview -> res bool) (out : list oview) (rest : list oview) (count : Z)
    : res (list oview * list oview * Z) :=
  match fuel with
  | O => NoFuel
  | S fuel' =>
    match rest with
    | [] => UB  (* *first with first == last; not reached *)
    | v :: l =>
      let '(run, rest') := split_run (ov_word v) l in
      let out := out ++ v :: run in
      match rest' with
      | [] => Ok (out, [], count + 1)
      | w :: _ =>
        b <- pred w ;;
        if b : bool then Ok (out, rest', count + 1) else skip_runs fuel' pred out rest' (count + 1)
      end
    end
  end.
(** filter_by_lines.cpp 57-64. *)
Fixpoint keep_runs (fuel : nat) (pred : oview -> res bool) (out : list oview) (rest : list oview) (count : Z)
    : res (list oview * Z) :=
  match fuel with
  | O => NoFuel
  | S fuel' =>
    match rest with
    | [] => Ok (out, count)
    | v :: l =>
      let '(run, rest') := split_run (ov_word v) l in
      b <- pred v ;;
      if b : bool then keep_runs fuel' pred out rest' count
      else keep_runs fuel' pred (out ++ v :: run) rest' (count + 1)
    end
  end.
(** filter_by_lines.cpp 44-72: filter_line: the list and the count. *)
Definition filter_line (pred : oview -> res bool) (vec : list oview) : res (list oview * Z) :=
  match vec with
  | [] => Ok (vec, 0)
  | v :: l =>
    let '(run, rest) := split_run (ov_word v) l in
    match rest with
    | [] => Ok (vec, 0)
    | _ =>
      b <- pred (last (v :: run) v) ;;
      if b : bool then keep_runs (S (List.length vec)) pred [] rest 0
      else
        '(out, rest, count) <- skip_runs (S (List.length vec)) pred (v :: run) rest 0 ;;
        keep_runs (S (List.length vec)) pred out rest count
    end
  end.

(** filter_by_lines.cpp 74-94: MinMaxBox: min_top, max_top, min_bottom,
    max_bottom; the first box counts for the minima only. *)
Fixpoint min_max_boxes (mm : Z * Z * Z * Z) (boxes : list box) : Z * Z * Z * Z :=
  match boxes with
  | [] => mm
  | b :: boxes' =>
    let '(mt, xt, mb, xb) := mm in
    min_max_boxes (Z.min mt (box_top b), Z.max xt (box_top b),
                   Z.min mb (box_bottom b), Z.max xb (box_bottom b)) boxes'
  end.
Definition min_max_box (b : box) (boxes : list box) : Z * Z * Z * Z :=
  min_max_boxes (box_top b, 0, box_bottom b, 0) boxes.

(** ++ys[i]. *)
Definition incr (ys : list Z) (i : Z) : res (list Z) := n <- rd ys i ;; wr ys i (u32 (n + 1)).
Fixpoint count_bottoms (ys : list Z) (min_bottom : Z) (boxes : list box) : res (list Z) :=
  match boxes with
  | [] => Ok ys
  | b :: boxes' => ys <- incr ys (u32 (box_bottom b - min_bottom)) ;; count_bottoms ys min_bottom boxes'
  end.
(** std::max_element - begin: the first of the greatest; 0 if there is none. *)
Fixpoint max_pos (i best bestv : Z) (l : list Z) : Z :=
  match l with
  | [] => best
  | v :: l' => if bestv <? v then max_pos (i + 1) i v l' else max_pos (i + 1) best bestv l'
  end.
Definition max_index (l : list Z) : Z :=
  match l with [] => 0 | v :: l' => max_pos 1 0 v l' end.

(** filter_by_lines.cpp 135-149: line_pred. *)
Definition line_pred (flags ypos line_pos : Z) : bool :=
  if flags =? 1 then line_pos <=? u32 (ypos + 1)
  else if flags =? 2 then 1 <? (if ypos <? line_pos then line_pos - ypos else ypos - line_pos)
  else if flags =? 4 then ypos <=? u32 (line_pos + 1)
  else if flags =? 3 then line_pos <? u32 (ypos + 1)
  else if flags =? 6 then ypos <? u32 (line_pos + 1)
  else false.
(** filter_by_lines.cpp 153-156, 176-179: the predicate for a line. *)
Definition contradicts (infos : list word_infos) (field : word_lines -> Z) (ypos line_pos : Z) (v : oview) : res bool :=
  p <- infos_get infos (ov_word v) ;;
  Ok (match p with Some wi => line_pred (field (wi_lines wi)) ypos line_pos | None => false end).

(** filter_by_lines.cpp 151-167. *)
Fixpoint filter_baseline (infos : list word_infos) (baseline min_top : Z) (st : store) (amb : list Z)
    (boxes : list box) (ys : list Z) (has : bool) : res (store * list Z * bool) :=
  match amb with
  | [] => Ok (st, ys, has)
  | r :: amb' =>
    match boxes with
    | [] => UB  (* *it past the end *)
    | b :: boxes' =>
      vec <- rd st r ;;
      '(vec, count) <- filter_line (contradicts infos wl_base (box_bottom b) baseline) vec ;;
      st <- wr st r vec ;;
      '(ys, has) <-
        (if count =? 1 then
           v <- rd vec 0 ;;
           p <- infos_get infos (ov_word v) ;;
           match p with
           | Some wi =>
             if (wl_base (wi_lines wi) =? 2) && (wl_mean (wi_lines wi) =? 2) then
               ys <- incr ys (u32 (box_top b - min_top)) ;; Ok (ys, true)
             else Ok (ys, has)
           | None => Ok (ys, has)
           end
         else Ok (ys, has)) ;;
      filter_baseline infos baseline min_top st amb' boxes' ys has
    end
  end.
(** filter_by_lines.cpp 173-181. *)
Fixpoint filter_meanline (infos : list word_infos) (meanline : Z) (st : store) (amb : list Z) (boxes : list box)
    : res store :=
  match amb with
  | [] => Ok st
  | r :: amb' =>
    match boxes with
    | [] => UB
    | b :: boxes' =>
      vec <- rd st r ;;
      '(vec, _) <- filter_line (contradicts infos wl_mean (box_top b) meanline) vec ;;
      st <- wr st r vec ;;
      filter_meanline infos meanline st amb' boxes'
    end
  end.

(** filter_by_lines.cpp 108-112: bottom_ys_len, top_ys_len and the size of the
    buffer. *)
Definition bottom_len (b : box) (boxes : list box) : Z :=
  let '(_, _, min_bottom, max_bottom) := min_max_box b boxes in u32 (max_bottom - min_bottom + 1).
Definition top_len (b : box) (boxes : list box) : Z :=
  let '(min_top, max_top, _, _) := min_max_box b boxes in u32 (max_top - min_top + 1).
Definition buffer_len (b : box) (boxes : list box) : Z := Z.max (bottom_len b boxes) (top_len b boxes).

(** filter_by_lines.cpp 97-183.  The allocation of the buffer is supposed to
    succeed. *)
Definition filter_by_lines (infos : list word_infos) (st : store) (amb : list Z) (boxes : list box) : res store :=
  match boxes with
  | [] => Ok st
  | b :: boxes' =>
    let '(min_top, _, min_bottom, _) := min_max_box b boxes' in
    let bottom_len := bottom_len b boxes' in
    let top_len := top_len b boxes' in
    let buffer := repeat 0 (Z.to_nat (buffer_len b boxes')) in
    ys <- count_bottoms buffer min_bottom boxes ;;
    let baseline := u32 (max_index (firstn (Z.to_nat bottom_len) ys) + min_bottom) in
    let n := Z.to_nat (Z.min bottom_len top_len) in
    let ys := repeat 0 n ++ skipn n ys in
    '(st, ys, has) <- filter_baseline infos baseline min_top st amb boxes ys false ;;
    if has : bool then
      let meanline := u32 (max_index (firstn (Z.to_nat top_len) ys) + min_top) in
      filter_meanline infos meanline st amb boxes
    else Ok st
  end.
