(** Model of main/extract_text8.cpp, the parts that are not those of extract_text6.
    What it prints is in OcrOutModel.v; the time it takes is not modelled. *)
From Verif Require Import Base SortModel ImageModel PnmModel StratModel DatasModel StreamModel GlyphIoModel DatasIoModel DictIoModel
  TrieModel UtilModel IndexModel FloatModel RecogModel ExtractModel PipelineModel Ocr6Model.

(** * Recognition *)
(** count_posibilities() - 1. *)
Definition interval8 (s : strategy) : Z := rel_count (rel s) - 1.
(** 388-391: in_interval. *)
Definition in_interval (x y d : Z) : bool := negb (if x <? y then u32 (x + d) <? y else u32 (y + d) <? x).
(** 376-386: update_probability. *)
Definition update_probability (s : strategy) (p : double) (value sig : Z) : res double :=
  let interval := interval8 s in
  let d := interval / 10 in
  q <- (if value <? sig
        then if sig <=? u32 (value + d) then divu (u32 (u32 (interval - u32 (sig - value)) * 100)) interval else Ok 0
        else if value <=? u32 (sig + d) then divu (u32 (u32 (interval - u32 (value - sig)) * 100)) interval else Ok 0) ;;
  Ok (ddiv (dmul p (double_of q)) d100).
(** 393-404: reduce_universe. *)
Fixpoint reduce8 (d value : Z) (col : list fval) (ps : list prob) : res (list prob) :=
  match ps with
  | [] => Ok []
  | p :: ps' =>
    x <- col_at col (pr_i p) ;;
    l <- reduce8 d value col ps' ;;
    Ok (if in_interval value (num x) d then p :: l else l)
  end.
(** 430-434. *)
Fixpoint reduce_all8 (load : strategy -> res fval) (cols : list (list fval)) (ss : list strategy) (ps : list prob) : res (list prob) :=
  match ss with
  | [] => Ok ps
  | s :: ss' =>
    v <- load s ;;
    col <- get_col all_strategies cols s ;;
    ps <- reduce8 (interval8 s / 10) (num v) col ps ;;
    reduce_all8 load cols ss' ps
  end.
(** 436-448: the score of a candidate. *)
Fixpoint score8 (load : strategy -> res fval) (cols : list (list fval)) (ss : list strategy) (i : Z) (p : double) : res double :=
  match ss with
  | [] => Ok p
  | s :: ss' =>
    v <- load s ;;
    col <- get_col all_strategies cols s ;;
    x <- col_at col i ;;
    p <- update_probability s p (num v) (num x) ;;
    score8 load cols ss' i p
  end.
(** 419-449: the candidates; [cap] is the size of the buffer (252). *)
Definition candidates8 (cap : Z) (cols : list (list fval)) (load : strategy -> res fval) : res (list prob) :=
  v <- load first6 ;;
  col <- get_col all_strategies cols first6 ;;
  ps <- for_up (Z.to_nat (datas_size cols)) 0
          (fun i ps => x <- col_at col i ;; if in_interval (num v) (num x) (interval8 first6 / 10) then emit cap ps (mkpr i d1) else Ok ps) [] ;;
  ps <- reduce_all8 load cols others6 ps ;;
  map_res (fun p => q <- score8 load cols algos6 (pr_i p) (pr_p p) ;; Ok (mkpr (pr_i p) q)) ps.

(** What a recognition uses. *)
Record env8 := mkenv8 { e8_rt : runtime6; e8_cols : list (list fval); e8_words : list (list (list Z)); e8_by_word : list (list Z) }.
(** 407-519: compute_image. *)
Definition recognise8 (e : env8) (n : Z) (img : image) : res found6 :=
  img90 <- rotate90 img ;;
  let load := load6 (r6_junk (e8_rt e) n) (r6_zones (e8_rt e)) img img90 in
  ps <- candidates8 (vsize (e8_words e)) (e8_cols e) load ;;
  decide6 (e8_rt e) (e8_cols e) (e8_words e) (e8_by_word e) load ps.

(** * Loading *)
(** 561-577: datas_eq. *)
Fixpoint rows_eq (cols : list (list fval)) (i1 i2 : Z) : res bool :=
  match cols with
  | [] => Ok true
  | c :: cols' => a <- col_at c i1 ;; b <- col_at c i2 ;; if fval_eqb a b then rows_eq cols' i1 i2 else Ok false
  end.
(** 638-640: std::find_if; [pos] is the position of the first of [l]. *)
Fixpoint find_row (cols : list (list fval)) (i : Z) (l : list Z) (pos : Z) : res Z :=
  match l with
  | [] => Ok pos
  | j :: l' => b <- rows_eq cols j i ;; if b : bool then Ok pos else find_row cols i l' (pos + 1)
  end.
(** 645-653: std::set_union with move iterators, as it is usually written; what is
    left in the second range.  [moved] is what a moved string contains.  The views must
    be in order. *)
Section Union.
Context (moved : list Z -> list Z).
Fixpoint union_words (a b : list (list Z)) : list (list Z) * list (list Z) :=
  match a with
  | [] => (b, map moved b)
  | x :: a' =>
    (fix go (b : list (list Z)) : list (list Z) * list (list Z) :=
       match b with
       | [] => (a, [])
       | y :: b' =>
         if list_ltb Z.ltb x y then let '(o, r) := union_words a' b in (x :: o, r)
         else if list_ltb Z.ltb y x then let '(o, r) := go b' in (y :: o, moved y :: r)
         else let '(o, r) := union_words a' b' in (x :: o, y :: r)
       end) b
  end.
(** 643-655: the glyph at the position [p] takes the views of the one before it. *)
Definition merge_at (indexes : list Z) (p : Z) (s : list Z * list (list (list Z))) : res (list Z * list (list (list Z))) :=
  let '(dup, words) := s in
  i <- rd indexes p ;;
  j <- rd indexes (p - 1) ;;
  a <- rd words i ;;
  b <- rd words j ;;
  let '(o, r) := union_words a b in
  words <- wr words j r ;;
  words <- wr words i (unique_words o) ;;
  Ok (dup ++ [p], words).
(** 630-659: the duplicates, and the words. *)
Definition find_duplicates (cols : list (list fval)) (indexes : list Z) (words : list (list (list Z))) : res (list Z * list (list (list Z))) :=
  loop (S (List.length indexes))
    (fun '(first, s) =>
       if first =? vsize indexes then Ok (inr s)
       else
         i <- rd indexes first ;;
         pos <- find_row cols i (skipn (Z.to_nat (first + 1)) indexes) (first + 1) ;;
         s <- for_up (Z.to_nat (pos - (first + 1))) (first + 1) (merge_at indexes) s ;;
         Ok (inl (pos, s)))
    (0, ([], words)).
End Union.
(** 666-672: the predicate of std::copy_if, at the position [p]; [first] are the
    duplicates from *first. *)
Fixpoint advance (p : Z) (first : list Z) : res (list Z) :=
  match first with
  | [] => UB  (* *first at the end *)
  | d :: first' => if d <? p then advance p first' else Ok first
  end.
Definition copy_step (p : Z) (s : list Z * Z * list Z) : res (list Z * Z * list Z) :=
  let '(indexes, out, first) := s in
  match first with
  | [] => UB
  | d :: _ =>
    first <- advance p first ;;
    if negb (d =? p) then x <- rd indexes p ;; indexes <- wr indexes out x ;; Ok (indexes, out + 1, first)
    else Ok (indexes, out, first)
  end.
(** 661-676: the ranges of std::copy may overlap; it is taken as a memmove. *)
Definition drop_duplicates (dup indexes : list Z) : res (list Z) :=
  match dup with
  | [] => Ok indexes
  | d0 :: first =>
    let back := last dup 0 in
    if back <? d0 + 1 then UB  (* the range of std::copy_if is not a range *)
    else
      '(indexes, out, _) <- for_up (Z.to_nat (back - (d0 + 1))) (d0 + 1) copy_step (indexes, d0 + 1, first) ;;
      put_cells indexes back (firstn (Z.to_nat (vsize indexes - 1 - out)) (skipn (Z.to_nat out) indexes))
  end.

Record runtime8 := mkrt8 { r8_base : runtime6; r8_moved : list Z -> list Z }.
(** 615-680. *)
Definition order8 (rt : runtime8) (cols : list (list fval)) (words : list (list (list Z))) : res (list (list fval) * list (list (list Z))) :=
  if 1 <? vsize words then
    col <- get_col all_strategies cols first6 ;;
    let indexes := r6_first (r8_base rt) (map num col) (zrange (datas_size cols)) in
    '(dup, words) <- find_duplicates (r8_moved rt) cols indexes words ;;
    indexes <- drop_duplicates dup indexes ;;
    words <- reindex [] (fun _ => []) indexes words ;;
    cols <- map_res (reindex (VNum 0) moved_value indexes) cols ;;
    Ok (cols, words)
  else Ok (cols, words).
(** 581-691. *)
Definition load_all8 (rt : runtime8) (glyphs datas : list Z) (dict : option (list Z)) : res (list fnode * env8) :=
  nodes <- load_optional read_dict [] dict ;;
  cols <- load_file (read_datas all_strategies) datas ;;
  gs <- load_file read_glyphs glyphs ;;
  if negb (vsize gs =? datas_size cols) then Throw ExBadLength
  else
    '(cols, words) <- order8 rt cols (map (fun g => unique_words (map vw_word (gl_views g))) gs) ;;
    by_word <- data_by_word words ;;
    Ok (nodes, mkenv8 (r8_base rt) cols words by_word).
(** 581-784: result1, result2, result3. *)
Definition extract_text8 (rt : runtime8) (glyphs datas image : list Z) (dict : option (list Z)) : res (list Z * list Z * list Z) :=
  '(nodes, e) <- load_all8 rt glyphs datas dict ;;
  img <- image_of_bytes image 128 ;;
  s <- read_line6 (recognise8 e) img ;;
  r3 <- assemble6 nodes (q_amb s) ;;
  Ok (q_r1 s, q_r2 s, r3).
