(** Model of main/extract_text6.cpp.  What it prints is in
    OcrOutModel.v; the time it takes is not modelled. *)
From Verif Require Import Base SortModel ImageModel PnmModel BoxModel StratModel ZoneModel DatasModel StreamModel GlyphIoModel
  DatasIoModel DictIoModel TrieModel UtilModel IndexModel SpellModel FloatModel RecogModel GlyphsModel ExtractModel PipelineModel.

(** 55. *)
Definition ocr_div : Z := 10.
(** 70: the order in which the simple features are used. *)
Definition algo_indexes : list nat := [16; 12; 18; 19; 11; 15; 14; 10; 13; 17; 9; 5; 4; 1; 7; 8; 3; 0; 6; 2]%nat.
Definition algos6 : list strategy := map (fun i => nth i simple_strategies (mkst Density false)) algo_indexes.
Definition first6 : strategy := nth 0 algos6 (mkst Density false).
Definition others6 : list strategy := tl algos6.
(** 289-292: get_interval. *)
Definition interval6 (s : strategy) : Z := (rel_count (rel s) - 1) / ocr_div.
(** A value of a simple feature. *)
Definition num (v : fval) : Z := match v with VNum n => n | _ => 0 end.
(** unsigned to int. *)
Definition to_int (z : Z) : Z := if u32 z <? 2147483648 then u32 z else u32 z - 4294967296.

(** A context just constructed. *)
Definition fresh_ctxs : ctxs := mkctxs (fun _ _ => (false, mktb 0 0)) (fun _ => (false, new_zone_ctx)).
(** 401-413: data_for_strategy::load, and datas_loader.hpp 104-112: loader2::load, which
    exchanges the images for the policy img90; Strategy::load exchanges them again. *)
Definition load6 (junk : Z -> Z) (zsort : list Z -> list Z) (img img90 : image) (s : strategy) : res fval :=
  '(v, _) <- (if st_rot s then strategy_load junk zsort s img90 img fresh_ctxs else strategy_load junk zsort s img img90 fresh_ctxs) ;;
  Ok v.

(** 324-336: nb_u64. *)
Definition count_near (interval : Z) (col : list Z) : res (list Z) :=
  fold_left
    (fun acc x =>
       cat <- acc ;;
       let lo := Z.max (to_int (x / ocr_div - interval / 10)) 0 in
       let hi := Z.min (to_int (x / ocr_div + interval / 10)) interval in
       for_up (Z.to_nat (hi + 1 - lo)) lo (fun m cat => v <- rd cat m ;; wr cat m (u32 (v + 1))) cat)
    col (Ok (repeat 0 (Z.to_nat (interval + 1)))).
(** std::partial_sum. *)
Fixpoint partial_sum (acc : Z) (l : list Z) : list Z :=
  match l with [] => [] | x :: l' => u32 (acc + x) :: partial_sum (u32 (acc + x)) l' end.
(** 337-350: shift_u64. *)
Definition count_below (interval : Z) (col : list Z) : res (list Z) :=
  cat <- fold_left (fun acc x => cat <- acc ;; v <- rd cat (x / ocr_div) ;; wr cat (x / ocr_div) (u32 (v + 1))) col
           (Ok (repeat 0 (Z.to_nat (interval + 1)))) ;;
  let d := Z.to_nat (interval / 10 + 1) in
  Ok (repeat 0 d ++ firstn (List.length cat - d) (partial_sum 0 cat)).

(** 309: data_mask[i / 64] |= 1ull << (i % 64). *)
Definition set_bit (m : list Z) (i : Z) : res (list Z) := w <- rd m (i / 64) ;; wr m (i / 64) (Z.lor w (Z.shiftl 1 (i mod 64))).
(** 308 and 392-394. *)
Definition near (d value sig : Z) : bool := if value <? sig then sig <=? value + d else value <=? sig + d.
(** 294-315: initialize_datas_mask. *)
Definition mask_of_value (d value nb shift : Z) (col : list Z) : res (list Z) :=
  for_up (Z.to_nat nb) 0
    (fun i m => x <- rd col (shift + i) ;; if near d value (x / ocr_div) then set_bit m i else Ok m)
    (repeat 0 (Z.to_nat (u32 (nb + 63) / 64))).
Definition masks_of (cols : list (list fval)) (nb shift : Z) (s : strategy) : res (list (list Z)) :=
  col <- get_col all_strategies cols s ;;
  map_res (fun value => mask_of_value (interval6 s / 10 / ocr_div) value nb shift (map num col)) (zrange (interval6 s + 1)).

(** 241-369: compute_image_data_type. *)
Record search6 := mks6 { s6_nb : list Z; s6_shift : list Z; s6_masks : list (list (list (list Z))) }.
Definition make_search6 (cols : list (list fval)) : res search6 :=
  col <- get_col all_strategies cols first6 ;;
  nb <- count_near (interval6 first6) (map num col) ;;
  shift <- count_below (interval6 first6) (map num col) ;;
  masks <- map_res (fun icat => n <- rd nb icat ;; sh <- rd shift icat ;; map_res (masks_of cols n sh) others6)
             (zrange (vsize nb)) ;;
  Ok (mks6 nb shift masks).

(** 96-109: reduce_universe. *)
Fixpoint and_mask (accepted mask : list Z) : res (list Z) :=
  match mask, accepted with
  | [], _ => Ok accepted
  | m :: mask', a :: accepted' => l <- and_mask accepted' mask' ;; Ok (Z.land a m :: l)
  | _ :: _, [] => UB
  end.
(** 594-601: the masks of the other features. *)
Fixpoint and_masks (accepted : list Z) (masks : list (list (list Z))) (vs : list Z) : res (list Z) :=
  match masks, vs with
  | m :: masks', v :: vs' => l <- rd m (v / ocr_div) ;; accepted <- and_mask accepted l ;; and_masks accepted masks' vs'
  | _, _ => Ok accepted
  end.
Definition accepted6 (masks : list (list (list Z))) (vs : list Z) : res (list Z) :=
  match masks, vs with
  | m :: masks', v :: vs' => l <- rd m (v / ocr_div) ;; and_masks l masks' vs'
  | _, _ => UB  (* excluded by the types *)
  end.

(** 388-395: a factor of compute_probability; [interval] has been divided by ocr_div
    twice (289-292, 603-607). *)
Definition score_step (interval value sig : Z) (p : double) : res double :=
  let d := interval / 10 in
  q <- (if value <? sig
        then if sig <=? value + d then divu (u32 (u32 (interval - (sig - value)) * 100)) interval else Ok 0
        else if value <=? sig + d then divu (u32 (u32 (interval - (value - sig)) * 100)) interval else Ok 0) ;;
  Ok (ddiv (dmul p (double_of q)) d100).
(** 376-399: compute_probability. *)
Fixpoint score6 (cols : list (list fval)) (ss : list strategy) (vs : list Z) (i : Z) (p : double) : res double :=
  match ss, vs with
  | s :: ss', v :: vs' =>
    col <- get_col all_strategies cols s ;;
    x <- col_at col i ;;
    p <- score_step (interval6 s / ocr_div) (v / ocr_div) (num x / ocr_div) p ;;
    score6 cols ss' vs' i p
  | _, _ => Ok p
  end.
(** 581-618: the candidates of an image whose simple features are [vs], the first
    one first; [cap] is the size of the buffer (127-130, 363). *)
Definition candidates6 (cap : Z) (cols : list (list fval)) (sd : search6) (vs : list Z) : res (list prob) :=
  match vs with
  | [] => UB  (* excluded by the types *)
  | v :: vs' =>
    let icat := v / ocr_div in
    nb <- rd (s6_nb sd) icat ;;
    masks <- rd (s6_masks sd) icat ;;
    accepted <- accepted6 masks vs' ;;
    shift <- rd (s6_shift sd) icat ;;
    for_up (Z.to_nat nb) 0
      (fun i ps =>
         w <- rd accepted (i / 64) ;;
         if Z.land w (Z.shiftl 1 (i mod 64)) =? 0 then Ok ps
         else p <- score6 cols algos6 vs (shift + i) d1 ;; emit cap ps (mkpr (u32 (shift + i)) p))
      []
  end.

(** 179: the words of the views of a candidate; [words] are those of the glyphs. *)
Definition words_at (words : list (list (list Z))) (p : prob) : list (list Z) := nth (Z.to_nat (pr_i p)) words [].
Fixpoint eq_words (a b : list (list Z)) : bool :=
  match a, b with
  | [], [] => true
  | x :: a', y :: b' => list_eqb x y && eq_words a' b'
  | _, _ => false
  end.
(** 194-198: std::mismatch of two sequences of the same size. *)
Fixpoint lt_words (a b : list (list Z)) : bool :=
  match a, b with
  | x :: a', y :: b' => if list_eqb x y then lt_words a' b' else list_ltb Z.ltb x y
  | _, _ => false
  end.
(** 185-199: the first comparator. *)
Definition lt6 (words : list (list (list Z))) (a b : prob) : bool :=
  let v1 := words_at words a in
  let v2 := words_at words b in
  if Nat.ltb (List.length v1) (List.length v2) then true
  else if Nat.ltb (List.length v2) (List.length v1) then false
  else if eq_words v1 v2 then dlt (pr_p b) (pr_p a) else lt_words v1 v2.
(** 202-211: std::unique. *)
Fixpoint unique6_from (words : list (list (list Z))) (p : prob) (ps : list prob) : list prob :=
  match ps with
  | [] => []
  | q :: ps' => if eq_words (words_at words p) (words_at words q) then unique6_from words p ps' else q :: unique6_from words q ps'
  end.
Definition unique6 (words : list (list (list Z))) (ps : list prob) : list prob :=
  match ps with [] => [] | p :: ps' => p :: unique6_from words p ps' end.

(** What the standard leaves open: the results of the sorts, and the contents of
    the allocated buffers. *)
Record runtime6 := mkrt6 {
  r6_first : list Z -> list Z -> list Z;
  r6_views : list (list (list Z)) -> list prob -> list prob;
  r6_probs : list prob -> list prob;
  r6_zones : list Z -> list Z;
  r6_junk : Z -> Z -> Z }.
(** 172-217: sort_and_show_infos; every index is that of a glyph. *)
Definition rank6 (rt : runtime6) (words : list (list (list Z))) (ps : list prob) : res (list prob) :=
  if forallb (fun p => (0 <=? pr_i p) && (pr_i p <? vsize words)) ps
  then Ok (r6_probs rt (unique6 words (r6_views rt words ps))) else UB.

(** relationship/*.hpp: compute; proportionality_zone.cpp 62-76. *)
Definition rel_compute (r : relation) (a b : fval) : res Z :=
  match r, a, b with
  | RInterval n, VNum x, VNum y => interval_compute n x y
  | REqual, VNum x, VNum y => Ok (if equal_compute x y then 1 else 0)
  | RAlts, VAlts x, VAlts y => array_compute alt_eqb x y
  | RZones, VArr x, VArr y => array_compute Z.eqb x y
  | RPz, VVec x, VVec y => pz_compute x y
  | _, _, _ => UB
  end.
(** 415-434: reduce_complexe_universe, for a feature. *)
Fixpoint reduce_complex1 (r : relation) (col : list fval) (v : fval) (ps : list prob) : res (list prob) :=
  match ps with
  | [] => Ok []
  | p :: ps' =>
    c <- col_at col (pr_i p) ;;
    x <- rel_compute r c v ;;
    l <- reduce_complex1 r col v ps' ;;
    let count := rel_count r - 1 in
    Ok (if (count + 1) / 2 <=? x then mkpr (pr_i p) (ddiv (dmul (pr_p p) (double_of x)) (double_of count)) :: l else l)
  end.
(** 436-446. *)
Fixpoint reduce_complex6 (load : strategy -> res fval) (cols : list (list fval)) (ss : list strategy) (ps : list prob)
    : res (list prob) :=
  match ss with
  | [] => Ok ps
  | s :: ss' =>
    col <- get_col all_strategies cols s ;;
    v <- load s ;;
    ps <- reduce_complex1 (rel s) col v ps ;;
    reduce_complex6 load cols ss' ps
  end.
(** 453-471: has_value. *)
Fixpoint has_value (cols : list (list fval)) (ss : list strategy) (vs : list fval) (i : Z) : res bool :=
  match ss, vs with
  | s :: ss', v :: vs' =>
    col <- get_col all_strategies cols s ;;
    c <- col_at col i ;;
    x <- rel_compute (rel s) c v ;;
    if rel_count (rel s) / 2 <=? x then has_value cols ss' vs' i else Ok false
  | _, _ => Ok true
  end.
(** 478-519: reduce_exclusive_universe. *)
Definition reduce_exclusive6 (load : strategy -> res fval) (cols : list (list fval)) (by_words : list (list Z)) (ps : list prob)
    : res (list prob) :=
  match ps with
  | [] => Ok []
  | _ :: _ =>
    vs <- map_res load exclusive_strategies ;;
    reduce_by_word by_words (has_value cols exclusive_strategies vs) ps
  end.

(** 704-728: make_data_by_word; std::map<std::string, std::vector<unsigned>> is an
    association list ordered by key. *)
Fixpoint word_push (k : list Z) (n : Z) (m : list (list Z * list Z)) : list (list Z * list Z) :=
  match m with
  | [] => [(k, [n])]
  | (k', l) :: m' =>
    if list_ltb Z.ltb k k' then (k, [n]) :: m
    else if list_eqb k k' then (k', l ++ [n]) :: m'
    else (k', l) :: word_push k n m'
  end.
Fixpoint word_groups (words : list (list (list Z))) (n : Z) (m : list (list Z * list Z)) : res (list (list Z * list Z)) :=
  match words with
  | [] => Ok m
  | [] :: _ => UB  (* views.front() *)
  | (w :: _) :: words' => word_groups words' (u32 (n + 1)) (word_push w n m)
  end.
Fixpoint fill_data_by_word (m : list (list Z * list Z)) (out : list (list Z)) : res (list (list Z)) :=
  match m with
  | [] => Ok out
  | (_, l) :: m' =>
    if 1 <? Z.of_nat (List.length l) then
      let tmp := last l 0 in
      let l' := removelast l in
      out1 <- wr out tmp l' ;;
      out2 <- swap_each [] l' tmp out1 ;;
      fill_data_by_word m' out2
    else fill_data_by_word m' out
  end.
Definition data_by_word (words : list (list (list Z))) : res (list (list Z)) :=
  m <- word_groups words 0 [] ;;
  fill_data_by_word m (repeat [] (List.length words)).

(** What a recognition uses: the columns, the search data, the words of the glyphs,
    data_by_word. *)
Record env6 := mkenv6 { e6_rt : runtime6; e6_cols : list (list fval); e6_search : search6; e6_words : list (list (list Z));
  e6_by_word : list (list Z) }.
(** 626-631: get_word. *)
Definition first_word6 (words : list (list (list Z))) (p : prob) : res (list Z) :=
  match words_at words p with [] => UB | w :: _ => Ok w end.
(** 649-656 and 671-678: the words of the first candidates. *)
Fixpoint take_words (keep : prob -> bool) (words : list (list (list Z))) (ps : list prob) : list (list Z) :=
  match ps with
  | [] => []
  | p :: ps' => if keep p then words_at words p ++ take_words keep words ps' else []
  end.

(** What compute_image adds to result1, to result2 and to ambiguous, and the element
    of the cache. *)
Record found6 := mkf6 { f6_r1 : list Z; f6_r2 : list Z; f6_amb : list (list Z); f6_first : list Z; f6_words : list (list Z) }.
Definition unknown_word : list Z := str "_".
(** 620-685: the end of compute_image, with the candidates [ps]. *)
Definition decide6 (rt : runtime6) (cols : list (list fval)) (words : list (list (list Z))) (by_word : list (list Z)) (load : strategy -> res fval)
    (ps : list prob) : res found6 :=
  tmp <- rank6 rt words ps ;;
  match tmp with
  | [] => Ok (mkf6 unknown_word unknown_word [] unknown_word [unknown_word])
  | p :: _ =>
    r1 <- first_word6 words p ;;
    if dle d1 (pr_p p) then
      let l := take_words (fun q => dle d1 (pr_p q)) words tmp in
      Ok (mkf6 r1 r1 l r1 l)
    else
      ps <- reduce_complex6 load cols complex_strategies ps ;;
      ps <- reduce_exclusive6 load cols by_word ps ;;
      ps <- rank6 rt words ps ;;
      match ps with
      | [] => Ok (mkf6 r1 unknown_word [] r1 [unknown_word])
      | q :: _ =>
        let l := take_words (fun q' => negb (dlt (pr_p q') (pr_p q))) words ps in
        r2 <- first_word6 words q ;;
        Ok (mkf6 r1 r2 l r1 l)
      end
  end.
(** 568-688: compute_image; [n] tells which recognition it is. *)
Definition recognise6 (e : env6) (n : Z) (img : image) : res found6 :=
  img90 <- rotate90 img ;;
  let load := load6 (r6_junk (e6_rt e) n) (r6_zones (e6_rt e)) img img90 in
  vs <- map_res load algos6 ;;
  ps <- candidates6 (vsize (e6_words e)) (e6_cols e) (e6_search e) (map num vs) ;;
  decide6 (e6_rt e) (e6_cols e) (e6_words e) (e6_by_word e) load ps.

(** 800-827: the loop over the characters; the elements of the cache are in a store;
    [rec] is compute_image. *)
Record state6 := mkst6 { q_x : Z; q_r1 : list Z; q_r2 : list Z; q_amb : list (list (list Z)); q_cache : list (image * Z);
  q_store : list (list Z * list (list Z)) }.
Definition step6 (rec : Z -> image -> res found6) (img : image) (s : state6) (cbox : box) : res state6 :=
  img_word <- section img (bx cbox) (by_ cbox) (bw cbox) (bh cbox) ;;
  let amb := if u32 (q_x s + 4) <? bx cbox then q_amb s ++ [[str " "]] else q_amb s in
  let x := u32 (bx cbox + bw cbox) in
  it <- cache_find (q_cache s) img_word ;;
  match it with
  | Some r =>
    '(w, l) <- rd (q_store s) r ;;
    f <- rd l 0 ;;
    Ok (mkst6 x (q_r1 s ++ w ++ [32]) (q_r2 s ++ f ++ [32]) (amb ++ [l]) (q_cache s) (q_store s))
  | None =>
    f <- rec (vsize (q_store s)) img_word ;;
    c <- cache_emplace (q_cache s) img_word (vsize (q_store s)) ;;
    Ok (mkst6 x (q_r1 s ++ f6_r1 f ++ [32]) (q_r2 s ++ f6_r2 f ++ [32]) (amb ++ [f6_amb f]) c
          (q_store s ++ [(f6_first f, f6_words f)]))
  end.
Definition read_line6 (rec : Z -> image -> res found6) (img : image) : res state6 :=
  loop (S (Z.to_nat (iw img)))
    (fun s =>
       cbox <- make_box_character img (q_x s) 0 (iw img) (ih img) ;;
       if box_bool cbox then s' <- step6 rec img s cbox ;; Ok (inl s') else Ok (inr s))
    (mkst6 0 [] [] [] [] []).

(** 833-845: search_fn. *)
Definition separator6 (l : list (list Z)) : bool :=
  match l with
  | [] => true
  | w :: _ => match w with [c] => existsb (Z.eqb c) (str " ',.!?""") | _ => false end
  end.
(** The elements before the first one that satisfies [p], and the others. *)
Fixpoint split_at {A} (p : A -> bool) (l : list A) : list A * list A :=
  match l with
  | [] => ([], [])
  | a :: l' => if p a then ([], l) else let '(x, y) := split_at p l' in (a :: x, y)
  end.
(** 853-857: the first candidates. *)
Fixpoint append_fronts (l : list (list (list Z))) (out : list Z) : list Z :=
  match l with [] => out | [] :: l' => append_fronts l' out | (w :: _) :: l' => append_fronts l' (out ++ w) end.
(** 860-870. *)
Fixpoint append_separators (l : list (list (list Z))) (out : list Z) : list Z :=
  match l with [] => out | [] :: l' => append_separators l' (out ++ [63]) | (w :: _) :: l' => append_separators l' (out ++ w) end.
(** 832-872: result3. *)
Definition assemble6 (dict : list fnode) (ambiguous : list (list (list Z))) : res (list Z) :=
  loop (S (List.length ambiguous))
    (fun '(l, out) =>
       match l with
       | [] => Ok (inr out)
       | _ :: _ =>
         let '(word, rest) := split_at separator6 l in
         '(b, out) <- disambiguous dict word out ;;
         let out := if b : bool then out else append_fronts word out in
         let '(seps, rest) := split_at (fun e => negb (separator6 e)) rest in
         Ok (inl (rest, append_separators seps out))
       end)
    (snd (split_at (fun e => negb (separator6 e)) ambiguous), []).

(** 756-761: std::unique with the words of the views. *)
Fixpoint unique_words_from (w : list Z) (l : list (list Z)) : list (list Z) :=
  match l with
  | [] => []
  | w' :: l' => if list_eqb w w' then unique_words_from w l' else w' :: unique_words_from w' l'
  end.
Definition unique_words (l : list (list Z)) : list (list Z) :=
  match l with [] => [] | w :: l' => w :: unique_words_from w l' end.
(** A moved vector is empty. *)
Definition moved_value (v : fval) : fval := match v with VVec _ => VVec [] | _ => v end.
(** 691-699, 765-781: the rows in the order of the first feature. *)
Definition order6 (rt : runtime6) (cols : list (list fval)) (words : list (list (list Z)))
    : res (list (list fval) * list (list (list Z))) :=
  col <- get_col all_strategies cols first6 ;;
  let indexes := r6_first rt (map num col) (zrange (datas_size cols)) in
  words <- reindex [] (fun _ => []) indexes words ;;
  cols <- map_res (reindex (VNum 0) moved_value indexes) cols ;;
  Ok (cols, words).
(** 732-790: what is loaded. *)
Definition load_all6 (rt : runtime6) (glyphs datas : list Z) (dict : option (list Z)) : res (list fnode * env6) :=
  nodes <- load_optional read_dict [] dict ;;
  cols <- load_file (read_datas all_strategies) datas ;;
  gs <- load_file read_glyphs glyphs ;;
  if negb (vsize gs =? datas_size cols) then Throw ExBadLength
  else
    '(cols, words) <- order6 rt cols (map (fun g => unique_words (map vw_word (gl_views g))) gs) ;;
    by_word <- data_by_word words ;;
    sd <- make_search6 cols ;;
    Ok (nodes, mkenv6 rt cols sd words by_word).
(** 732-883: result1, result2, result3. *)
Definition extract_text6 (rt : runtime6) (glyphs datas image : list Z) (dict : option (list Z)) : res (list Z * list Z * list Z) :=
  '(nodes, e) <- load_all6 rt glyphs datas dict ;;
  img <- image_of_bytes image 128 ;;
  s <- read_line6 (recognise6 e) img ;;
  r3 <- assemble6 nodes (q_amb s) ;;
  Ok (q_r1 s, q_r2 s, r3).
