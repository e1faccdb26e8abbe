(** Model of all that main/extract_text6.cpp and main/extract_text8.cpp print. *)
From Verif Require Import Base SortModel ImageModel PnmModel BoxModel StratModel ZoneModel DatasModel StreamModel GlyphIoModel DatasIoModel DictIoModel
  TrieModel UtilModel IndexModel FloatModel RecogModel ExtractModel PipelineModel Ocr6Model Ocr8Model ShowModel FormatModel PrintModel.

(** An escape sequence. *)
Definition escape (s : string) : list Z := 27 :: str s.
(** extract_text6.cpp 219-223, extract_text8.cpp 202-206: print_chars. *)
Definition chars_text (words : list (list (list Z))) (p : prob) : list Z := flat_map (fun w => w ++ [32]) (words_at words p).
(** 6: 228-230, 8: 211-213: the words of the candidates that are not lower than the
    previous one, and the other candidates. *)
Fixpoint best_chars (words : list (list (list Z))) (previous : prob) (ps : list prob) : list Z * list prob :=
  match ps with
  | [] => ([], [])
  | p :: ps' =>
    if dlt (pr_p p) (pr_p previous) then ([], ps)
    else let '(t, rest) := best_chars words p ps' in (chars_text words p ++ t, rest)
  end.
(** 6: 173-176 and 225-238, 8: 156-159 and 208-221: what sort_and_show_infos prints
    when the candidates are [ps] after the sorts. *)
Definition show_infos (nan : list Z) (words : list (list (list Z))) (ps : list prob) : list Z :=
  match ps with
  | [] => escape "[00;34mbest: 0 ( )" ++ escape "[0m" ++ [10; 10]
  | p :: ps' =>
    let '(t, rest) := best_chars words p ps' in
    escape "[00;34mbest: " ++ print_double nan (pr_p p) ++ str " ( " ++ escape "[00;31m" ++ chars_text words p ++ t ++
    escape "[0m)" ++ [10; 10] ++
    flat_map (fun q => escape "[00;31m" ++ chars_text words q ++ escape "[0m" ++ print_double nan (pr_p q) ++ str "  ") rest ++
    [10; 10]
  end.
(** 6: 172-239, 8: 155-222: sort_and_show_infos. *)
Definition rank_out (nan : list Z) (rt : runtime6) (words : list (list (list Z))) (ps : list prob) : res (list prob * list Z) :=
  r <- rank6 rt words ps ;; Ok (r, show_infos nan words r).

(** 6: 620-685, 8: 452-517: decide6, with what is printed. *)
Definition decide_out (nan : list Z) (rt : runtime6) (cols : list (list fval)) (words : list (list (list Z))) (by_word : list (list Z))
    (load : strategy -> res fval) (ps : list prob) : res (found6 * list Z) :=
  '(tmp, t1) <- rank_out nan rt words ps ;;
  match tmp with
  | [] => Ok (mkf6 unknown_word unknown_word [] unknown_word [unknown_word], t1)
  | p :: _ =>
    r1 <- first_word6 words p ;;
    if dle d1 (pr_p p) then
      let l := take_words (fun q => dle d1 (pr_p q)) words tmp in
      Ok (mkf6 r1 r1 l r1 l, t1)
    else
      ps <- reduce_complex6 load cols complex_strategies ps ;;
      ps <- reduce_exclusive6 load cols by_word ps ;;
      '(ps, t2) <- rank_out nan rt words ps ;;
      match ps with
      | [] => Ok (mkf6 r1 unknown_word [] r1 [unknown_word], t1 ++ t2)
      | q :: _ =>
        let l := take_words (fun q' => negb (dlt (pr_p q') (pr_p q))) words ps in
        r2 <- first_word6 words q ;;
        Ok (mkf6 r1 r2 l r1 l, t1 ++ t2)
      end
  end.
(** extract_text6.cpp 568-688. *)
Definition recognise_out6 (nan : list Z) (e : env6) (n : Z) (img : image) : res (found6 * list Z) :=
  img90 <- rotate90 img ;;
  let load := load6 (r6_junk (e6_rt e) n) (r6_zones (e6_rt e)) img img90 in
  vs <- map_res load algos6 ;;
  ps <- candidates6 (vsize (e6_words e)) (e6_cols e) (e6_search e) (map num vs) ;;
  decide_out nan (e6_rt e) (e6_cols e) (e6_words e) (e6_by_word e) load ps.
(** extract_text8.cpp 407-519. *)
Definition recognise_out8 (nan : list Z) (e : env8) (n : Z) (img : image) : res (found6 * list Z) :=
  img90 <- rotate90 img ;;
  let load := load6 (r6_junk (e8_rt e) n) (r6_zones (e8_rt e)) img img90 in
  ps <- candidates8 (vsize (e8_words e)) (e8_cols e) load ;;
  decide_out nan (e8_rt e) (e8_cols e) (e8_words e) (e8_by_word e) load ps.

(** 6: 800-827, 8: 705-732: step6 and read_line6, with what is printed. *)
Definition step_out (rec : Z -> image -> res (found6 * list Z)) (img : image) (s : state6) (out : list Z) (cbox : box) : res (state6 * list Z) :=
  img_word <- section img (bx cbox) (by_ cbox) (bw cbox) (bh cbox) ;;
  let amb := if u32 (q_x s + 4) <? bx cbox then q_amb s ++ [[str " "]] else q_amb s in
  let x := u32 (bx cbox + bw cbox) in
  it <- cache_find (q_cache s) img_word ;;
  match it with
  | Some r =>
    '(w, l) <- rd (q_store s) r ;;
    f <- rd l 0 ;;
    Ok (mkst6 x (q_r1 s ++ w ++ [32]) (q_r2 s ++ f ++ [32]) (amb ++ [l]) (q_cache s) (q_store s), out)
  | None =>
    t <- show_image img_word ;;
    '(f, infos) <- rec (vsize (q_store s)) img_word ;;
    c <- cache_emplace (q_cache s) img_word (vsize (q_store s)) ;;
    Ok (mkst6 x (q_r1 s ++ f6_r1 f ++ [32]) (q_r2 s ++ f6_r2 f ++ [32]) (amb ++ [f6_amb f]) c
          (q_store s ++ [(f6_first f, f6_words f)]), out ++ t ++ infos)
  end.
Definition read_line_out (rec : Z -> image -> res (found6 * list Z)) (img : image) : res (state6 * list Z) :=
  loop (S (Z.to_nat (iw img)))
    (fun '(s, out) =>
       cbox <- make_box_character img (q_x s) 0 (iw img) (ih img) ;;
       if box_bool cbox then so <- step_out rec img s out cbox ;; Ok (inl so) else Ok (inr (s, out)))
    (mkst6 0 [] [] [] [] [], []).

(** 6: 876-882, 8: 777-783. *)
Definition results_text (r1 r2 r3 : list Z) : list Z :=
  report_line (str "result1: ") r1 ++ report_line (str "result2: ") r2 ++ report_line (str "result3: ") r3.
(** 6: 739-751, 8: 588-600: the files; [k] is what follows. *)
Definition load_out (disk : list Z -> option (list Z)) (glyphs datas : list Z) (dict : option (list Z))
    (k : list Z -> list fnode -> list (list fval) -> list glyph -> res (list Z * ended)) : res (list Z * ended) :=
  attempt [] (match dict with Some f => load_disk disk read_dict f | None => Ok [] end) (fun nodes =>
  let out := match dict with
             | Some _ => report_line (str "dict ? ") (str (if null nodes then "false" else "true")%string)
             | None => []
             end in
  attempt out (load_disk disk (read_datas all_strategies) datas) (fun cols =>
  let out := out ++ report_line (str "datas.size(): ") (print_uint (datas_size cols)) in
  attempt out (load_disk disk read_glyphs glyphs) (fun gs =>
  let out := out ++ report_line (str "glyphs.size(): ") (print_uint (vsize gs)) in
  if negb (vsize gs =? datas_size cols) then Ok (out, Aborts ExBadLength) else k out nodes cols gs))).
(** 6: 794-882, 8: 699-783: the image; [rec] is compute_image. *)
Definition image_out (rec : Z -> image -> res (found6 * list Z)) (nodes : list fnode) (file : option (list Z)) (out : list Z) : res (list Z * ended) :=
  attempt out (load_image file 128) (fun img =>
  attempt out (read_line_out rec img) (fun '(s, chars) =>
  attempt (out ++ chars) (assemble6 nodes (q_amb s)) (fun r3 =>
  Ok (out ++ chars ++ results_text (q_r1 s) (q_r2 s) r3, Exits 0)))).

(** extract_text6.cpp 732-883: main. *)
Definition main6 (rt : runtime6) (nan : list Z) (disk : list Z -> option (list Z)) (av : list (list Z)) : res (list Z * ended) :=
  match av with
  | _ :: glyphs :: datas :: image :: options =>
    load_out disk glyphs datas (nth_error options 0) (fun out nodes cols gs =>
    let out := out ++ report_line (str "sort") [] in
    attempt out (order6 rt cols (map (fun g => unique_words (map vw_word (gl_views g))) gs)) (fun '(cols, words) =>
    let out := out ++ report_line (str "sort by word") [] in
    attempt out (data_by_word words) (fun by_word =>
    let out := out ++ report_line (str "sort by value") [] in
    attempt out (make_search6 cols) (fun sd =>
    let out := out ++ report_line (str "go") [] in
    image_out (recognise_out6 nan (mkenv6 rt cols sd words by_word)) nodes (disk image) out))))
  | _ => Ok ([], Exits 1)
  end.

(** extract_text8.cpp 615-680: order8, with what is printed. *)
Definition order_out8 (rt : runtime8) (cols : list (list fval)) (words : list (list (list Z)))
    : res (list (list fval) * list (list (list Z)) * list Z) :=
  if 1 <? vsize words then
    col <- get_col all_strategies cols first6 ;;
    let indexes := r6_first (r8_base rt) (map num col) (zrange (datas_size cols)) in
    '(dup, words) <- find_duplicates (r8_moved rt) cols indexes words ;;
    let out := report_line (str "duplicate.size(): ") (print_uint (vsize dup)) in
    indexes <- drop_duplicates dup indexes ;;
    words <- reindex [] (fun _ => []) indexes words ;;
    cols <- map_res (reindex (VNum 0) moved_value indexes) cols ;;
    Ok (cols, words, out)
  else Ok (cols, words, []).
(** extract_text8.cpp 581-784: main. *)
Definition main8 (rt : runtime8) (nan : list Z) (disk : list Z -> option (list Z)) (av : list (list Z)) : res (list Z * ended) :=
  match av with
  | _ :: glyphs :: datas :: image :: options =>
    load_out disk glyphs datas (nth_error options 0) (fun out nodes cols gs =>
    let out := out ++ report_line (str "sort") [] in
    attempt out (order_out8 rt cols (map (fun g => unique_words (map vw_word (gl_views g))) gs)) (fun '(cols, words, t) =>
    let out := out ++ t ++ report_line (str "datas.size(): ") (print_uint (datas_size cols)) ++
               report_line (str "glyphs.size(): ") (print_uint (vsize words)) ++ report_line (str "sort by word") [] in
    attempt out (data_by_word words) (fun by_word =>
    let out := out ++ report_line (str "sort by value") [] ++ report_line (str "go") [] in
    image_out (recognise_out8 nan (mkenv8 (r8_base rt) cols words by_word)) nodes (disk image) out)))
  | _ => Ok ([], Exits 1)
  end.
