(** Model of all that main/ocr2_extract_text.cpp prints. *)
From Verif Require Import Base SortModel ImageModel BoxModel StratModel ZoneModel DatasModel StreamModel DatasIoModel DictIoModel
  TrieModel IndexModel FloatModel RecogModel GlyphsModel FilterModel ExtractModel AssembleModel PipelineModel ReportModel ShowModel FormatModel.

(** ocr2_extract_text.cpp 118-168: char_step (ExtractModel), with what is printed. *)
Definition print_step (g : glyphs_table) (e : recogniser) (img : image) (s : lstate) (out : list Z) (cbox : box) : res (lstate * list Z) :=
  img_word <- section img (bx cbox) (by_ cbox) (bw cbox) (bh cbox) ;;
  let spaces := if u32 (l_x s + 4) <? bx cbox then l_spaces s ++ [u32 (vsize (l_boxes s))] else l_spaces s in
  let x := u32 (bx cbox + bw cbox) in
  let boxes := l_boxes s ++ [cbox] in
  it <- cache_find (l_cache s) img_word ;;
  match it with
  | Some r => Ok (mkls x spaces boxes (l_cache s) (l_store s) (l_amb s ++ [r]) (l_cx s), out)
  | None =>
    t <- show_image img_word ;;
    let out := out ++ t in
    '(l, cx) <- recognise_img e (vsize (l_store s)) img_word (l_cx s) ;;
    key <- clone img_word ;;
    c <- cache_emplace (l_cache s) key (vsize (l_store s)) ;;
    ws <- map_res (fun v => word_text g (ov_word v)) l ;;
    Ok (mkls x spaces boxes c (l_store s ++ [l]) (l_amb s ++ [vsize (l_store s)]) cx,
        out ++ flat_map (fun w => w ++ [32]) ws ++ [10])
  end.
(** ocr2_extract_text.cpp 107-168: read_line (ExtractModel), with what is printed. *)
Definition print_line (g : glyphs_table) (e : recogniser) (img : image) (cx : ctxs) : res (lstate * list Z) :=
  loop (S (Z.to_nat (iw img)))
    (fun '(s, out) =>
       cbox <- make_box_character img (l_x s) 0 (iw img) (ih img) ;;
       if box_bool cbox then so <- print_step g e img s out cbox ;; Ok (inl so) else Ok (inr (s, out)))
    (mkls 0 [] [] [] [] [] cx, []).

(** An exception that leaves main; [out] is what is printed before. *)
Definition attempt {A} (out : list Z) (m : res A) (k : A -> res (list Z * ended)) : res (list Z * ended) :=
  match m with
  | Ok a => k a
  | Throw e => Ok (out, Aborts e)
  | UB => UB
  | NoFuel => NoFuel
  end.
(** utils/read_file.hpp 28-54: load_from_file of a file of the disk. *)
Definition load_disk {A} (disk : list Z -> option (list Z)) (read : istream -> res (A * istream)) (name : list Z) : res A :=
  match disk name with Some bytes => load_file read bytes | None => Throw ExIo end.
(** A line " ## name: value". *)
Definition report_line (name value : list Z) : list Z := str " ## " ++ name ++ value ++ [10].

(** ocr2_extract_text.cpp 51-197: main; [av] are the arguments, av[0] being the name
    of the program.  Nothing throws from 107 on. *)
Definition ocr2_main (rt : runtime) (nan : list Z) (cx : ctxs) (disk : list Z -> option (list Z)) (av : list (list Z))
    : res (list Z * ended) :=
  match av with
  | _ :: glyphs :: datas :: image :: options =>
    let dict := nth_error options 1 in
    attempt [] (match dict with Some f => load_disk disk read_dict f | None => Ok [] end) (fun nodes =>
    let out := match dict with
               | Some _ => report_line (str "dict ? ") (str (if null nodes then "false" else "true")%string)
               | None => []
               end in
    attempt out (load_disk disk (read_datas all_strategies) datas) (fun cols =>
    let out := out ++ report_line (str "datas.size(): ") (print_uint (datas_size cols)) in
    attempt out (load_disk disk load_glyphs glyphs) (fun g =>
    let out := out ++ report_line (str "glyphs.size(): ") (print_uint (vsize (gt_views g))) in
    if negb (vsize (gt_views g) =? datas_size cols) then Ok (out, Aborts ExBadLength)
    else
    attempt out (match nth_error options 0 with Some f => load_disk disk read_words_lines f | None => Ok [] end) (fun ls =>
    attempt out (infos <- words_infos (rt_lines rt) g ls ;; t <- make_table rt cols (gt_views g) ;; Ok (infos, t)) (fun '(infos, t) =>
    let out := out ++ report_line (str "go") [] in
    attempt out (load_image (disk image) 128) (fun img =>
    attempt out (print_line g (mkrec t (rt_views rt) (rt_probs rt) (rt_zones rt) (rt_junk rt)) img cx) (fun '(s, chars) =>
    let out := out ++ chars in
    attempt out
      (st <- filter_by_lines infos (l_store s) (l_amb s) (l_boxes s) ;;
       '(st, _) <- filter_by_font st (l_amb s) ;;
       assemble g nodes st (l_amb s) (l_spaces s ++ [u32 (vsize (l_amb s))])) (fun '(text, count) =>
    Ok (out ++ str " ## result: " ++ text ++
        [10] ++ str "unrecognized_count: " ++ print_uint count ++
        [10] ++ str "count: " ++ print_uint (vsize (l_amb s)) ++
        [10] ++ str "unrecognized_rate: " ++ print_double nan (unrecognized_rate count (vsize (l_amb s))) ++ [10], Exits 0)))))))))
  | _ => Ok ([], Exits 1)
  end.
