(** Model of main/ocr2_extract_text.cpp: the whole program. *)
From Verif Require Import Base SortModel ImageModel PnmModel BoxModel StratModel ZoneModel DatasModel StreamModel DatasIoModel DictIoModel
  TrieModel IndexModel FloatModel RecogModel GlyphsModel FilterModel ExtractModel AssembleModel.

(** What the standard leaves open: the results of the sorts, and the contents of
    the allocated buffers. *)
Record runtime := mkrt {
  rt_first : list Z -> list Z -> list Z;
  rt_ids : list (list oview) -> list Z -> list Z;
  rt_lines : list word_infos -> list word_infos;
  rt_views : list Z -> list prob -> list prob;
  rt_probs : list prob -> list prob;
  rt_zones : list Z -> list Z;
  rt_junk : Z -> Z -> Z }.

(** ocr2_extract_text.cpp 86-91: the indexes of the table. *)
Definition make_table (rt : runtime) (cols : list (list fval)) (views : list (list oview)) : res table :=
  by_words <- indexes_by_words views ;;
  let first := nums_of (nth 0 cols []) in
  Ok (mktable all_strategies cols (indexes_ordered (rt_first rt first) first) by_words views
        (views_indexes_ordered (rt_ids rt views) views)).

(** ocr2_extract_text.cpp 62-69, 81-84: an optional file. *)
Definition load_optional {A} (read : istream -> res (A * istream)) (default : A) (file : option (list Z)) : res A :=
  match file with Some bytes => load_file read bytes | None => Ok default end.

(** ocr2_extract_text.cpp 62-104: what is loaded; bad_array_new_length is
    ExBadLength. *)
Definition load_all (rt : runtime) (glyphs datas : list Z) (lines dict : option (list Z))
    : res (list fnode * glyphs_table * list word_infos * table) :=
  nodes <- load_optional read_dict [] dict ;;
  cols <- load_file (read_datas all_strategies) datas ;;
  g <- load_file load_glyphs glyphs ;;
  if negb (vsize (gt_views g) =? datas_size cols) then Throw ExBadLength
  else
    ls <- load_optional read_words_lines [] lines ;;
    infos <- words_infos (rt_lines rt) g ls ;;
    t <- make_table rt cols (gt_views g) ;;
    Ok (nodes, g, infos, t).

(** ocr2_extract_text.cpp 51-197: the text, the number of unknown characters and
    the number of characters; luminance 128 is the default of image_from_file. *)
Definition extract_text (rt : runtime) (cx : ctxs) (glyphs datas image : list Z) (lines dict : option (list Z))
    : res (list Z * Z * Z) :=
  '(nodes, g, infos, t) <- load_all rt glyphs datas lines dict ;;
  img <- image_of_bytes image 128 ;;
  s <- read_line (mkrec t (rt_views rt) (rt_probs rt) (rt_zones rt) (rt_junk rt)) img cx ;;
  st <- filter_by_lines infos (l_store s) (l_amb s) (l_boxes s) ;;
  '(st, _) <- filter_by_font st (l_amb s) ;;
  '(text, count) <- assemble g nodes st (l_amb s) (l_spaces s ++ [u32 (vsize (l_amb s))]) ;;
  Ok (text, count, vsize (l_amb s)).
