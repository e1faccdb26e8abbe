(** Model of ocr2/cache.hpp and of the loop of main/ocr2_extract_text.cpp. *)
From Verif Require Import Base SortModel ImageModel BoxModel StratModel ZoneModel DatasModel TrieModel IndexModel FloatModel
  RecogModel.

(** cache.hpp 34-43: std::map<Image, view_ref_list, def_img_compare>, an
    association list in the order of the keys; the lists are in a store, a map
    element being a position of the store. *)
Notation cache := (list (image * Z)) (only parsing).
(** cache.hpp 36-39: def_img_compare. *)
Definition img_less (a b : image) : res bool := c <- image_compare a b ;; Ok (c <? 0).
(** std::map::find: the first key that is not less, if the image is not less
    than it. *)
Fixpoint cache_find (c : cache) (img : image) : res (option Z) :=
  match c with
  | [] => Ok None
  | (k, r) :: c' =>
    lt <- img_less k img ;;
    if lt : bool then cache_find c' img
    else gt <- img_less img k ;; Ok (if gt : bool then None else Some r)
  end.
(** std::map::emplace. *)
Fixpoint cache_emplace (c : cache) (img : image) (v : Z) : res cache :=
  match c with
  | [] => Ok [(img, v)]
  | (k, r) :: c' =>
    lt <- img_less k img ;;
    if lt : bool then c'' <- cache_emplace c' img v ;; Ok ((k, r) :: c'')
    else gt <- img_less img k ;; Ok (if gt : bool then (img, v) :: c else c)
  end.

(** What the recognition is given besides the image: the table, the sorts, and the
    contents of the allocated buffers. *)
Record recogniser := mkrec {
  r_table : table;
  r_sortv : list Z -> list prob -> list prob;
  r_sortp : list prob -> list prob;
  r_zsort : list Z -> list Z;
  r_junk : Z -> Z -> Z }.
(** ocr2_extract_text.cpp 137-152; [n] tells which recognition it is. *)
Definition recognise_img (e : recogniser) (n : Z) (img : image) (cx : ctxs) : res (list oview * ctxs) :=
  img90 <- rotate90 img ;;
  compute_image (r_sortv e) (r_sortp e) simple_strategies complex_strategies exclusive_strategies
    (r_table e) (mkin (r_junk e n) (r_zsort e) img img90) dhalf cx.

Record lstate := mkls {
  l_x : Z; l_spaces : list Z; l_boxes : list box; l_cache : cache;
  l_store : list (list oview); l_amb : list Z; l_cx : ctxs }.
(** ocr2_extract_text.cpp 121-166, for a box; i_space is the number of boxes. *)
Definition char_step (e : recogniser) (img : image) (s : lstate) (cbox : box) : res lstate :=
  img_word <- section img (bx cbox) (by_ cbox) (bw cbox) (bh cbox) ;;
  let spaces := if u32 (l_x s + 4) <? bx cbox then l_spaces s ++ [u32 (vsize (l_boxes s))] else l_spaces s in
  let x := u32 (bx cbox + bw cbox) in
  let boxes := l_boxes s ++ [cbox] in
  it <- cache_find (l_cache s) img_word ;;
  match it with
  | Some r => Ok (mkls x spaces boxes (l_cache s) (l_store s) (l_amb s ++ [r]) (l_cx s))
  | None =>
    '(l, cx) <- recognise_img e (vsize (l_store s)) img_word (l_cx s) ;;
    key <- clone img_word ;;
    c <- cache_emplace (l_cache s) key (vsize (l_store s)) ;;
    Ok (mkls x spaces boxes c (l_store s ++ [l]) (l_amb s ++ [vsize (l_store s)]) cx)
  end.
(** ocr2_extract_text.cpp 107-167. *)
Definition read_line (e : recogniser) (img : image) (cx : ctxs) : res lstate :=
  loop (S (Z.to_nat (iw img)))
    (fun s =>
       cbox <- make_box_character img (l_x s) 0 (iw img) (ih img) ;;
       if box_bool cbox then s' <- char_step e img s cbox ;; Ok (inl s') else Ok (inr s))
    (mkls 0 [] [] [] [] [] cx).
