(** Model of the main functions of write_datas, normalize_glyphs and
    make_trie_dictionary.  [disk] gives the files, None for one that cannot be opened;
    messages on the error stream are not modelled. *)
From Verif Require Import Base SortModel ImageModel StratModel ZoneModel DatasModel StreamModel GlyphIoModel DatasIoModel DictIoModel TrieModel NormModel LearnModel ShowModel.

(** write_datas.cpp 47-57: the features of the images of a file, and the stream. *)
Definition features_of_file (junk : Z -> Z) (zsort : list Z -> list Z) (cx : ctxs) (bytes : list Z) : res (datas * istream) :=
  loop (S (S (List.length bytes)))
    (fun '(img, d, file) =>
       let '(img, file) := read_img img file in
       let '(n, file) := get_unsigned 0 file in
       if is_ok file then
         let file := ignore_lines (Z.to_nat n) (ignore_line file) in
         d <- datas_load junk zsort all_strategies d img ;;
         Ok (inl (img, d, file))
       else Ok (inr (d, file)))
    (mkimage 0 0 [], mkdatas (repeat [] (List.length all_strategies)) cx, open_stream bytes).
(** operator<< of a std::streambuf, then of a text: the rest of the file; without any
    character the stream fails and the text is not printed. *)
Definition print_rest (l after : list Z) : list Z := if null l then [] else l ++ after.
(** write_datas.cpp 31-66: main. *)
Definition write_datas_main (junk : Z -> Z) (zsort : list Z -> list Z) (cx : ctxs) (disk : list Z -> option (list Z)) (av : list (list Z)) : res (list Z * ended) :=
  match av with
  | [_; name] =>
    match disk name with
    | None => Ok ([], Exits 2)
    | Some bytes =>
      '(d, s) <- features_of_file junk zsort cx bytes ;;
      Ok (if is_eof s then (write_datas (d_cols d), Exits 0) else (91 :: print_rest (is_rest s) [93; 10], Exits 5))
    end
  | _ => Ok ([], Exits 1)
  end.

(** normalize_glyphs.cpp 43-57: the glyphs, or the result of main. *)
Fixpoint read_named_files (disk : list Z -> option (list Z)) (names : list (list Z)) (gs : list glyph) : res (list glyph + Z) :=
  match names with
  | [] => Ok (inl gs)
  | name :: names' =>
    match disk name with
    | None => Ok (inr 2)
    | Some f =>
      '(l, s) <- read_glyphs (open_stream f) ;;
      if is_eof s then read_named_files disk names' (gs ++ l) else Ok (inr 5)
    end
  end.
(** normalize_glyphs.cpp 30-94: main. *)
Definition normalize_main (sort : list glyph -> list glyph) (sort_views : list view -> list view) (disk : list Z -> option (list Z)) (av : list (list Z))
    : res (list Z * ended) :=
  match av with
  | _ :: name :: names =>
    r <- read_named_files disk (name :: names) [] ;;
    match r with
    | inl gs => gs <- normalize sort sort_views gs ;; Ok (write_glyphs gs, Exits 0)
    | inr code => Ok ([], Exits code)
    end
  | _ => Ok ([], Exits 1)
  end.

(** make_trie_dictionary.cpp 30-54: main. *)
Definition dictionary_main (sort : list (list Z) -> list (list Z)) (disk : list Z -> option (list Z)) (av : list (list Z)) : res (list Z * ended) :=
  match av with
  | _ :: name :: names => out <- dictionary_of_files sort (map disk (name :: names)) ;; Ok (out, Exits 0)
  | _ => Ok ([], Exits 1)
  end.
