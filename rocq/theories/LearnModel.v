(** Model of the learning programs: main/write_glyphs.cpp,
    main/normalize_glyphs.cpp (its files), main/write_datas.cpp and
    main/make_trie_dictionary.cpp. *)
From Verif Require Import Base SortModel ImageModel BoxModel StratModel ZoneModel DatasModel StreamModel GlyphIoModel
  DatasIoModel DictIoModel TrieModel NormModel.

(** How write_glyphs ends: normally, or by the exception "Definition not found"
    or "Box character not found".  What is printed is what was given to std::cout,
    flushed or not. *)
Inductive learn_end := Learnt | NoDefinition | NoBox.

(** write_glyphs.cpp 53-93: load_file; [text] is the content of the text file, the
    image being already loaded (66).  The result is what is printed. *)
Definition learn_image (img : image) (text font : list Z) : res (list Z * learn_end) :=
  loop (S (Z.to_nat (iw img)))
    (fun '(x, s, file, out) =>
       cbox <- make_box_character img x 0 (iw img) (ih img) ;;
       if box_bool cbox then
         newimg <- section img (bx cbox) (by_ cbox) (bw cbox) (bh cbox) ;;
         let '(s, file) := get_word s file in
         if is_ok file then
           Ok (inl (u32 (bx cbox + bw cbox), s, file,
                    out ++ write_glyph (mkglyph newimg [mkview s font 4294967295])))
         else Ok (inr (out, NoDefinition))
       else
         let '(_, file) := get_word s file in
         Ok (inr (out, if is_ok file then NoBox else Learnt)))
    (0, [], open_stream text, []).
(** write_glyphs.cpp 117-119: the images, texts and fonts of the arguments. *)
Fixpoint learn_images (l : list (image * list Z * list Z)) (out : list Z) : res (list Z * learn_end) :=
  match l with
  | [] => Ok (out, Learnt)
  | (img, text, font) :: l' =>
    '(o, e) <- learn_image img text font ;;
    match e with
    | Learnt => learn_images l' (out ++ o)
    | _ => Ok (out ++ o, e)
    end
  end.

(** normalize_glyphs.cpp 43-57: the glyphs of the files; None is the return of 5.
    (operator>> adds to the list.) *)
Fixpoint read_glyph_files (files : list (list Z)) (gs : list glyph) : res (option (list glyph)) :=
  match files with
  | [] => Ok (Some gs)
  | f :: files' =>
    '(l, s) <- read_glyphs (open_stream f) ;;
    if is_eof s then read_glyph_files files' (gs ++ l) else Ok None
  end.
(** normalize_glyphs.cpp 31-92: what is printed. *)
Definition normalize_files (sort : list glyph -> list glyph) (sort_views : list view -> list view) (files : list (list Z))
    : res (option (list Z)) :=
  r <- read_glyph_files files [] ;;
  match r with
  | None => Ok None
  | Some gs => gs <- normalize sort sort_views gs ;; Ok (Some (write_glyphs gs))
  end.

(** write_datas.cpp 52-54: while (n--) file.ignore(...). *)
Fixpoint ignore_lines (n : nat) (s : istream) : istream :=
  match n with
  | O => s
  | S n' => ignore_lines n' (ignore_line s)
  end.
(** write_datas.cpp 40-66: what is printed; None is the return of 5. *)
Definition write_datas_file (junk : Z -> Z) (zsort : list Z -> list Z) (cx : ctxs) (bytes : list Z) : res (option (list Z)) :=
  '(d, s) <-
    loop (S (S (List.length bytes)))
      (fun '(img, d, file) =>
         let '(img, file) := read_img img file in
         let '(n, file) := get_unsigned 0 file in
         if is_ok file then
           let file := ignore_lines (Z.to_nat n) (ignore_line file) in
           d <- datas_load junk zsort all_strategies d img ;;
           Ok (inl (img, d, file))
         else Ok (inr (d, file)))
      (mkimage 0 0 [], mkdatas (repeat [] (List.length all_strategies)) cx, open_stream bytes) ;;
  Ok (if is_eof s then Some (write_datas (d_cols d)) else None).

(** std::getline. *)
Fixpoint span_line (l : list Z) : list Z * option (list Z) :=
  match l with
  | [] => ([], None)
  | c :: l' => if c =? 10 then ([], Some l') else let '(a, r) := span_line l' in (c :: a, r)
  end.
Definition get_line (old : list Z) (s : istream) : list Z * istream :=
  let '(ok, s) := sentry true s in
  if ok : bool then
    let '(a, r) := span_line (is_rest s) in
    match r with
    | Some r => (a, set_rest r s)
    | None => (a, set_state true (null a) (set_rest [] s))
    end
  else (old, s).
(** make_trie_dictionary.cpp 48-50. *)
Definition read_words (words : list (list Z)) (s : istream) : res (list (list Z) * istream) :=
  loop (S (S (List.length (is_rest s))))
    (fun '(w, words, s) =>
       let '(w, s) := get_line w s in
       if is_ok s then Ok (inl (w, words ++ [w], s)) else Ok (inr (words, s)))
    ([], words, s).
(** make_trie_dictionary.cpp 37-51: the files of the arguments, None for one that
    cannot be opened.  std::ifstream::open fails if the stream has a file already:
    it is never closed.  [opened] tells so. *)
Fixpoint words_of_files (opened : bool) (files : list (option (list Z))) (words : list (list Z)) : res (list (list Z)) :=
  match files with
  | [] => Ok words
  | None :: files' => words_of_files opened files' words
  | Some bytes :: files' =>
    if opened then words_of_files true files' words
    else
      '(words, _) <- read_words words (open_stream bytes) ;;
      words_of_files true files' words
  end.
(** make_trie_dictionary.cpp 31-54: what is printed. *)
Definition dictionary_of_files (sort : list (list Z) -> list (list Z)) (files : list (option (list Z))) : res (list Z) :=
  words <- words_of_files false files [] ;;
  nodes <- make_dictionary sort words ;;
  Ok (write_dict nodes).
