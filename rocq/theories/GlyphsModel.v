(** Model of ocr2/glyphs.{hpp,cpp}, ocr2/word_lines.{hpp,cpp} and
    ocr2/words_infos.hpp: the glyph table of the recogniser and its words.

    The block of words is a list of bytes, [None] for those not written;
    unsigned is 4 bytes, little endian. *)
From Verif Require Import Base SortModel DatasModel StreamModel TrieModel IndexModel.

(** std::map<std::string, unsigned>: an association list ordered by key, the
    bytes compared as unsigned char. *)
Notation names := (list (list Z * Z)) (only parsing).
Fixpoint names_find (w : list Z) (m : names) : option Z :=
  match m with
  | [] => None
  | (k, id) :: m' => if list_eqb k w then Some id else names_find w m'
  end.
Fixpoint names_insert (w : list Z) (id : Z) (m : names) : names :=
  match m with
  | [] => [(w, id)]
  | (k, i) :: m' => if list_ltb Z.ltb w k then (w, id) :: m else (k, i) :: names_insert w id m'
  end.
(** glyphs.cpp 49-52, 55-58: the identifier of a name, added if it is new. *)
Definition names_get (w : list Z) (m : names) : Z * names :=
  match names_find w m with
  | Some id => (id, m)
  | None => let id := u32 (vsize m) in (id, names_insert w id m)
  end.

(** glyphs.cpp 47-62: the views of a glyph; [vs] has n elements, zero at first. *)
Definition read_ocr_views (n : Z) (s : istream) (words fonts : names)
    : res (list oview * istream * names * names) :=
  loop (S (S (List.length (is_rest s))))
    (fun st : Z * list oview * istream * names * names =>
      let '(i, vs, s, words, fonts) := st in
      if i <? n then
        let '(w, s) := get_word [] s in
        let '(f, s) := get_word [] s in
        let s := ignore_line s in
        if is_ok s then
          let '(wid, words) := names_get w words in
          let '(fid, fonts) := names_get f fonts in
          vs <- wr vs i (mkov wid fid) ;;
          Ok (inl (i + 1, vs, s, words, fonts))
        else Ok (inr (vs, s, words, fonts))
      else Ok (inr (vs, s, words, fonts)))
    (0, repeat (mkov 0 0) (Z.to_nat n), s, words, fonts).

(** glyphs.cpp 38-65: the glyphs, with the words numbered in order of appearance. *)
Definition read_ocr_glyphs (s : istream) : res (list (list oview) * istream * names) :=
  loop (S (S (List.length (is_rest s))))
    (fun st : list (list oview) * istream * names * names =>
      let '(gs, s, words, fonts) := st in
      let s := ignore_line s in
      if is_ok s then
        let '(n, s) := get_unsigned 0 s in
        if is_ok s then
          '(vs, s, words, fonts) <- read_ocr_views n s words fonts ;;
          Ok (inl (gs ++ [vs], s, words, fonts))
        else Ok (inr (gs, s, words))
      else Ok (inr (gs, s, words)))
    ([], s, [], []).

(** The number of unsigned holding n characters (glyphs.cpp 73, 89). *)
Definition cells (n : Z) : Z := (n + 3) / 4.

(** glyphs.cpp 71-74. *)
Fixpoint word_offsets (words : names) (sz : Z) (reindex : list Z) : res (Z * list Z) :=
  match words with
  | [] => Ok (sz, reindex)
  | (w, id) :: words' =>
    reindex <- wr reindex id sz ;;
    word_offsets words' (u32 (sz + (cells (vsize w) + 1))) reindex
  end.

Notation memory := (list (option Z)) (only parsing).
Definition put (mem : memory) (pos b : Z) : res memory := wr mem pos (Some b).
Fixpoint put_bytes (mem : memory) (pos : Z) (bs : list Z) : res memory :=
  match bs with
  | [] => Ok mem
  | b :: bs' => mem <- put mem pos b ;; put_bytes mem (pos + 1) bs'
  end.
Definition le_bytes (n : Z) : list Z := [n mod 256; n / 256 mod 256; n / 65536 mod 256; n / 16777216 mod 256].
(** glyphs.cpp 82-91; [buf] is the number of unsigned before. *)
Fixpoint fill_words (words : names) (buf : Z) (mem : memory) : res memory :=
  match words with
  | [] => Ok mem
  | (w, _) :: words' =>
    mem <- put_bytes mem (4 * buf) (le_bytes (u32 (vsize w))) ;;
    mem <- put_bytes mem (4 * (buf + 1)) w ;;
    mem <- put mem (4 * (buf + 1) + vsize w) 0 ;;
    fill_words words' (buf + 1 + cells (vsize w)) mem
  end.

(** glyphs.hpp 42-91: the glyphs and their words. *)
Record glyphs_table := mkgt { gt_views : list (list oview); gt_mem : memory; gt_sz : Z }.

(** glyphs.cpp 29-97: operator>>(istream, Glyphs) to an empty table. *)
Definition load_glyphs (s : istream) : res (glyphs_table * istream) :=
  '(gs, s, words) <- read_ocr_glyphs s ;;
  '(sz, reindex) <- word_offsets words 0 (repeat 0 (List.length words)) ;;
  gs <- map_res (map_res (fun v => id <- rd reindex (ov_word v) ;; Ok (mkov id (ov_font v)))) gs ;;
  mem <- fill_words words 0 (repeat None (Z.to_nat (4 * sz))) ;;
  Ok (mkgt gs mem sz, s).

(** An initialised byte. *)
Definition byte (mem : memory) (pos : Z) : res Z :=
  b <- rd mem pos ;; match b with Some x => Ok x | None => UB end.
(** glyphs.hpp 52-61: Glyphs::string::size. *)
Definition word_size (g : glyphs_table) (i : Z) : res Z :=
  a <- byte (gt_mem g) (4 * i) ;;
  b <- byte (gt_mem g) (4 * i + 1) ;;
  c <- byte (gt_mem g) (4 * i + 2) ;;
  d <- byte (gt_mem g) (4 * i + 3) ;;
  Ok (a + 256 * b + 65536 * c + 16777216 * d).
(** The characters of get_word (glyphs.hpp 57-64): [begin, end). *)
Definition word_text (g : glyphs_table) (i : Z) : res (list Z) :=
  n <- word_size g i ;;
  map_res (fun k => byte (gt_mem g) (4 * (i + 1) + k)) (zrange n).

(** std::string_view::compare with as many characters of the block (memcmp:
    up to the first difference). *)
Fixpoint mem_compare (s : list Z) (mem : memory) (pos : Z) : res comparison :=
  match s with
  | [] => Ok Eq
  | c :: s' =>
    x <- byte mem pos ;;
    if c <? x then Ok Lt else if x <? c then Ok Gt else mem_compare s' mem (pos + 1)
  end.

Definition no_index : Z := 4294967295.
(** glyphs.hpp 68-81: word_index_of. *)
Definition word_index_of (g : glyphs_table) (s : list Z) : res Z :=
  loop (S (S (List.length (gt_mem g))))
    (fun i =>
      if i <? gt_sz g then
        r <- mem_compare s (gt_mem g) (4 * (i + 1)) ;;
        match r with
        | Eq => Ok (inr i)
        | Lt => Ok (inr no_index)
        | Gt => n <- word_size g i ;; Ok (inl (u32 (i + (n + 7) / 4)))
        end
      else Ok (inr no_index))
    0.

(** word_lines.hpp 31-42: the four fields of WordLines, of 3 bits each. *)
Record word_lines := mkwl { wl_ascent : Z; wl_cap : Z; wl_mean : Z; wl_base : Z }.
(** word_lines.cpp 26-39: operator>>(istream, WordLines). *)
Definition read_lines (old : word_lines) (s : istream) : word_lines * istream :=
  let '(a, s) := get_unsigned 0 s in
  let '(c, s) := get_unsigned 0 s in
  let '(m, s) := get_unsigned 0 s in
  let '(b, s) := get_unsigned 0 s in
  (if is_ok s then mkwl (a mod 8) (c mod 8) (m mod 8) (b mod 8) else old, s).
(** word_lines.cpp 41-53: operator>>(istream, WWordsLines) to an empty vector;
    an element is its text and its lines (word_lines.hpp 45-55). *)
Definition read_words_lines (s : istream) : res (list (list Z * word_lines) * istream) :=
  loop (S (S (List.length (is_rest s))))
    (fun st : word_lines * list (list Z * word_lines) * istream =>
      let '(wl, out, s) := st in
      let '(w, s) := get_word [] s in
      let '(wl, s) := read_lines wl s in
      if is_ok s then Ok (inl (wl, if vsize w <=? 8 then out ++ [(w, wl)] else out, s))
      else Ok (inr (out, s)))
    (mkwl 0 0 0 0, [], s).

(** words_infos.hpp 30-33. *)
Record word_infos := mkwi { wi_word : Z; wi_lines : word_lines }.
Definition wi_lt (a b : word_infos) : bool := wi_word a <? wi_word b.
(** words_infos.hpp 42-47. *)
Fixpoint index_lines (g : glyphs_table) (l : list (list Z * word_lines)) : res (list word_infos) :=
  match l with
  | [] => Ok []
  | (w, wl) :: l' =>
    i <- word_index_of g w ;;
    r <- index_lines g l' ;;
    Ok (if i =? no_index then r else mkwi i wl :: r)
  end.
(** words_infos.hpp 40-55: the constructor of WordsInfos. *)
Definition words_infos (sort : list word_infos -> list word_infos) (g : glyphs_table)
    (l : list (list Z * word_lines)) : res (list word_infos) :=
  r <- index_lines g l ;;
  Ok (sort r).
(** words_infos.hpp 57-65: WordsInfos::get. *)
Definition infos_get (infos : list word_infos) (word : Z) : res (option word_infos) :=
  i <- partition_point (fun i => x <- rd infos i ;; Ok (wi_word x <? word)) 0 (vsize infos) ;;
  if i <? vsize infos then x <- rd infos i ;; Ok (if wi_word x =? word then Some x else None)
  else Ok None.
