(** What ocr2_extract_text must print. *)
From Verif Require Import Base ImageModel BoxModel StreamModel IndexModel RecogModel GlyphsModel DictIoModel PipelineModel ExtractModel ExtractSpec ShowSpec.

(** The pictures of a sequence, each one where it is seen first. *)
Inductive first_seen : list image -> list image -> Prop :=
| seen_none : first_seen [] []
| seen_again l out im : first_seen l out -> In im l -> first_seen (l ++ [im]) out
| seen_new l out im : first_seen l out -> ~ In im l -> first_seen (l ++ [im]) (out ++ [im]).

(** A picture in its frame, then a line with the words of its candidates, each one
    before a blank. *)
Definition picture_text (im : image) (words : list (list Z)) : list Z :=
  framed im ++ flat_map (fun w => w ++ [32]) words ++ [10].
(** The words of candidates in a table. *)
Definition words_are (g : glyphs_table) (l : list oview) (words : list (list Z)) : Prop :=
  Forall2 (fun v w => word_text g (ov_word v) = Ok w) l words.

Definition pictures (ims : list image) (words : list (list (list Z))) : list Z := flat_map (fun '(im, ws) => picture_text im ws) (combine ims words).
(** The text printed for the characters of a line: each picture once, with the words
    of its candidates. *)
Definition printed (e : recogniser) (img : image) (g : glyphs_table) (boxes : list box) (st : list (list oview)) (out : list Z) : Prop :=
  exists pics ims words, Forall2 (char_image img) boxes pics /\ first_seen pics ims /\ Forall2 (recognised e) ims st /\
    Forall2 (words_are g) st words /\ out = pictures ims words.
(** The words of the candidates of a box are in the table. *)
Definition legible (e : recogniser) (img : image) (g : glyphs_table) (b : box) : Prop :=
  forall im l v, char_image img b im -> recognised e im l -> In v l -> exists w, word_text g (ov_word v) = Ok w.

(** The lines before and after the pictures. *)
Definition dict_line (dict : option bool) : list Z :=
  match dict with Some known => str (if known then " ## dict ? true" else " ## dict ? false")%string ++ [10] | None => [] end.
Definition head_lines (dict : option bool) (datas glyphs : Z) : list Z :=
  dict_line dict ++
  str " ## datas.size(): " ++ print_uint datas ++ [10] ++ str " ## glyphs.size(): " ++ print_uint glyphs ++ [10].
Definition tail_lines (text : list Z) (unknown count : Z) (rate : list Z) : list Z :=
  str " ## result: " ++ text ++ [10] ++ str "unrecognized_count: " ++ print_uint unknown ++ [10] ++ str "count: " ++ print_uint count ++ [10] ++
  str "unrecognized_rate: " ++ rate ++ [10].

(** The contents of an optional file. *)
Definition option_file (disk : list Z -> option (list Z)) (name : option (list Z)) (file : option (list Z)) : Prop :=
  match name with Some f => exists bytes, disk f = Some bytes /\ file = Some bytes | None => file = None end.
(** The files of the arguments: glyphs, features and image, then the optional lines
    of words and dictionary. *)
Definition disk_files (disk : list Z -> option (list Z)) (args : list (list Z)) (glyphs datas image : option (list Z)) (lines dict : option (list Z)) : Prop :=
  exists fg fd fi options, args = fg :: fd :: fi :: options /\ disk fg = glyphs /\ disk fd = datas /\ disk fi = image /\
    option_file disk (nth_error options 0) lines /\ option_file disk (nth_error options 1) dict.
Definition files_are (disk : list Z -> option (list Z)) (args : list (list Z)) (glyphs datas image : list Z) (lines dict : option (list Z)) : Prop :=
  disk_files disk args (Some glyphs) (Some datas) (Some image) lines dict.
Definition go_line : list Z := str " ## go" ++ [10].
(** Whether a dictionary is given, and has words. *)
Definition dict_shown (dict : option (list Z)) (nodes : list fnode) : option bool :=
  match dict with Some _ => Some (match nodes with [] => false | _ => true end) | None => None end.

(** The recogniser that the program uses. *)
Definition rt_rec (rt : runtime) (t : RecogModel.table) : recogniser := mkrec t (rt_views rt) (rt_probs rt) (rt_zones rt) (rt_junk rt).
(** All that is printed before the pictures; [n] is the number of glyphs. *)
Definition head_of (dict : option bool) (n : Z) : list Z := head_lines dict n n ++ go_line.

(** A table without a short column; a feature file that ends early gives one (C58). *)
Definition full_table (t : table) : Prop :=
  Z.of_nat (List.length (t_glyphs t)) < 4294967296 /\ forall c, In c (t_cols t) -> Z.of_nat (List.length c) = Z.of_nat (List.length (t_glyphs t)).
