(** What the programs must print one after the other, each output being kept as a
    file for the next program. *)
From Verif Require Import Base ImageModel BoxModel BoxSpec DatasModel DictIoModel TrieModel RecogSpec LearnSpec ExtractSpec PipelineModel PipelineSpec ShowModel ShowSpec PrintModel PrintSpec.

Definition disk_of_files := list Z -> option (list Z).
(** The disk with one more file. *)
Definition saved (disk : disk_of_files) (name bytes : list Z) : disk_of_files := fun n => if list_eqb n name then Some bytes else disk n.

(** The option of write_glyphs for the luminance, and its value. *)
Definition luminance_args (opts : list (list Z)) (names : list (list Z * list Z * list Z)) (lum : Z) : Prop :=
  (opts = [] /\ lum = 128 /\ fst (fst (nth 0 names ([], [], []))) <> str "-l") \/
  exists t v, opts = [str "-l"; t] /\ number_text t v /\ Z.abs v < 18446744073709551616 /\ lum = u32 v.
(** The files of a lesson: an image and a text; the font is an argument itself. *)
Definition lesson_on (disk : disk_of_files) (lum : Z) (t : list Z * list Z * list Z) (l : lesson) : Prop :=
  let '(image, text, font) := t in picture_of disk lum image (le_img l) /\ disk text = Some (le_text l) /\ font = le_font l.

(** The number of different pictures in the lessons. *)
Definition pictures_taught (ls : list lesson) (n : Z) : Prop :=
  exists ims, NoDup ims /\ (forall im, In im ims <-> exists w, teaches ls im w) /\ n = vsize ims.

(** ocr2_extract_text prints the line that it has learnt, with these files of glyphs
    and features, which hold n glyphs. *)
Definition prints_learnt (ls : list lesson) (glyphs datas : list Z) (n : Z) : Prop :=
  forall rt nan cx disk prog args bytes img boxes ws lines dict, legal rt -> files_are disk args glyphs datas bytes lines dict ->
    PnmModel.image_of_bytes bytes 128 = Ok img -> box_searchable img -> segment img = Ok boxes ->
    Forall2 (fun b w => forall im, char_image img b im -> recognisable im /\ learnt ls im w) boxes ws -> steady boxes -> no_lost_break (spoken 0 boxes ws) ->
    lines_file (flat_map le_words ls) lines -> dict_file ws dict ->
    exists nodes pics ims words, load_optional read_dict [] dict = Ok nodes /\ Forall2 (char_image img) boxes pics /\ first_seen pics ims /\
      Forall2 (fun im l => exists w k, learnt ls im w /\ l = repeat w (S k)) ims words /\
      ocr2_main rt nan cx disk (prog :: args) =
        Ok (head_of (dict_shown dict nodes) n ++ pictures ims words ++ tail_lines (line_text boxes ws) 0 (vsize boxes) (match boxes with [] => nan | _ => [48] end), Exits 0).
