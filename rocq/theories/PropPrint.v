(** Property C93: all that ocr2_extract_text prints. *)
From Verif Require Import Base SortModel SortProofs ImageModel PnmModel BoxModel BoxSpec StratModel ZoneModel DatasModel StreamModel GlyphIoModel DatasIoModel
  DictIoModel TrieModel IndexModel FloatModel RecogModel GlyphsModel ExtractModel ExtractSpec LearnModel PipelineModel PipelineSpec ReportModel
  ShowModel ShowSpec FormatModel FormatSpec PrintModel PrintSpec PrintProofs PrintProofs2 RecogWitness PropPipeline.
From Coq Require Import QArith.
Local Open Scope Z_scope.

(** C93: a run that ends well prints the sizes of the tables, a frame with the words
    of its candidates for each picture of a character where it is seen first, then
    the text and the figures. *)
Theorem C93_output : forall rt nan cx disk prog args glyphs datas image lines dict out, legal rt -> files_are disk args glyphs datas image lines dict ->
  ocr2_main rt nan cx disk (prog :: args) = Ok (out, Exits 0) ->
  exists nodes g infos t text unknown count chars, load_all rt glyphs datas lines dict = Ok (nodes, g, infos, t) /\
    extract_text rt cx glyphs datas image lines dict = Ok (text, unknown, count) /\
    out = head_of (dict_shown dict nodes) (vsize (gt_views g)) ++ chars ++ tail_lines text unknown count (print_double nan (unrecognized_rate unknown count)) /\
    forall img boxes, image_of_bytes image 128 = Ok img -> box_searchable img -> segment img = Ok boxes -> Forall (small_character img) boxes ->
      full_table t -> exists st, printed (rt_rec rt t) img g boxes st chars.
Proof. exact main_output. Qed.
Print Assumptions C93_output.
(** The rate is printed with six digits (C94); it is a hundred times the number of
    characters that are not recognised (C68). *)
Theorem C93_rate : forall nan unknown count, 0 <= unknown -> unknown * 100 < 4294967296 -> count <> 0 ->
  number_text (inject_Z (100 * unknown)) (print_double nan (unrecognized_rate unknown count)).
Proof. exact rate_text. Qed.
Print Assumptions C93_rate.
(** The line of taught characters (C67). *)
Theorem C93_taught : forall rt gs junk z cx0 datas cx bytes img boxes ws lines dict nan disk prog args, legal rt -> trainable gs -> is_std_sort Z.ltb z ->
  write_datas_file junk z cx0 (write_glyphs gs) = Ok (Some datas) -> image_of_bytes bytes 128 = Ok img -> box_searchable img -> segment img = Ok boxes ->
  Forall2 (word_taught gs img) boxes ws -> steady boxes -> no_lost_break (spoken 0 boxes ws) -> lines_file (labels gs) lines -> dict_file ws dict ->
  files_are disk args (write_glyphs gs) datas bytes lines dict ->
  exists nodes pics ims words, load_optional read_dict [] dict = Ok nodes /\ Forall2 (char_image img) boxes pics /\ first_seen pics ims /\
    Forall2 (fun im l => exists w k, taught gs im w /\ l = repeat w (S k)) ims words /\
    ocr2_main rt nan cx disk (prog :: args) =
      Ok (head_of (dict_shown dict nodes) (vsize gs) ++ pictures ims words ++ tail_lines (line_text boxes ws) 0 (vsize boxes) (match boxes with [] => nan | _ => [48] end), Exits 0).
Proof. exact main_taught. Qed.
Print Assumptions C93_taught.
(** Files that are refused: the lines before are printed. *)
Theorem C93_refused : forall rt nan cx disk prog args glyphs datas image lines dict e, files_are disk args glyphs datas image lines dict ->
  load_all rt glyphs datas lines dict = Throw e ->
  exists d n m out rest, ocr2_main rt nan cx disk (prog :: args) = Ok (out, Aborts e) /\ head_lines d n m = out ++ rest.
Proof. exact main_refused_files. Qed.
Print Assumptions C93_refused.
Theorem C93_image_refused : forall rt nan cx disk prog args glyphs datas image lines dict e nodes g infos t, files_are disk args glyphs datas image lines dict ->
  load_all rt glyphs datas lines dict = Ok (nodes, g, infos, t) -> image_of_bytes image 128 = Throw e ->
  ocr2_main rt nan cx disk (prog :: args) = Ok (head_of (dict_shown dict nodes) (vsize (gt_views g)), Aborts e).
Proof. exact main_refused_image. Qed.
Print Assumptions C93_image_refused.
(** Files that are not there: the features, which are read first, the glyphs, the
    image. *)
Theorem C93_missing_datas : forall rt nan cx disk prog args glyphs image lines dict nodes, disk_files disk args glyphs None image lines dict ->
  load_optional read_dict [] dict = Ok nodes -> ocr2_main rt nan cx disk (prog :: args) = Ok (dict_line (dict_shown dict nodes), Aborts ExIo).
Proof. exact main_missing_datas. Qed.
Print Assumptions C93_missing_datas.
Theorem C93_missing_glyphs : forall rt nan cx disk prog args datas image lines dict nodes cols, disk_files disk args None (Some datas) image lines dict ->
  load_optional read_dict [] dict = Ok nodes -> load_file (read_datas all_strategies) datas = Ok cols ->
  ocr2_main rt nan cx disk (prog :: args) = Ok (dict_line (dict_shown dict nodes) ++ str " ## datas.size(): " ++ print_uint (datas_size cols) ++ [10], Aborts ExIo).
Proof. exact main_missing_glyphs. Qed.
Print Assumptions C93_missing_glyphs.
Theorem C93_missing_image : forall rt nan cx disk prog args glyphs datas lines dict nodes g infos t, disk_files disk args (Some glyphs) (Some datas) None lines dict ->
  load_all rt glyphs datas lines dict = Ok (nodes, g, infos, t) ->
  ocr2_main rt nan cx disk (prog :: args) = Ok (head_of (dict_shown dict nodes) (vsize (gt_views g)), Aborts ExIo).
Proof. exact main_missing_image. Qed.
Print Assumptions C93_missing_image.
Theorem C93_usage : forall rt nan cx disk prog args, (List.length args < 3)%nat -> ocr2_main rt nan cx disk (prog :: args) = Ok ([], Exits 1).
Proof. exact main_usage. Qed.
Print Assumptions C93_usage.

(** A line with a character that comes twice. *)
Definition ex_bytes (img : image) : list Z := str "P6" ++ [10] ++ print_uint (iw img) ++ [32] ++ print_uint (ih img) ++ [10] ++ str "255" ++ [10] ++
  flat_map (fun p => if p =? 120 then [255; 255; 255] else [0; 0; 0]) (idata img).
Definition ex_run (img : image) (extra : list (list Z)) : res (list Z * ended) :=
  '(gf, _) <- learn_image ex_line (str "l :") (str "f") ;;
  df <- write_datas_file (fun _ => 0) (isort Z.ltb) new_ctxs gf ;;
  ocr2_main ex_rt (str "-nan") new_ctxs
    (fun n => if list_eqb n (str "g") then Some gf else if list_eqb n (str "f") then df else if list_eqb n (str "i") then Some (ex_bytes img)
              else if list_eqb n (str "w") then Some [] else if list_eqb n (str "d") then Some [] else None)
    ([str "ocr2"; str "g"; str "f"; str "i"] ++ extra).
Definition lines_text (l : list string) : list Z := flat_map (fun s => str s ++ [10]) l.
Definition ex_three : image := rows 13 ["-x-x---------"; "---x------x--"; "-x-x---------"]%string.
Example C93_nonvacuous :
  ex_run (rows 13 ["-x-x------x--"; "---x---------"; "-x-x------x--"]%string) [] = Ok (lines_text
    [" ## datas.size(): 2"; " ## glyphs.size(): 2"; " ## go"; ":::"; ":x:"; ":-:"; ":x:"; ":::"; ": "; ":::"; ":x:"; ":x:"; ":x:"; ":::"; "l ";
     " ## result: :l :"; "unrecognized_count: 0"; "count: 3"; "unrecognized_rate: 0"]%string, Exits 0).
Proof. vm_compute. reflexivity. Qed.
Example C93_unknown_nonvacuous :
  ex_run ex_three [str "w"; str "d"] = Ok (lines_text
    [" ## dict ? false"; " ## datas.size(): 2"; " ## glyphs.size(): 2"; " ## go"; ":::"; ":x:"; ":-:"; ":x:"; ":::"; ": "; ":::"; ":x:"; ":x:"; ":x:"; ":::"; "l "; ":::"; ":x:"; ":::"; "";
     " ## result: :l ?"; "unrecognized_count: 1"; "count: 3"; "unrecognized_rate: 100"]%string, Exits 0).
Proof. vm_compute. reflexivity. Qed.
Example C93_none_nonvacuous :
  ex_run (rows 3 ["---"; "---"]%string) [] = Ok (lines_text
    [" ## datas.size(): 2"; " ## glyphs.size(): 2"; " ## go"; " ## result: "; "unrecognized_count: 0"; "count: 0"; "unrecognized_rate: -nan"]%string, Exits 0).
Proof. vm_compute. reflexivity. Qed.
Example C93_full_nonvacuous : exists gf df nodes g infos t, learn_image ex_line (str "l :") (str "f") = Ok (gf, Learnt) /\
  write_datas_file (fun _ => 0) (isort Z.ltb) new_ctxs gf = Ok (Some df) /\ load_all ex_rt gf df None None = Ok (nodes, g, infos, t) /\ full_table t.
Proof.
  do 6 eexists. split; [vm_compute; reflexivity|]. split; [vm_compute; reflexivity|]. split; [vm_compute; reflexivity|]. split; [vm_compute; reflexivity|].
  intros c Hc. cbn [t_cols] in Hc. repeat (destruct Hc as [<-|Hc]; [vm_compute; reflexivity|]). destruct Hc.
Qed.
