(** Property C97: write_glyphs, normalize_glyphs, write_datas and ocr2_extract_text,
    one after the other. *)
From Verif Require Import Base SortModel SortProofs ImageModel PnmModel BoxModel BoxSpec StratModel ZoneModel DatasModel StreamModel GlyphIoModel GlyphIoSpec DictIoModel TrieModel
  IndexModel NormModel FloatModel RecogModel RecogSpec RecogWitness ExtractSpec LearnModel LearnSpec PipelineModel PipelineSpec ShowModel ShowSpec PrintModel PrintSpec ProgModel ProgSpec
  ChainSpec ChainProofs PropPipeline PropPrint.

(** C97, in full: when images and texts are learnt with write_glyphs and the files go
    through normalize_glyphs and write_datas, every program ends with 0 and
    ocr2_extract_text prints the text of each image that was learnt.  Proved with the
    luminance 128 and the conditions of C67; with another luminance it is refuted. *)
Theorem C97_reads_partial : forall disk opts names ls sort sort_views junk z cx0 progs gname nname fname, teachable ls -> unambiguous ls -> names <> [] ->
  luminance_args opts names 128 -> Forall2 (lesson_on disk 128) names ls -> is_std_sort glyph_less sort -> is_std_sort view_less sort_views -> is_std_sort Z.ltb z -> fname <> nname ->
  exists gf nf df n, let disk1 := saved disk gname gf in let disk2 := saved disk1 nname nf in let disk3 := saved disk2 fname df in
    pictures_taught ls n /\
    write_glyphs_main disk (fst (fst progs) :: opts ++ triples names) = Ok (gf, Exits 0) /\
    normalize_main sort sort_views disk1 [snd (fst progs); gname] = Ok (nf, Exits 0) /\
    write_datas_main junk z cx0 disk2 [snd progs; nname] = Ok (df, Exits 0) /\
    forall image text font l rt nan cx prog, In (image, text, font, l) (combine names ls) -> ~ In image [gname; nname; fname] -> legal rt ->
      steady (le_boxes l) -> no_lost_break (spoken 0 (le_boxes l) (le_words l)) ->
      exists pics ims words, Forall2 (char_image (le_img l)) (le_boxes l) pics /\ first_seen pics ims /\
        Forall2 (fun im r => exists w k, learnt ls im w /\ r = repeat w (S k)) ims words /\
        ocr2_main rt nan cx disk3 [prog; nname; fname; image] =
          Ok (head_of None n ++ pictures ims words ++
              tail_lines (line_text (le_boxes l) (le_words l)) 0 (vsize (le_boxes l)) (match le_boxes l with [] => nan | _ => [48] end), Exits 0).
Proof. exact chain_reads. Qed.
Print Assumptions C97_reads_partial.
(** With any luminance the files make the program print all lines whose characters
    are those of the lessons, with a dictionary or lines of words too. *)
Theorem C97_files : forall disk lum opts names ls sort sort_views junk z cx0 progs gname nname, teachable ls -> names <> [] -> luminance_args opts names lum ->
  Forall2 (lesson_on disk lum) names ls -> is_std_sort glyph_less sort -> is_std_sort view_less sort_views -> is_std_sort Z.ltb z ->
  exists gf nf df n, pictures_taught ls n /\ prints_learnt ls nf df n /\
    write_glyphs_main disk (fst (fst progs) :: opts ++ triples names) = Ok (gf, Exits 0) /\
    normalize_main sort sort_views (saved disk gname gf) [snd (fst progs); gname] = Ok (nf, Exits 0) /\
    write_datas_main junk z cx0 (saved (saved disk gname gf) nname nf) [snd progs; nname] = Ok (df, Exits 0).
Proof. exact chain. Qed.
Print Assumptions C97_files.

(** The commands, with the files g, n and f. *)
Definition ex_chain (disk : disk_of_files) (args : list (list Z)) (image : list Z) : res (list Z * list ended) :=
  '(gf, e1) <- write_glyphs_main disk (str "write_glyphs" :: args) ;;
  '(nf, e2) <- normalize_main (isort glyph_less) (isort view_less) (saved disk (str "g") gf) [str "normalize_glyphs"; str "g"] ;;
  '(df, e3) <- write_datas_main (fun _ => 0) (isort Z.ltb) new_ctxs (saved disk (str "n") nf) [str "write_datas"; str "n"] ;;
  '(out, e4) <- ocr2_main ex_rt (str "-nan") new_ctxs (saved (saved disk (str "n") nf) (str "f") df) [str "ocr2_extract_text"; str "n"; str "f"; image] ;;
  Ok (out, [e1; e2; e3; e4]).
(** An image with a grey pixel. *)
Definition ex_grey (img : image) : list Z := str "P6" ++ [10] ++ print_uint (iw img) ++ [32] ++ print_uint (ih img) ++ [10] ++ str "255" ++ [10] ++
  flat_map (fun p => if p =? 120 then [255; 255; 255] else if p =? 103 then [200; 200; 200] else [0; 0; 0]) (idata img).
Definition ex_files (n : list Z) : option (list Z) :=
  if list_eqb n (str "i") then Some (ex_bytes ex_line)
  else if list_eqb n (str "j") then Some (ex_grey (rows 9 ["-x-----x-"; "-x--g----"; "-x-----x-"]%string))
  else if list_eqb n (str "t") then Some (str "l :") else None.
(** What was learnt with another luminance is not read: the grey pixel is a character
    for ocr2_extract_text, which takes the luminance 128 always. *)
Theorem C97_luminance_refuted : ex_chain ex_files [str "-l"; str "201"; str "j"; str "t"; str "f"] (str "j") =
  Ok (lines_text
    [" ## datas.size(): 2"; " ## glyphs.size(): 2"; " ## go"; ":::"; ":x:"; ":x:"; ":x:"; ":::"; "l "; ":::"; ":x:"; ":::"; ""; ":::"; ":x:"; ":-:"; ":x:"; ":::"; ": ";
     " ## result: l?:"; "unrecognized_count: 1"; "count: 3"; "unrecognized_rate: 100"]%string, [Exits 0; Exits 0; Exits 0; Exits 0]).
Proof. vm_compute. reflexivity. Qed.
Print Assumptions C97_luminance_refuted.

Example C97_nonvacuous : teachable [ex_lesson] /\ unambiguous [ex_lesson] /\ luminance_args [] [(str "i", str "t", str "f")] 128 /\
  luminance_args [str "-l"; str "128"] [(str "i", str "t", str "f")] 128 /\ Forall2 (lesson_on ex_files 128) [(str "i", str "t", str "f")] [ex_lesson] /\
  legal ex_rt /\ steady ex_boxes /\ no_lost_break (spoken 0 ex_boxes [str "l"; str ":"]) /\
  ex_chain ex_files [str "i"; str "t"; str "f"] (str "i") = Ok (lines_text
    [" ## datas.size(): 2"; " ## glyphs.size(): 2"; " ## go"; ":::"; ":x:"; ":x:"; ":x:"; ":::"; "l "; ":::"; ":x:"; ":-:"; ":x:"; ":::"; ": ";
     " ## result: l :"; "unrecognized_count: 0"; "count: 2"; "unrecognized_rate: 0"]%string, [Exits 0; Exits 0; Exits 0; Exits 0]) /\
  ex_chain ex_files [str "i"; str "t"; str "f"; str "i"; str "t"; str "f"] (str "i") = ex_chain ex_files [str "-l"; str "128"; str "i"; str "t"; str "f"] (str "i").
Proof.
  destruct C67_nonvacuous as (A & B & C & D & E & _). split; [exact A|]. split; [exact B|]. split; [left; split; [reflexivity|]; split; [reflexivity|discriminate]|].
  split.
  { right. exists (str "128"), 128. split; [reflexivity|]. split; [|split; [vm_compute; reflexivity|reflexivity]].
    exists [], [], (str "128"). split; [reflexivity|]. split; [intros ? []|]. split; [discriminate|]. split; [repeat constructor|]. left. split; [left|]; reflexivity. }
  split.
  { constructor; [|constructor]. split; [exists (ex_bytes ex_line); split; vm_compute; reflexivity|]. split; reflexivity. }
  split; [exact C|]. split; [exact D|]. split; [exact E|]. split; vm_compute; reflexivity.
Qed.
