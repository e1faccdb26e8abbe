(** Property C110: the margins of a picture. *)
From Verif Require Import Base SortModel SortProofs ImageModel ImageSpec PnmModel BoxModel BoxSpec StratModel ZoneModel DatasModel StreamModel GlyphIoModel DatasIoModel
  DictIoModel TrieModel IndexModel GlyphsModel FloatModel RecogModel RecogWitness FilterModel ExtractModel AssembleModel LearnModel ShowModel PipelineModel PrintModel PrintSpec Ocr6Model Ocr8Model OcrOutModel
  PropPipeline PropRead MarginSpec MarginProofs MarginProofs2.

(** C110, full statement: blank margins around the picture of a line change neither the
    characters that are found, nor what is learnt from it, nor what is read.  The
    characters are the same ones, moved. *)
Theorem C110_characters : forall dx dy a b boxes, framed dx dy a b -> box_searchable a -> box_searchable b ->
  segment a = Ok boxes -> segment b = Ok (map (moved dx dy) boxes).
Proof. intros dx dy a b boxes F Sa Sb. exact (segment_moved dx dy a b F Sa Sb boxes). Qed.
Print Assumptions C110_characters.
(** write_glyphs and show_glyphs print the same. *)
Theorem C110_learnt : forall dx dy a b text font, framed dx dy a b -> box_searchable a -> box_searchable b ->
  learn_image b text font = learn_image a text font /\ show_characters b = show_characters a.
Proof. intros dx dy a b text font F Sa Sb. exact (conj (learn_moved dx dy a b F Sa Sb text font) (show_moved dx dy a b F Sa Sb)). Qed.
Print Assumptions C110_learnt.
(** extract_text6 and extract_text8 give the same, with all files, however they end. *)
Theorem C110_read6 : forall rt glyphs datas x y dict, same_line x y -> extract_text6 rt glyphs datas y dict = extract_text6 rt glyphs datas x dict.
Proof. exact extract6_moved. Qed.
Print Assumptions C110_read6.
Theorem C110_read8 : forall rt glyphs datas x y dict, same_line x y -> extract_text8 rt glyphs datas y dict = extract_text8 rt glyphs datas x dict.
Proof. exact extract8_moved. Qed.
Print Assumptions C110_read8.
(** ocr2_extract_text gives the same with all files, however it ends, if the first
    character is far from the left side in both pictures or in none, or is a letter; and
    if the line is not one character one row high in the second row.  The conditions
    are needed, see below. *)
Theorem C110_read_partial : forall rt cx glyphs datas x y lines dict dx dy a b boxes,
  image_of_bytes x 128 = Ok a -> image_of_bytes y 128 = Ok b -> box_searchable a -> box_searchable b -> framed dx dy a b -> segment a = Ok boxes ->
  same_indent dx boxes \/ opens_with_letter rt cx glyphs datas lines dict a -> not_second_row boxes -> not_second_row (map (moved dx dy) boxes) ->
  extract_text rt cx glyphs datas y lines dict = extract_text rt cx glyphs datas x lines dict.
Proof. exact extract_moved. Qed.
Print Assumptions C110_read_partial.
(** All that the programs print is the same, and they end in the same way: the two
    pictures are two files of a disk, and the other arguments are the same. *)
Theorem C110_printed6 : forall rt nan disk prog glyphs datas i i' options x y, disk i = Some x -> disk i' = Some y -> same_line x y ->
  main6 rt nan disk (prog :: glyphs :: datas :: i' :: options) = main6 rt nan disk (prog :: glyphs :: datas :: i :: options).
Proof. exact main6_moved. Qed.
Print Assumptions C110_printed6.
Theorem C110_printed8 : forall rt nan disk prog glyphs datas i i' options x y, disk i = Some x -> disk i' = Some y -> same_line x y ->
  main8 rt nan disk (prog :: glyphs :: datas :: i' :: options) = main8 rt nan disk (prog :: glyphs :: datas :: i :: options).
Proof. exact main8_moved. Qed.
Print Assumptions C110_printed8.
Theorem C110_printed_partial : forall rt nan cx disk disk' prog args args' glyphs datas x y lines dict dx dy a b boxes,
  files_are disk args glyphs datas x lines dict -> files_are disk' args' glyphs datas y lines dict ->
  image_of_bytes x 128 = Ok a -> image_of_bytes y 128 = Ok b -> box_searchable a -> box_searchable b -> framed dx dy a b -> segment a = Ok boxes ->
  same_indent dx boxes \/ opens_with_letter rt cx glyphs datas lines dict a -> not_second_row boxes -> not_second_row (map (moved dx dy) boxes) ->
  ocr2_main rt nan cx disk' (prog :: args') = ocr2_main rt nan cx disk (prog :: args).
Proof. exact main2_moved. Qed.
Print Assumptions C110_printed_partial.

(** A bar and two dots, alone and with margins on all sides. *)
Definition ex_tight : image := rows 4 ["x-x-"; "x---"; "x-x-"]%string.
Definition ex_wide : image := rows 13 ["-------------"; "------x-x----"; "------x------"; "------x-x----"; "-------------"; "-------------"]%string.
Lemma ex_framed : framed 6 1 ex_tight ex_wide.
Proof. apply framed_checked. vm_compute. reflexivity. Qed.
Definition ex_datas : list Z :=
  match write_datas_file (fun _ => 0) (isort Z.ltb) new_ctxs (write_glyphs ex_glyphs) with Ok (Some d) => d | _ => [] end.
Example C110_nonvacuous : framed 6 1 ex_tight ex_wide /\ box_searchable ex_tight /\ box_searchable ex_wide /\ same_line (picture ex_tight) (picture ex_wide) /\
  segment ex_tight = Ok [mkbox 0 0 1 3; mkbox 2 0 1 3] /\ segment ex_wide = Ok [mkbox 6 1 1 3; mkbox 8 1 1 3] /\
  opens_with_letter ex_rt new_ctxs (write_glyphs ex_glyphs) ex_datas None None ex_tight /\ ~ same_indent 6 [mkbox 0 0 1 3; mkbox 2 0 1 3] /\
  read_with ex_glyphs ex_tight = Ok (str "l:", 0, 2) /\ read_with ex_glyphs ex_wide = Ok (str "l:", 0, 2).
Proof.
  assert (Sa : box_searchable ex_tight) by (repeat split; vm_compute; congruence). assert (Sb : box_searchable ex_wide) by (repeat split; vm_compute; congruence).
  split; [exact ex_framed|]. split; [exact Sa|]. split; [exact Sb|].
  split; [exists 6, 1, ex_tight, ex_wide; split; [vm_compute; reflexivity|]; split; [vm_compute; reflexivity|]; split; [exact Sa|]; split; [exact Sb|exact ex_framed]|].
  split; [vm_compute; reflexivity|]. split; [vm_compute; reflexivity|].
  split; [|split; [cbn [same_indent bx]; lia|split; [vm_compute; reflexivity|vm_compute; reflexivity]]].
  destruct (load_all ex_rt (write_glyphs ex_glyphs) ex_datas None None) as [[[[nodes g] infos] t]| | |] eqn:E1; try (vm_compute in E1; discriminate E1).
  destruct (read_line (mkrec t (rt_views ex_rt) (rt_probs ex_rt) (rt_zones ex_rt) (rt_junk ex_rt)) ex_tight new_ctxs) as [s| | |] eqn:E2; try (vm_compute in E1; injection E1 as <- <- <- <-; vm_compute in E2; discriminate E2).
  vm_compute in E1. injection E1 as <- <- <- <-. vm_compute in E2. injection E2 as <-.
  do 10 eexists. split; [vm_compute; reflexivity|]. split; [vm_compute; reflexivity|]. split; [vm_compute; reflexivity|]. split; [vm_compute; reflexivity|]. split; [vm_compute; reflexivity|].
  split; [vm_compute; reflexivity|vm_compute; reflexivity].
Qed.

(** What ocr2_extract_text prints for both pictures. *)
Definition ex_disk (name : list Z) : option (list Z) :=
  match name with [103] => Some (write_glyphs ex_glyphs) | [100] => Some ex_datas | [116] => Some (picture ex_tight) | [119] => Some (picture ex_wide) | _ => None end.
Example C110_printed_nonvacuous : exists out, ocr2_main ex_rt (str "-nan") new_ctxs ex_disk [str "ocr2"; str "g"; str "d"; str "t"] = Ok (out, Exits 0) /\
  ocr2_main ex_rt (str "-nan") new_ctxs ex_disk [str "ocr2"; str "g"; str "d"; str "w"] = Ok (out, Exits 0) /\ 100 < vsize out.
Proof. eexists. split; [vm_compute; reflexivity|split; [vm_compute; reflexivity|vm_compute; reflexivity]]. Qed.

(** An unknown character first: it is not printed and not counted, unless the line starts
    more than 4 columns from the left side. *)
Theorem C110_indent_refuted : let a := rows 6 ["xxx-x-"; "xxx-x-"; "xxx-x-"]%string in let b := rows 11 ["-----xxx-x-"; "-----xxx-x-"; "-----xxx-x-"]%string in
  framed 5 0 a b /\ read_with ex_glyphs a = Ok (str "l", 0, 2) /\ read_with ex_glyphs b = Ok (str "?l", 1, 2).
Proof. cbv zeta. split; [apply framed_checked; vm_compute; reflexivity|]. split; [vm_compute; reflexivity|vm_compute; reflexivity]. Qed.
Print Assumptions C110_indent_refuted.
(** One character one row high: with one blank row above, the program writes outside of
    its buffer. *)
Theorem C110_second_row_refuted : let a := rows 4 ["xxx-"]%string in let b := rows 4 ["----"; "xxx-"]%string in
  framed 0 1 a b /\ read_with ex_glyphs a = Ok ([], 0, 1) /\ read_with ex_glyphs b = UB.
Proof. cbv zeta. split; [apply framed_checked; vm_compute; reflexivity|]. split; [vm_compute; reflexivity|vm_compute; reflexivity]. Qed.
Print Assumptions C110_second_row_refuted.
(** Ink in the last column of the picture is lost (C11); a margin after it shows it. *)
Theorem C110_last_column_refuted : let a := rows 5 ["x-x-x"; "x---x"; "x-x-x"]%string in let b := rows 6 ["x-x-x-"; "x---x-"; "x-x-x-"]%string in
  read_with ex_glyphs a = Ok (str "l:", 0, 2) /\ read_with ex_glyphs b = Ok (str "l:l", 0, 3).
Proof. cbv zeta. split; [vm_compute; reflexivity|vm_compute; reflexivity]. Qed.
Print Assumptions C110_last_column_refuted.
