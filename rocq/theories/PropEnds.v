(** C102: every run of the programs ends. *)
From Verif Require Import Base SortModel ImageModel PnmModel StratModel ZoneModel DatasModel StreamModel IndexModel GlyphsModel TrieModel NormModel LearnModel ShowModel ProgModel PipelineModel FormatModel PrintModel OcrOutModel
  SortProofs EndsSpec EndsProofs EndsProofs2 EndsProofs3 EndsProofs4 EndsProofs5 EndsProofs6 EndsProofs7 EndsProofs8 PropShow.

(** show_glyphs and write_glyphs, whatever the files of less than 2^32 bytes. *)
Theorem C102_show_glyphs : forall disk av, plain_disk disk -> ends (show_glyphs disk av).
Proof. exact ends_show_glyphs. Qed.
Print Assumptions C102_show_glyphs.
Theorem C102_write_glyphs : forall disk av, plain_disk disk -> ends (write_glyphs_main disk av).
Proof. exact ends_write_glyphs. Qed.
Print Assumptions C102_write_glyphs.

(** normalize_glyphs and write_datas, whatever the files. *)
Theorem C102_normalize_glyphs : forall sort sort_views disk av, ends (normalize_main sort sort_views disk av).
Proof. exact ends_normalize_main. Qed.
Print Assumptions C102_normalize_glyphs.
Theorem C102_write_datas : forall junk zsort cx disk av, ends (write_datas_main junk zsort cx disk av).
Proof. exact ends_write_datas_main. Qed.
Print Assumptions C102_write_datas.

(** make_trie_dictionary, whatever the files of less than 2^32 bytes. *)
Theorem C102_make_trie_dictionary : forall sort disk av, is_std_sort (list_ltb Z.ltb) sort -> plain_disk disk -> ends (dictionary_main sort disk av).
Proof. exact ends_dictionary_main. Qed.
Print Assumptions C102_make_trie_dictionary.

(** The features of an image of any size, and of its rotation, as long as there are
    no more pixels than the size tells. *)
Theorem C102_features : forall junk zsort st img img90 cx, sane img -> sane img90 -> ends (strategy_load junk zsort st img img90 cx).
Proof. exact ends_strategy_load. Qed.
Print Assumptions C102_features.

(** The three programs that read a line of text, whatever the files of less than 2^32
    bytes: the picture, the glyphs, the features, the dictionary and the lines of words. *)
Theorem C102_ocr2 : forall rt nan cx disk av, plain_disk disk -> ends (ocr2_main rt nan cx disk av).
Proof. intros rt nan cx disk av H. exact (ends_ocr2_main disk H rt nan cx av). Qed.
Print Assumptions C102_ocr2.
Theorem C102_main6 : forall rt nan disk av, plain_disk disk -> ends (main6 rt nan disk av).
Proof. intros rt nan disk av H. exact (ends_main6 disk H rt nan av). Qed.
Print Assumptions C102_main6.
Theorem C102_main8 : forall rt nan disk av, plain_disk disk -> ends (main8 rt nan disk av).
Proof. intros rt nan disk av H. exact (ends_main8 disk H rt nan av). Qed.
Print Assumptions C102_main8.

(** The reader of dictionaries, whatever the bytes and however many. *)
Theorem C102_dictionary_file : forall bytes, ends (load_file DictIoModel.read_dict bytes).
Proof. exact ends_dict_file. Qed.
Print Assumptions C102_dictionary_file.

(** There are such disks, with runs that come to a result. *)
Example C102_nonvacuous : plain_disk ex_disk /\ show_glyphs ex_disk [str "show"; str "a"] = Ok (ex_shown, Exits 0) /\
  is_std_sort (list_ltb Z.ltb) (isort (list_ltb Z.ltb)) /\ sane (mkimage 2 2 (str "x--x")) /\
  load_file DictIoModel.read_dict (str "97,1,0,1;") = Throw ExBadFormat.
Proof.
  split. { intros n b. unfold ex_disk. destruct (list_eqb n (str "a")); [|discriminate]. intros H. injection H as <-. split; [|vm_compute; reflexivity]. vm_compute. repeat constructor; discriminate. }
  split; [vm_compute; reflexivity|]. split; [apply isort_is_sort|]. split; [|vm_compute; reflexivity]. vm_compute. repeat split; discriminate.
Qed.
