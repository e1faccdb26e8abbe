(** Properties C43-C46: the glyph table, its words and their lines. *)
From Verif Require Import Base SortModel SortProofs ImageModel StreamModel GlyphIoModel GlyphIoSpec TrieModel TrieSpec IndexModel
  GlyphsModel GlyphsSpec GlyphsProofs GlyphsProofs2 GlyphsProofs3 SearchSpec SearchProofs SearchProofs2 GlyphFileSpec GlyphFileProofs.

(** C43: each label of the table has the word of the file, and the identifiers of
    words and fonts are equal when the words and the fonts are. *)
Theorem C43_words_resolve_partial : forall gs, good_file gs ->
  (forall w, greatest (words_of gs) w -> vsize w mod 4 <> 0) ->
  exists t s wid fid, load_glyphs (open_stream (file_text gs)) = Ok (t, s) /\ is_eof s = true /\ holds gs t wid fid.
Proof. exact words_resolve. Qed.
Print Assumptions C43_words_resolve_partial.
(** Full statement: for all files, without the condition on the greatest word nor
    the requirement that each glyph has a label and the file is complete.  Refuted
    by C45_overflow_refuted, C43_unlabelled_refuted and C43_truncated_refuted. *)

(** The files of the glyph writer. *)
Theorem C43_written_partial : forall gs,
  (forall g, In g gs -> storable g /\ gl_views g <> [] /\ ~ In 10 (idata (gl_img g)) /\
     forall v, In v (gl_views g) -> bytes (vw_word v)) ->
  write_glyphs gs = file_text (map fglyph_of gs) /\ Forall good_glyph (map fglyph_of gs).
Proof. exact written_files. Qed.
Print Assumptions C43_written_partial.

Definition ex_head : list Z := str "3 1 xxx".
Definition ex_file : list fglyph :=
  [ mkfg ex_head [mkfl (str "be") (str "f1") (str " 0"); mkfl (str "able") (str "f2") (str " 2")];
    mkfg ex_head [mkfl (str "be") (str "f2") []]; mkfg [] [mkfl (str "a") (str "f1") (str " 0")] ].
Definition table_of (m : res (glyphs_table * istream)) : option (list (list oview) * list (res (list Z))) :=
  match m with
  | Ok (t, _) => Some (gt_views t, map (fun v => word_text t (ov_word v)) (List.concat (gt_views t)))
  | _ => None
  end.
Example C43_nonvacuous : good_file ex_file /\ (forall w, greatest (words_of ex_file) w -> vsize w mod 4 <> 0) /\
  table_of (load_glyphs (open_stream (file_text ex_file))) =
    Some ([[mkov 4 0; mkov 2 1]; [mkov 4 1]; [mkov 0 0]], [Ok (str "be"); Ok (str "able"); Ok (str "be"); Ok (str "a")]).
Proof.
  split; [|split].
  - split; [|split; [vm_compute; reflexivity|split; [vm_compute; reflexivity|]]].
    + repeat (apply Forall_cons; [split; [cbn; intuition discriminate|split; [discriminate|]];
        repeat (apply Forall_cons; [repeat split; cbn in *; try discriminate; intuition (try discriminate; subst; lia)|]); apply Forall_nil|]).
      apply Forall_nil.
    + intros w Hw. cbn in Hw. repeat (destruct Hw as [<-|Hw]; [vm_compute; reflexivity|]). destruct Hw.
  - intros w [Hw G]. assert (B : In (str "be") (words_of ex_file)) by (left; reflexivity).
    cbn in Hw. destruct Hw as [<-|[<-|[<-|[<-|[]]]]]; try (vm_compute; discriminate).
    exfalso. destruct (G _ B) as [X|X]; [discriminate|]. inversion X; subst; lia.
  - vm_compute. reflexivity.
Qed.

(** A file cut in its labels: the labels that could not be read have the word of
    the first label; without any label read, an empty vector is indexed. *)
Theorem C43_truncated_refuted :
  table_of (load_glyphs (open_stream (ex_head ++ [10] ++ str "2" ++ [10] ++ str "be f1 0" ++ [10] ++ str "able f1"))) =
    Some ([[mkov 0 0; mkov 0 0]], [Ok (str "be"); Ok (str "be")]) /\
  load_glyphs (open_stream (ex_head ++ [10] ++ str "2" ++ [10] ++ str "be f1")) = UB.
Proof. split; vm_compute; reflexivity. Qed.
Print Assumptions C43_truncated_refuted.

(** The last end of line is not needed when something follows the font. *)
Theorem C43_open_line :
  table_of (load_glyphs (open_stream (ex_head ++ [10] ++ str "2" ++ [10] ++ str "be f1 0" ++ [10] ++ str "able f1 0"))) =
    Some ([[mkov 2 0; mkov 0 0]], [Ok (str "be"); Ok (str "able")]).
Proof. vm_compute. reflexivity. Qed.
Print Assumptions C43_open_line.

(** After a glyph without label, the line of the next image is read as labels. *)
Theorem C43_unlabelled_refuted :
  table_of (load_glyphs (open_stream (file_text [mkfg ex_head []; mkfg (str "1 3 xxx") [mkfl (str "be") (str "f1") []]]))) =
    Some ([[]; [mkov 0 0]], [Ok (str "3")]).
Proof. vm_compute. reflexivity. Qed.
Print Assumptions C43_unlabelled_refuted.

(** What any text gives: the glyphs and labels it holds are determined; the missing
    labels of a glyph repeat the first label of the file, a label of an empty file or a
    greatest word whose length is a multiple of 4 is undefined, and any other table
    resolves. *)
Theorem C43_outcome : forall text,
  exists es b, glyphs_in text es b /\ (forall es' b', glyphs_in text es' b' -> es = es' /\ b = b') /\
  (fits es ->
   match completed es with
   | None => load_glyphs (open_stream text) = UB
   | Some views =>
     ((exists w, greatest (map fst (found es)) w /\ vsize w mod 4 = 0) /\ load_glyphs (open_stream text) = UB) \/
     ((forall w, greatest (map fst (found es)) w -> vsize w mod 4 <> 0) /\
      exists t s, load_glyphs (open_stream text) = Ok (t, s) /\ is_eof s = b /\ resolved (found es) views t)
   end).
Proof. exact load_outcome_any. Qed.
Print Assumptions C43_outcome.
(** A file of less than 2^32 bytes fits. *)
Theorem C43_small : forall text, vsize text < 4294967296 -> exists es b, glyphs_in text es b /\
  match completed es with
  | None => load_glyphs (open_stream text) = UB
  | Some views =>
    ((exists w, greatest (map fst (found es)) w /\ vsize w mod 4 = 0) /\ load_glyphs (open_stream text) = UB) \/
    ((forall w, greatest (map fst (found es)) w -> vsize w mod 4 <> 0) /\
     exists t s, load_glyphs (open_stream text) = Ok (t, s) /\ is_eof s = b /\ resolved (found es) views t)
  end.
Proof. exact load_small. Qed.
Print Assumptions C43_small.
Definition ex_cut : list Z := ex_head ++ 10 :: str "2" ++ 10 :: str "be f1 0" ++ 10 :: str "able f1".
Example C43_outcome_nonvacuous : glyphs_in ex_cut [mkentry 2 [(str "be", str "f1")]] true /\ fits [mkentry 2 [(str "be", str "f1")]] /\
  completed [mkentry 2 [(str "be", str "f1")]] = Some [[(str "be", str "f1"); (str "be", str "f1")]].
Proof.
  split; [|split; [|reflexivity]].
  - apply (gi_last _ (str "2" ++ 10 :: str "be f1 0" ++ 10 :: str "able f1") 2 (10 :: str "be f1 0" ++ 10 :: str "able f1")).
    + apply nl_some. cbn. intuition discriminate.
    + exists [], (str "2"). split; [intros c []|]. split; [|split; reflexivity].
      exists [], (str "2"). split; [reflexivity|]. split; [split; [left; reflexivity|]; intros c [<-|[]]; reflexivity|]. split; [discriminate|]. split; reflexivity.
    + apply (li_one 1 _ _ _ (str "able f1")).
      * lia.
      * exists [10], (str " "), 32, (str "0" ++ 10 :: str "able f1"). split; [intros c [<-|[]]; reflexivity|].
        split; [split; [discriminate|]; cbn; intros c Hc; intuition (subst; lia)|]. split; [discriminate|].
        split; [intros c [<-|[]]; reflexivity|]. split; [split; [discriminate|]; cbn; intros c Hc; intuition (subst; lia)|]. split; [reflexivity|].
        split; [reflexivity|]. apply (nl_some (str " 0")). cbn. intuition discriminate.
      * apply li_stop; [lia|]. apply no_label. vm_compute. reflexivity.
  - split; [vm_compute; reflexivity|]. split; [vm_compute; reflexivity|]. intros w [<-|[]]. vm_compute. reflexivity.
Qed.

(** C44: the search of a text whose characters are above the lengths of the words
    finds the least word that starts with it; words of the table are found. *)
Theorem C44_search_partial : forall gs t s', good_file gs -> load_glyphs (open_stream (file_text gs)) = Ok (t, s') ->
  exists wid fid, holds gs t wid fid /\ (forall w, In w (words_of gs) -> 0 <= wid w < no_index) /\
    forall s, searchable (words_of gs) s -> exists i, word_index_of t s = Ok i /\ answer (words_of gs) wid s i.
Proof. exact index_of_file_ok. Qed.
Print Assumptions C44_search_partial.
Theorem C44_present_partial : forall ws wid s i, In s ws -> answer ws wid s i -> i = wid s.
Proof. exact answer_present. Qed.
Print Assumptions C44_present_partial.
(** Full statement: for all texts, the identifier of the word if it is in the
    table and no_index otherwise.  Refuted below. *)

Definition search (ws : list string) (s : list Z) : res Z :=
  '(t, _) <- load_glyphs (open_stream (file_text [mkfg ex_head (map (fun w => mkfl (str w) (str "f") []) ws)])) ;;
  word_index_of t s.
Example C44_nonvacuous :
  search ["be"; "able"; "a"]%string (str "able") = Ok 2 /\ search ["be"; "able"; "a"]%string (str "b") = Ok 4 /\
  search ["be"; "able"; "a"]%string (str "abort") = Ok no_index /\ search ["be"; "able"; "a"]%string (str "zoo") = Ok no_index /\
  searchable (words_of ex_file) (str "able").
Proof.
  do 4 (split; [vm_compute; reflexivity|]). split; [intros c Hc; cbn in Hc; intuition lia|].
  intros w c Hw Hc. assert (97 <= c) by (cbn in Hc; intuition lia). cbn in Hw.
  repeat (destruct Hw as [<-|Hw]; [change (97 <= c) in H; unfold vsize; cbn; lia|]). destruct Hw.
Qed.

(** A text that is no word is found when a word starts with it. *)
Theorem C44_prefix_refuted : search ["able"; "be"]%string (str "ab") = Ok 0.
Proof. vm_compute. reflexivity. Qed.
Print Assumptions C44_prefix_refuted.
(** A word of the table is not found: the search compares it with the length of
    the word that follows "able". *)
Definition ex_long : string := "able!!!!!!!!!!!!!!!!!!!!!!!!!!!!!!".
Theorem C44_missed_refuted : search ["able"; ex_long; "be"]%string (str ex_long) = Ok no_index.
Proof. vm_compute. reflexivity. Qed.
Print Assumptions C44_missed_refuted.
(** A text with a NUL: the search reads bytes that were never written. *)
Theorem C44_uninitialised_refuted : search ["a"; "be"]%string (str "a" ++ [0; 0]) = UB.
Proof. vm_compute. reflexivity. Qed.
Print Assumptions C44_uninitialised_refuted.
(** The exact result for any text: it is compared in turn with the bytes from each
    word to the end of the block, up to the first word that is not before it. *)
Theorem C44_exact : forall gs t s' ws, good_file gs -> load_glyphs (open_stream (file_text gs)) = Ok (t, s') -> ordered_words gs ws ->
  exists wid fid, holds gs t wid fid /\ (forall w, In w (words_of gs) -> 0 <= wid w < no_index) /\
    forall s, word_index_of t s = match scan_words s ws with Found w => Ok (wid w) | Absent => Ok no_index | Unreadable => UB end.
Proof. exact search_exact. Qed.
Print Assumptions C44_exact.
Theorem C44_words : forall gs, good_file gs -> exists ws, ordered_words gs ws.
Proof. exact ordered_words_exist. Qed.
Print Assumptions C44_words.
(** The same for the table of a file of any bytes. *)
Theorem C44_any : forall text es b ws t s', vsize text < 4294967296 -> glyphs_in text es b -> in_order (found es) ws -> load_glyphs (open_stream text) = Ok (t, s') ->
  exists views wid fid, completed es = Some views /\ resolved_by (found es) views t wid fid /\ (forall w, In w (map fst (found es)) -> 0 <= wid w < no_index) /\
    forall s, word_index_of t s = match scan_words s ws with Found w => Ok (wid w) | Absent => Ok no_index | Unreadable => UB end.
Proof. exact search_any. Qed.
Print Assumptions C44_any.
Theorem C44_any_words : forall text es b, vsize text < 4294967296 -> glyphs_in text es b -> exists ws, in_order (found es) ws.
Proof. intros text es b V H. exact (in_order_exists text es b H (file_fits _ _ _ H V)). Qed.
Print Assumptions C44_any_words.
Example C44_exact_nonvacuous :
  scan_words (str "be") [str "able"; str "be"] = Found (str "be") /\ scan_words (str "ab") [str "able"; str "be"] = Found (str "able") /\
  scan_words (str ex_long) [str "able"; str ex_long; str "be"] = Absent /\ scan_words (str "a" ++ [0; 0]) [str "a"; str "be"] = Unreadable /\
  scan_words (str "able" ++ [2; 0; 0; 0] ++ str "be") [str "able"; str "be"] = Found (str "able").
Proof. repeat split; vm_compute; reflexivity. Qed.

(** C45: the byte after a word: NUL if its length is not a multiple of 4,
    otherwise the first byte of the length of the next word. *)
Theorem C45_terminators_partial : forall gs t s', good_file gs -> load_glyphs (open_stream (file_text gs)) = Ok (t, s') ->
  exists wid fid, holds gs t wid fid /\
    (forall w, In w (words_of gs) -> vsize w mod 4 <> 0 -> byte (gt_mem t) (4 * (wid w + 1) + vsize w) = Ok 0) /\
    (forall w w', follows (words_of gs) w w' -> vsize w mod 4 = 0 ->
       byte (gt_mem t) (4 * (wid w + 1) + vsize w) = Ok (vsize w' mod 256)).
Proof. exact terminators. Qed.
Print Assumptions C45_terminators_partial.
(** Full statement: the byte is NUL for all words.  Refuted for lengths that are
    multiples of 4: *)
Theorem C45_nul_refuted : exists gs t s', good_file gs /\ load_glyphs (open_stream (file_text gs)) = Ok (t, s') /\
  In (str "able") (words_of gs) /\ word_text t 2 = Ok (str "able") /\ byte (gt_mem t) (4 * (2 + 1) + 4) = Ok 2.
Proof.
  exists ex_file. destruct (load_glyphs (open_stream (file_text ex_file))) as [[t s]| | |] eqn:E; [|vm_compute in E; discriminate..].
  exists t, s. split; [apply C43_nonvacuous|]. split; [reflexivity|]. vm_compute in E. injection E as <- _. vm_compute. auto.
Qed.
Print Assumptions C45_nul_refuted.
(** The NUL of the greatest word is written after the block. *)
Theorem C45_overflow_refuted : forall gs w, good_file gs -> greatest (words_of gs) w -> vsize w mod 4 = 0 ->
  load_glyphs (open_stream (file_text gs)) = UB.
Proof. exact load_overflow. Qed.
Print Assumptions C45_overflow_refuted.
(** So loading is undefined exactly for these files. *)
Theorem C45_outcome : forall gs, good_file gs ->
  (load_glyphs (open_stream (file_text gs)) = UB <-> exists w, greatest (words_of gs) w /\ vsize w mod 4 = 0) /\
  (load_glyphs (open_stream (file_text gs)) <> UB -> exists t s, load_glyphs (open_stream (file_text gs)) = Ok (t, s)).
Proof. exact load_outcome. Qed.
Print Assumptions C45_outcome.
Example C45_nonvacuous : load_glyphs (open_stream (file_text [mkfg ex_head [mkfl (str "able") (str "f") []]])) = UB.
Proof. vm_compute. reflexivity. Qed.

(** C46: the lines given for a word are those of a text whose search finds the
    word, for all legal sorts; none are given when there is no such text. *)
Theorem C46_lines_partial : forall gs t s' sort ls, good_file gs -> load_glyphs (open_stream (file_text gs)) = Ok (t, s') ->
  is_std_sort wi_lt sort -> (forall s wl, In (s, wl) ls -> searchable (words_of gs) s) ->
  exists wid fid infos, holds gs t wid fid /\ words_infos sort t ls = Ok infos /\
    forall w, In w (words_of gs) -> exists r, infos_get infos (wid w) = Ok r /\
      match r with
      | Some wi => exists s, In (s, wi_lines wi) ls /\ designates (words_of gs) s w
      | None => forall s wl, In (s, wl) ls -> ~ designates (words_of gs) s w
      end.
Proof. exact lines_of_words. Qed.
Print Assumptions C46_lines_partial.
(** Full statement: "is the word" instead of "designates the word".  Refuted: the
    lines of "a" are given for "able". *)
Definition lines_for (ws : list string) (ls : list (list Z * word_lines)) (i : Z) : res (option word_infos) :=
  '(t, _) <- load_glyphs (open_stream (file_text [mkfg ex_head (map (fun w => mkfl (str w) (str "f") []) ws)])) ;;
  infos <- words_infos (isort wi_lt) t ls ;; infos_get infos i.
Theorem C46_prefix_refuted : lines_for ["able"; "be"]%string [(str "a", mkwl 1 2 3 4)] 0 = Ok (Some (mkwi 0 (mkwl 1 2 3 4))).
Proof. vm_compute. reflexivity. Qed.
Print Assumptions C46_prefix_refuted.
Example C46_nonvacuous :
  lines_for ["able"; "be"]%string [(str "zz", mkwl 1 1 1 1); (str "be", mkwl 1 2 3 4)] 2 = Ok (Some (mkwi 2 (mkwl 1 2 3 4))) /\
  lines_for ["able"; "be"]%string [(str "zz", mkwl 1 1 1 1); (str "be", mkwl 1 2 3 4)] 0 = Ok None.
Proof. split; vm_compute; reflexivity. Qed.

(** The exact result for lines of any texts. *)
Theorem C46_outcome : forall gs t s' ws sort ls, good_file gs -> load_glyphs (open_stream (file_text gs)) = Ok (t, s') -> ordered_words gs ws -> is_std_sort wi_lt sort ->
  exists wid fid, holds gs t wid fid /\
    ((exists s wl, In (s, wl) ls /\ scan_words s ws = Unreadable) /\ words_infos sort t ls = UB \/
     (forall s wl, In (s, wl) ls -> scan_words s ws <> Unreadable) /\ exists infos, words_infos sort t ls = Ok infos /\
       forall w, In w (words_of gs) -> exists r, infos_get infos (wid w) = Ok r /\
         match r with
         | Some wi => exists s, In (s, wi_lines wi) ls /\ scan_words s ws = Found w
         | None => forall s wl, In (s, wl) ls -> scan_words s ws <> Found w
         end).
Proof. exact lines_exact. Qed.
Print Assumptions C46_outcome.

(** The same for the table of a file of any bytes. *)
Theorem C46_any : forall text es b ws t s' sort ls, vsize text < 4294967296 -> glyphs_in text es b -> in_order (found es) ws -> load_glyphs (open_stream text) = Ok (t, s') -> is_std_sort wi_lt sort ->
  exists views wid fid, completed es = Some views /\ resolved_by (found es) views t wid fid /\
    ((exists s wl, In (s, wl) ls /\ scan_words s ws = Unreadable) /\ words_infos sort t ls = UB \/
     (forall s wl, In (s, wl) ls -> scan_words s ws <> Unreadable) /\ exists infos, words_infos sort t ls = Ok infos /\
       forall w, In w (map fst (found es)) -> exists r, infos_get infos (wid w) = Ok r /\
         match r with
         | Some wi => exists s, In (s, wi_lines wi) ls /\ scan_words s ws = Found w
         | None => forall s wl, In (s, wl) ls -> scan_words s ws <> Found w
         end).
Proof. exact lines_any. Qed.
Print Assumptions C46_any.
(** The lines of a word are kept when they are not read completely. *)
Theorem C46_failed : forall old s wl s', read_lines old s = (wl, s') -> is_ok s' = false -> wl = old.
Proof. exact lines_kept. Qed.
Print Assumptions C46_failed.

(** The lines read from a file: all those of at most 8 bytes, each number modulo 8. *)
Theorem C46_lines_file : forall ls, Forall good_fline ls ->
  exists s, read_words_lines (open_stream (flat_map fline_text ls)) =
    Ok (filter (fun p => vsize (fst p) <=? 8) (map fline_entry ls), s) /\ is_eof s = true.
Proof. exact words_lines_text. Qed.
Print Assumptions C46_lines_file.
