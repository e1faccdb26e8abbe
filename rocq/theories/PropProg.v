(** Property C96: the main functions of write_datas, normalize_glyphs and
    make_trie_dictionary. *)
From Verif Require Import Base SortModel SortProofs ImageModel ImageSpec StratModel ZoneModel DatasModel DatasSpec StreamModel GlyphIoModel GlyphIoSpec DatasIoModel DictIoModel TrieModel
  NormModel NormSpec RecogModel RecogSpec RecogWitness LearnModel LearnSpec LearnProofs3 ShowModel PropLearn ProgModel ProgSpec ProgProofs.

(** C96, in full: given files that are complete, each program prints its table and
    ends with 0; when a file is missing or is not complete it prints no table and ends
    with another code.  Proved for files that are missing and for files with something
    else than a number after the glyphs. *)
Theorem C96_write_datas_partial : forall junk zsort cx disk prog name gs, is_std_sort Z.ltb zsort -> Forall (fun g => recognisable (gl_img g)) gs ->
  Z.of_nat (List.length gs) < 18446744073709551616 ->
  (glyph_file (disk name) gs -> write_datas_main junk zsort cx disk [prog; name] = Ok (write_datas (feature_table zsort (map gl_img gs)), Exits 0)) /\
  (forall u, spoilt_file (disk name) gs u -> write_datas_main junk zsort cx disk [prog; name] = Ok ([91] ++ u ++ [93; 10], Exits 5)) /\
  (disk name = None -> write_datas_main junk zsort cx disk [prog; name] = Ok ([], Exits 2)).
Proof.
  intros junk zsort cx disk prog name gs Hz HR HB. split; [|split].
  - intros H. exact (write_datas_good junk zsort Hz cx disk prog name gs H HR HB).
  - intros u H. exact (write_datas_spoilt junk zsort Hz cx disk prog name gs u H HR HB).
  - exact (write_datas_missing junk zsort cx disk prog name).
Qed.
Print Assumptions C96_write_datas_partial.
(** For every file: the table that C65 describes, or what is left of the file. *)
Theorem C96_write_datas_file : forall junk zsort cx disk prog name bytes out, disk name = Some bytes -> write_datas_file junk zsort cx bytes = Ok out ->
  match out with
  | Some t => write_datas_main junk zsort cx disk [prog; name] = Ok (t, Exits 0)
  | None => exists t, t <> [] /\ write_datas_main junk zsort cx disk [prog; name] = Ok ([91] ++ t ++ [93; 10], Exits 5)
  end.
Proof. exact write_datas_table_main. Qed.
Print Assumptions C96_write_datas_file.
(** normalize_glyphs prints the glyphs of all the files, once each image, and stops at
    the first file that is missing or spoilt. *)
Theorem C96_normalize : forall sort sort_views disk prog names gss, names <> [] -> Forall2 (fun n gs => glyph_file (disk n) gs) names gss ->
  is_std_sort glyph_less sort -> is_std_sort view_less sort_views -> Z.of_nat (List.length (flat_map gl_views (List.concat gss))) < 4294967296 ->
  exists out, normalize_main sort sort_views disk (prog :: names) = Ok (write_glyphs out, Exits 0) /\ Forall storable out /\ increasing_images out /\
    (forall img, has_image out img <-> has_image (List.concat gss) img) /\ (forall img v, labelled out img v <-> labelled (List.concat gss) img v).
Proof. exact normalize_good. Qed.
Print Assumptions C96_normalize.
Theorem C96_normalize_stops : forall sort sort_views disk prog before n after gss, Forall2 (fun n gs => glyph_file (disk n) gs) before gss ->
  (disk n = None -> normalize_main sort sort_views disk (prog :: before ++ n :: after) = Ok ([], Exits 2)) /\
  (forall gs u, spoilt_file (disk n) gs u -> normalize_main sort sort_views disk (prog :: before ++ n :: after) = Ok ([], Exits 5)).
Proof.
  intros sort sort_views disk prog before n after gss F. split.
  - exact (normalize_missing sort sort_views disk prog before n after gss F).
  - intros gs u. exact (normalize_spoilt sort sort_views disk prog before n after gss gs u F).
Qed.
Print Assumptions C96_normalize_stops.
(** make_trie_dictionary prints the dictionary that C62 describes. *)
Theorem C96_dictionary : forall sort disk prog names out, names <> [] -> dictionary_of_files sort (map disk names) = Ok out ->
  dictionary_main sort disk (prog :: names) = Ok (out, Exits 0).
Proof. exact dictionary_runs. Qed.
Print Assumptions C96_dictionary.
(** Without any file that can be opened it ends with 0 too. *)
Theorem C96_dictionary_refuted : forall sort disk prog names, is_std_sort (list_ltb Z.ltb) sort -> names <> [] -> (forall n, In n names -> disk n = None) ->
  dictionary_main sort disk (prog :: names) = Ok ([], Exits 0).
Proof. exact dictionary_silent. Qed.
Print Assumptions C96_dictionary_refuted.
(** Arguments that are too few, or too many for write_datas. *)
Theorem C96_usage : (forall junk zsort cx disk prog args, List.length args <> 1%nat -> write_datas_main junk zsort cx disk (prog :: args) = Ok ([], Exits 1)) /\
  (forall sort sort_views disk prog, normalize_main sort sort_views disk [prog] = Ok ([], Exits 1)) /\ (forall sort disk prog, dictionary_main sort disk [prog] = Ok ([], Exits 1)).
Proof. exact programs_usage. Qed.
Print Assumptions C96_usage.

(** A file cut in the labels of its last glyph is taken as complete by write_datas,
    which has a row for this glyph, and by normalize_glyphs, which drops it. *)
Definition ex_cut : list Z := str "1 3 xxx" ++ [10] ++ str "1" ++ [10] ++ str "l".
Definition rows_of (m : res (list Z * ended)) : option (Z * ended) :=
  match m with
  | Ok (t, e) => match load_file (read_datas all_strategies) t with Ok cols => Some (datas_size cols, e) | _ => None end
  | _ => None
  end.
Theorem C96_cut_refuted : forall disk prog name, disk name = Some ex_cut ->
  strict_prefix ex_cut (write_glyphs [mkglyph ex_bar [mkview (str "l") (str "f") 0]]) /\
  rows_of (write_datas_main (fun _ => 0) (isort Z.ltb) new_ctxs disk [prog; name]) = Some (1, Exits 0) /\
  normalize_main (isort glyph_less) (isort view_less) disk [prog; name] = Ok ([], Exits 0).
Proof.
  intros disk prog name E. split; [exists 32, (str "f 0" ++ [10]); vm_compute; reflexivity|]. unfold write_datas_main, normalize_main, read_named_files. rewrite E. split; vm_compute; reflexivity.
Qed.
Print Assumptions C96_cut_refuted.

Definition ex_disk (n : list Z) : option (list Z) :=
  if list_eqb n (str "good") then Some (write_glyphs ex_learnt ++ [10; 32])
  else if list_eqb n (str "bad") then Some (write_glyphs ex_learnt ++ [32] ++ str "end 1") else None.
Example C96_nonvacuous : glyph_file (ex_disk (str "good")) ex_learnt /\ spoilt_file (ex_disk (str "bad")) ex_learnt (str "end 1") /\
  rows_of (write_datas_main (fun _ => 0) (isort Z.ltb) new_ctxs ex_disk [str "p"; str "good"]) = Some (2, Exits 0) /\
  write_datas_main (fun _ => 0) (isort Z.ltb) new_ctxs ex_disk [str "p"; str "bad"] = Ok (str "[end 1]" ++ [10], Exits 5) /\
  normalize_main (isort glyph_less) (isort view_less) ex_disk [str "p"; str "good"; str "good"] = Ok (write_glyphs (rev ex_learnt), Exits 0) /\
  normalize_main (isort glyph_less) (isort view_less) ex_disk [str "p"; str "good"; str "bad"; str "none"] = Ok ([], Exits 5) /\
  normalize_main (isort glyph_less) (isort view_less) ex_disk [str "p"; str "good"; str "none"; str "bad"] = Ok ([], Exits 2).
Proof.
  assert (S1 : Forall storable ex_learnt).
  { repeat constructor; try (vm_compute; congruence); try (intros; vm_compute in H; intuition lia). all: cbn; try lia. }
  split; [exists [10; 32]; split; [reflexivity|split; [exact S1|unfold blank; constructor; [lia|constructor; [lia|constructor]]]]|].
  split; [exists ([32] ++ str "end 1"); split; [reflexivity|split; [exact S1|exists [32], 101, (str "nd 1"); unfold blank; split; [reflexivity|split; [constructor; [lia|constructor]|split; [reflexivity|lia]]]]]|].
  repeat split; vm_compute; reflexivity.
Qed.
(** The sign of a number that does not follow is skipped, as the digits of a number
    that is too great. *)
Example C96_bracket : write_datas_main (fun _ => 0) (isort Z.ltb) new_ctxs (fun _ => Some (str "1 -x")) [str "p"; str "f"] = Ok (str "[x]" ++ [10], Exits 5) /\
  write_datas_main (fun _ => 0) (isort Z.ltb) new_ctxs (fun _ => Some (str "1 3 xxx" ++ [10] ++ str "99999999999 ")) [str "p"; str "f"] = Ok (str "[ ]" ++ [10], Exits 5).
Proof. split; vm_compute; reflexivity. Qed.
