(** Properties C62-C65: the learning programs. *)
From Verif Require Import Base SortModel SortProofs ImageModel ImageSpec BoxModel BoxSpec DatasModel DatasSpec UtfModel UtfSpec StreamModel
  GlyphIoModel GlyphIoSpec DatasIoModel DictIoModel DictIoSpec TrieModel TrieSpec NormModel NormSpec RecogModel RecogSpec RecogWitness
  ExtractSpec LearnModel LearnSpec LearnProofs LearnProofs2 LearnProofs3 LearnProofs4 DecodeSpec DecodeProofs2.

(** C62, in full: the dictionary made from word files contains the lines of all of
    them.  Proved for the first file that can be opened, without empty line. *)
Theorem C62_dictionary_partial : forall sort before text ls after, is_std_sort (list_ltb Z.ltb) sort ->
  (forall f, In f before -> f = None) -> text_lines text ls -> Forall well_formed ls -> ~ In [] ls -> letters ls < 4294967296 ->
  exists out nodes, dictionary_of_files sort (before ++ Some text :: after) = Ok out /\ load_file read_dict out = Ok nodes /\ links_inside nodes /\
    forall w, well_formed w -> exists codes b, utf8_codes w = Ok codes /\ contains nodes codes = Ok b /\ (b = true <-> In w ls).
Proof. exact dictionary_file. Qed.
Print Assumptions C62_dictionary_partial.
(** The files after the first that can be opened are not read. *)
Theorem C62_files_refuted : forall sort text files, dictionary_of_files sort (Some text :: files) = dictionary_of_files sort [Some text].
Proof. exact dictionary_first. Qed.
Print Assumptions C62_files_refuted.
(** Without any file that can be opened, the dictionary is that of an empty one. *)
Theorem C62_no_file : forall sort files, (forall f, In f files -> f = None) -> dictionary_of_files sort files = dictionary_of_files sort [Some []].
Proof. exact dictionary_none. Qed.
Print Assumptions C62_no_file.
(** An empty line is read outside of the word. *)
Theorem C62_empty_line_refuted : forall sort before text ls after, is_std_sort (list_ltb Z.ltb) sort -> (forall f, In f before -> f = None) ->
  text_lines text ls -> Forall well_formed ls -> In [] ls -> dictionary_of_files sort (before ++ Some text :: after) = UB.
Proof. exact dictionary_blank. Qed.
Print Assumptions C62_empty_line_refuted.
(** Every file has lines. *)
Theorem C62_lines : forall text, exists ls, text_lines text ls.
Proof. exact text_lines_total. Qed.
Print Assumptions C62_lines.
(** Whatever the bytes of the first file that can be opened: undefined exactly when
    a line is cut inside a character or has no character (C30_outcome); otherwise the
    file that is written is loaded back as a dictionary of the characters of the
    lines. *)
Theorem C62_outcome : forall sort before text ls after, is_std_sort (list_ltb Z.ltb) sort -> (forall f, In f before -> f = None) ->
  text_lines text ls -> octets text -> vsize text < 4294967296 ->
  (Exists unusable ls /\ dictionary_of_files sort (before ++ Some text :: after) = UB) \/
  exists gss out nodes, Forall2 characters ls gss /\ ~ In [] gss /\ dictionary_of_files sort (before ++ Some text :: after) = Ok out /\
    load_file read_dict out = Ok nodes /\ links_inside nodes /\
    forall codes, exists b, contains nodes codes = Ok b /\ (b = true <-> In codes (map values gss)).
Proof. exact dictionary_file_outcome. Qed.
Print Assumptions C62_outcome.

Definition wsort := isort (list_ltb Z.ltb).
Definition has_word (m : res (list Z)) (w : list Z) : option bool :=
  match m with
  | Ok out =>
    match load_file read_dict out, utf8_codes w with
    | Ok nodes, Ok codes => match contains nodes codes with Ok b => Some b | _ => None end
    | _, _ => None
    end
  | _ => None
  end.
Example C62_nonvacuous :
  text_lines (str "ab" ++ [10] ++ str "c" ++ [10]) [str "ab"; str "c"] /\ text_lines (str "ab" ++ [10] ++ str "c") [str "ab"; str "c"] /\
  has_word (dictionary_of_files wsort [None; Some (str "ab" ++ [10] ++ str "c"); Some (str "d")]) (str "ab") = Some true /\
  has_word (dictionary_of_files wsort [None; Some (str "ab" ++ [10] ++ str "c"); Some (str "d")]) (str "c") = Some true /\
  has_word (dictionary_of_files wsort [None; Some (str "ab" ++ [10] ++ str "c"); Some (str "d")]) (str "d") = Some false /\
  dictionary_of_files wsort [Some (str "ab" ++ [10; 10] ++ str "c")] = UB.
Proof.
  split. { exists [str "ab"; str "c"], []. split; [reflexivity|]. split; [|reflexivity]. intros l [<-|[<-|[<-|[]]]] H; cbn in H; intuition discriminate. }
  split. { exists [str "ab"], (str "c"). split; [reflexivity|]. split; [|reflexivity]. intros l [<-|[<-|[]]] H; cbn in H; intuition discriminate. }
  repeat split; vm_compute; reflexivity.
Qed.

(** C63: every box of the line gets the word of the same rank; the glyph holds
    exactly the pixels of the box.  The program succeeds when there are as many
    boxes as words. *)
Theorem C63_learn : forall img text font boxes ws, box_searchable img -> segment img = Ok boxes -> text_words text ws ->
  exists gs, glyphs_for img font boxes ws gs /\ learn_image img text font = Ok (write_glyphs gs, learning_end boxes ws).
Proof. exact learn_image_ok. Qed.
Print Assumptions C63_learn.
Theorem C63_learn_all : forall l out,
  Forall (fun '(img, text, font) => box_searchable img /\ exists boxes ws, segment img = Ok boxes /\ text_words text ws /\ List.length boxes = List.length ws) l ->
  exists gss, Forall2 (fun '(img, text, font) gs => exists boxes ws, segment img = Ok boxes /\ text_words text ws /\ List.length boxes = List.length ws /\
      glyphs_for img font boxes ws gs) l gss /\
    learn_images l out = Ok (out ++ write_glyphs (List.concat gss), Learnt).
Proof. exact learn_images_ok. Qed.
Print Assumptions C63_learn_all.
(** What is learnt can be read back. *)
Theorem C63_learnt_readable : forall img font boxes ws gs, plain_text font -> Forall plain_text ws -> glyphs_for img font boxes ws gs -> Forall storable gs.
Proof. exact learnt_storable. Qed.
Print Assumptions C63_learnt_readable.
Theorem C63_words : forall text, exists ws, text_words text ws.
Proof. exact text_words_total. Qed.
Print Assumptions C63_words.

(** Two characters: a bar, and two dots one above the other. *)
Definition ex_picture : image := mkimage 6 3 (str "-x--x-" ++ str "-x----" ++ str "-x--x-").
Definition ex_bar : image := mkimage 1 3 (str "xxx").
Definition ex_dots : image := mkimage 1 3 (str "x-x").
Definition ex_learnt : list glyph := [mkglyph ex_bar [mkview (str "l") (str "f") 4294967295]; mkglyph ex_dots [mkview (str ":") (str "f") 4294967295]].
Example C63_nonvacuous :
  box_searchable ex_picture /\ segment ex_picture = Ok [mkbox 1 0 1 3; mkbox 4 0 1 3] /\
  learn_image ex_picture (str "l :") (str "f") = Ok (write_glyphs ex_learnt, Learnt) /\
  learn_image ex_picture (str " l ") (str "f") = Ok (write_glyphs [mkglyph ex_bar [mkview (str "l") (str "f") 4294967295]], NoDefinition) /\
  learn_image ex_picture (str "l : a") (str "f") = Ok (write_glyphs ex_learnt, NoBox) /\
  glyphs_for ex_picture (str "f") [mkbox 1 0 1 3; mkbox 4 0 1 3] [str "l"; str ":"] ex_learnt.
Proof.
  split; [repeat split; vm_compute; congruence|]. do 4 (split; [vm_compute; reflexivity|]).
  assert (P : forall im b, im = ex_bar \/ im = ex_dots -> b = mkbox 1 0 1 3 \/ b = mkbox 4 0 1 3 -> (im = ex_bar <-> b = mkbox 1 0 1 3) -> char_image ex_picture b im).
  { intros im b [-> | ->] [-> | ->] [A B]; try (specialize (A eq_refl); discriminate); try (specialize (B eq_refl); discriminate);
      (split; [repeat split; vm_compute; congruence|]; split; [reflexivity|]; split; [reflexivity|]; cbn [bw bh bx by_];
       intros i j Hi Hj; assert (i = 0) by lia; subst i; assert (J : j = 0 \/ j = 1 \/ j = 2) by lia; destruct J as [->|[->| ->]]; reflexivity). }
  unfold ex_learnt. apply gf_next; [split; [apply P; [left; reflexivity|left; reflexivity|split; reflexivity]|reflexivity]|].
  apply gf_next; [split; [apply P; [right; reflexivity|right; reflexivity|split; discriminate]|reflexivity]|]. constructor.
Qed.

(** C64: normalize_glyphs on files: what it prints can be read, its images are in
    strictly increasing order, and its images and labels are those of the files, and
    not more numerous. *)
Theorem C64_normalize_files : forall sort sort_views gss, is_std_sort glyph_less sort -> is_std_sort view_less sort_views ->
  Forall (Forall storable) gss -> Z.of_nat (List.length (flat_map gl_views (List.concat gss))) < 4294967296 ->
  exists bytes out, normalize_files sort sort_views (map write_glyphs gss) = Ok (Some bytes) /\ load_file read_glyphs bytes = Ok out /\
    Forall storable out /\ increasing_images out /\ (forall img, has_image out img <-> has_image (List.concat gss) img) /\
    (forall img v, labelled out img v <-> labelled (List.concat gss) img v) /\ bytes = write_glyphs out /\
    (List.length out <= List.length (List.concat gss))%nat /\ (List.length (flat_map gl_views out) <= List.length (flat_map gl_views (List.concat gss)))%nat.
Proof. exact normalize_files_ok. Qed.
Print Assumptions C64_normalize_files.
Example C64_nonvacuous :
  Forall (Forall storable) [ex_learnt; ex_learnt] /\
  normalize_files (isort glyph_less) (isort view_less) (map write_glyphs [ex_learnt; ex_learnt]) = Ok (Some (write_glyphs (rev ex_learnt))).
Proof.
  split; [|vm_compute; reflexivity].
  assert (H : Forall storable ex_learnt); [|repeat (apply Forall_cons; [exact H|]); apply Forall_nil].
  assert (P : forall c, c = 58 \/ c = 102 \/ c = 108 -> plain_text [c]) by (intros c Hc; split; [discriminate|]; intros d [<-|[]]; lia).
  assert (Pl : Forall (fun w => plain_text w) [str "l"; str ":"; str "f"]).
  { apply Forall_cons; [apply (P 108); lia|]. apply Forall_cons; [apply (P 58); lia|]. apply Forall_cons; [apply (P 102); lia|apply Forall_nil]. }
  exact (learnt_storable ex_picture (str "f") _ [str "l"; str ":"] ex_learnt (P 102 ltac:(lia)) (Forall_cons _ (P 108 ltac:(lia)) (Forall_cons _ (P 58 ltac:(lia)) (Forall_nil _))) (proj2 (proj2 (proj2 (proj2 (proj2 C63_nonvacuous)))))).
Qed.

(** C65: write_datas on a glyph file: the table it prints can be read, and row i
    holds the features of the image of glyph i. *)
Theorem C65_feature_rows : forall junk zsort cx gs, is_std_sort Z.ltb zsort -> Forall storable gs -> Forall (fun g => recognisable (gl_img g)) gs ->
  Z.of_nat (List.length gs) < 18446744073709551616 ->
  exists bytes cols, write_datas_file junk zsort cx (write_glyphs gs) = Ok (Some bytes) /\ load_file (read_datas all_strategies) bytes = Ok cols /\
    List.length cols = List.length all_strategies /\
    forall s col, In (s, col) (combine all_strategies cols) -> List.length col = List.length gs /\
      forall i g img90, nth_error gs i = Some g -> rotate90 (gl_img g) = Ok img90 ->
        exists v, nth_error col i = Some v /\ feature_alone zsort s (gl_img g) img90 = Ok v.
Proof. exact write_datas_features. Qed.
Print Assumptions C65_feature_rows.
Example C65_nonvacuous :
  Forall (fun g => recognisable (gl_img g)) ex_learnt /\
  match write_datas_file (fun _ => 7) (isort Z.ltb) new_ctxs (write_glyphs ex_learnt) with
  | Ok (Some b) =>
    match load_file (read_datas all_strategies) b with
    | Ok cols => map (fun c => List.length c) cols = repeat 2%nat (List.length all_strategies)
    | _ => False
    end
  | _ => False
  end.
Proof.
  split; [|vm_compute; reflexivity].
  repeat (apply Forall_cons; [repeat split; vm_compute; congruence|]); apply Forall_nil.
Qed.
