(** Property C67: learning, then reading. *)
From Verif Require Import Base SortModel SortProofs ImageModel ImageSpec PnmModel BoxModel BoxSpec StratModel ZoneModel DatasModel DatasSpec UtfSpec StreamModel
  GlyphIoModel GlyphIoSpec DatasIoModel DictIoModel TrieModel TrieSpec SpellSpec IndexModel GlyphsModel GlyphsSpec FloatModel RecogModel RecogSpec RecogWitness
  FilterModel ExtractModel ExtractSpec AssembleModel AssembleSpec NormModel NormSpec LearnModel LearnSpec LearnProofs4 PipelineModel PipelineSpec PipelineProofs2 PipelineProofs4 PipelineProofs5.

(** C67, full statement: whatever the lessons, the glyphs and features written from
    them make the program print the text of every line whose characters are those
    of the lessons.  Proved when the words can be loaded (C43, C45), the pictures
    that resemble each other have the same word, the first character is not the
    only lowest one (C49) and no break follows marks at the beginning (C51); the
    last three conditions are needed, see below. *)
Theorem C67_lessons_partial : forall ls sort sort_views junk z cx0, teachable ls -> unambiguous ls ->
  is_std_sort glyph_less sort -> is_std_sort view_less sort_views -> is_std_sort Z.ltb z ->
  exists gf nf df, learn_images (map arguments ls) [] = Ok (gf, Learnt) /\ normalize_files sort sort_views [gf] = Ok (Some nf) /\
    write_datas_file junk z cx0 nf = Ok (Some df) /\
    forall l rt cx bytes lines dict, In l ls -> legal rt -> image_of_bytes bytes 128 = Ok (le_img l) ->
      steady (le_boxes l) -> no_lost_break (spoken 0 (le_boxes l) (le_words l)) ->
      lines_file (flat_map le_words ls) lines -> dict_file (le_words l) dict ->
      extract_text rt cx nf df bytes lines dict = Ok (line_text (le_boxes l) (le_words l), 0, vsize (le_boxes l)).
Proof. exact read_lesson. Qed.
Print Assumptions C67_lessons_partial.
(** The same for all images whose characters resemble those of the lessons, with
    normalize_glyphs and without. *)
Theorem C67_learn_and_read_partial : forall ls sort sort_views junk z cx0, teachable ls ->
  is_std_sort glyph_less sort -> is_std_sort view_less sort_views -> is_std_sort Z.ltb z ->
  exists gf nf df, learn_images (map arguments ls) [] = Ok (gf, Learnt) /\ normalize_files sort sort_views [gf] = Ok (Some nf) /\
    write_datas_file junk z cx0 nf = Ok (Some df) /\ reads_learnt ls nf df.
Proof. exact learn_and_read. Qed.
Print Assumptions C67_learn_and_read_partial.
Theorem C67_not_normalized_partial : forall ls junk z cx0, teachable ls -> is_std_sort Z.ltb z ->
  exists gf df, learn_images (map arguments ls) [] = Ok (gf, Learnt) /\ write_datas_file junk z cx0 gf = Ok (Some df) /\ reads_learnt ls gf df.
Proof. exact learn_and_read_raw. Qed.
Print Assumptions C67_not_normalized_partial.
(** The same for all glyph files. *)
Theorem C67_read_partial : forall rt gs junk z cx0 datas cx bytes img boxes ws lines dict, legal rt -> trainable gs -> is_std_sort Z.ltb z ->
  write_datas_file junk z cx0 (write_glyphs gs) = Ok (Some datas) -> image_of_bytes bytes 128 = Ok img -> box_searchable img -> segment img = Ok boxes ->
  Forall2 (word_taught gs img) boxes ws -> steady boxes -> no_lost_break (spoken 0 boxes ws) -> lines_file (labels gs) lines -> dict_file ws dict ->
  extract_text rt cx (write_glyphs gs) datas bytes lines dict = Ok (line_text boxes ws, 0, vsize boxes).
Proof. exact read_taught. Qed.
Print Assumptions C67_read_partial.
(** Images that are loaded have two colours. *)
Theorem C67_two_colours : forall buf lum img c, image_of_bytes buf lum = Ok img -> In c (idata img) -> c = 45 \/ c = 120.
Proof. intros buf lum img c E. exact (loaded_two buf lum img E c). Qed.
Print Assumptions C67_two_colours.

(** The programs, one after the other, with insertion sorts. *)
Definition ex_rt : runtime := mkrt (fun data => isort (index_lt data)) (fun views => isort (ref_lt views)) (isort wi_lt)
  (fun ids => isort (lt_by_views ids)) (isort gt_prob) (isort Z.ltb) (fun _ _ => 0).
Lemma ex_legal : legal ex_rt.
Proof.
  do 2 (split; [intros; apply isort_is_sort|]). split; [apply isort_is_sort|]. split; [intros; apply isort_is_sort|]. split; apply isort_is_sort.
Qed.
Definition whole (img : image) (text : list Z) : res (list Z * Z * Z) :=
  let bytes := str "P6" ++ [10] ++ print_uint (iw img) ++ [32] ++ print_uint (ih img) ++ [10] ++ str "255" ++ [10] ++
    flat_map (fun p => if p =? 120 then [255; 255; 255] else [0; 0; 0]) (idata img) in
  img <- image_of_bytes bytes 128 ;;
  '(gf, e) <- learn_image img text (str "f") ;;
  match e with
  | Learnt =>
    nf <- normalize_files (isort glyph_less) (isort view_less) [gf] ;;
    match nf with
    | Some nf =>
      df <- write_datas_file (fun _ => 0) (isort Z.ltb) new_ctxs nf ;;
      match df with Some df => extract_text ex_rt new_ctxs nf df bytes None None | None => Throw ExIo end
    | None => Throw ExIo
    end
  | _ => Throw ExIo
  end.
Definition rows (w : Z) (l : list string) : image := mkimage w (vsize l) (flat_map str l).
Definition ex_boxes : list box := [mkbox 1 0 1 3; mkbox 7 0 1 3].
Definition ex_line : image := rows 9 ["-x-----x-"; "-x-------"; "-x-----x-"]%string.
Definition ex_lesson : lesson := mklesson ex_line (str "l :") (str "f") ex_boxes [str "l"; str ":"].
Definition ex_bar : image := rows 1 ["x"; "x"; "x"]%string.
Definition ex_dots : image := rows 1 ["x"; "-"; "x"]%string.

Lemma ex_pictures b w im : In (b, w) (combine ex_boxes [str "l"; str ":"]) -> char_image ex_line b im -> (w = str "l" /\ im = ex_bar) \/ (w = str ":" /\ im = ex_dots).
Proof.
  intros Hb Hi. cbn in Hb. destruct Hb as [E|[E|[]]]; injection E as <- <-; [left|right]; (split; [reflexivity|]); refine (ExtractProofs.char_image_unique ex_line _ _ _ Hi _);
    (split; [repeat split; vm_compute; congruence|]; split; [reflexivity|]; split; [reflexivity|]; cbn [bw bh bx by_];
     intros i j Hi' Hj; assert (i = 0) by lia; subst i; assert (J : j = 0 \/ j = 1 \/ j = 2) by lia; destruct J as [->|[->| ->]]; reflexivity).
Qed.
Lemma ex_different : ~ resembles ex_bar ex_dots /\ ~ resembles ex_dots ex_bar.
Proof.
  assert (V : forall im x, (im = ex_bar /\ x = 100) \/ (im = ex_dots /\ x = 66) -> simple_value im (mkst Density false) x).
  { intros im x [(-> & ->)|(-> & ->)]; eexists; split; vm_compute; reflexivity. }
  assert (I : In (mkst Density false) simple_strategies) by (vm_compute; tauto).
  split; intros H; [specialize (H _ 100 66 I)|specialize (H _ 66 100 I)]; cbn in H; specialize (H ltac:(apply V; auto) ltac:(apply V; auto)); vm_compute in H; discriminate.
Qed.
Lemma ex_plain : plain_text (str "l") /\ plain_text (str ":") /\ plain_text (str "f").
Proof. assert (P : forall c, 33 <= c -> plain_text [c]) by (intros c Hc; split; [discriminate|]; intros d [<-|[]]; lia). split; [apply (P 108); lia|split; [apply (P 58); lia|apply (P 102); lia]]. Qed.
Lemma ex_words : text_words (str "l :") [str "l"; str ":"].
Proof.
  destruct ex_plain as (A & B & _). apply (tw_next [] (str "l") 32 (str ":")); [intros c []|exact A|reflexivity|].
  apply (tw_last [32] (str ":")); [intros c [<-|[]]; reflexivity|exact B].
Qed.
Example C67_nonvacuous :
  teachable [ex_lesson] /\ unambiguous [ex_lesson] /\ legal ex_rt /\ steady ex_boxes /\ no_lost_break (spoken 0 ex_boxes [str "l"; str ":"]) /\
  line_text ex_boxes [str "l"; str ":"] = str "l :" /\ whole ex_line (str "l :") = Ok (str "l :", 0, 2).
Proof.
  split; [|split; [|split; [exact ex_legal|split; [exists (mkbox 7 0 1 3); split; [left; reflexivity|vm_compute; congruence]|split; [left; reflexivity|split; vm_compute; reflexivity]]]]].
  - split.
    + constructor; [|constructor]. split; [|split; [repeat split; vm_compute; congruence|split; [vm_compute; reflexivity|split; [exact ex_words|split; [apply ex_plain|split; [reflexivity|]]]]]].
      { exists (str "P4" ++ [10] ++ str "9 3" ++ [10] ++ [190; 128; 191; 128; 190; 128]), 128. vm_compute. reflexivity. }
      assert (R : recognisable ex_bar /\ recognisable ex_dots) by (split; repeat split; vm_compute; congruence).
      constructor; [|constructor; [|constructor]]; intros im Him.
      * destruct (ex_pictures (mkbox 1 0 1 3) (str "l") im (or_introl eq_refl) Him) as [(_ & ->)|(_ & ->)]; apply R.
      * destruct (ex_pictures (mkbox 7 0 1 3) (str ":") im (or_intror (or_introl eq_refl)) Him) as [(_ & ->)|(_ & ->)]; apply R.
    + cbn [flat_map le_words ex_lesson app]. split; [|split; [vm_compute; reflexivity|split; [vm_compute; reflexivity|]]].
      * intros w [<-|[<-|[]]]; (split; [intros c [<-|[]]; vm_compute; split; congruence|vm_compute; reflexivity]).
      * intros w ([<-|[<-|[]]] & _); vm_compute; discriminate.
  - intros im w im' w' (l & b & [<-|[]] & Hb & Hc) (l' & b' & [<-|[]] & Hb' & Hc') R. cbn [ex_lesson le_boxes le_words le_img] in *.
    destruct (ex_pictures b w im Hb Hc) as [(-> & ->)|(-> & ->)], (ex_pictures b' w' im' Hb' Hc') as [(-> & ->)|(-> & ->)]; try reflexivity;
      exfalso; [apply (proj1 ex_different)|apply (proj2 ex_different)]; exact R.
Qed.

(** Two pictures that resemble each other, one being the other upside down: the
    line that was learnt is read with a wrong word. *)
Theorem C67_upside_down_refuted : whole (rows 9 ["-x----x--"; "-xx-xx---"; "x----x---"]%string) (str "a b") = Ok (str "aa", 0, 2).
Proof. vm_compute. reflexivity. Qed.
Print Assumptions C67_upside_down_refuted.
(** The first character is the lowest one: the line that was learnt makes the
    program write outside of its buffer. *)
Theorem C67_lowest_first_refuted : whole (rows 6 ["-x--x-"; "-x----"; "-x--x-"; "-x----"]%string) (str "g o") = UB.
Proof. vm_compute. reflexivity. Qed.
Print Assumptions C67_lowest_first_refuted.
(** A break after a mark at the beginning is lost. *)
Theorem C67_lost_break_refuted : whole ex_line (str "- l") = Ok (str "-l", 0, 2) /\ line_text ex_boxes [str "-"; str "l"] = str "- l".
Proof. split; vm_compute; reflexivity. Qed.
Print Assumptions C67_lost_break_refuted.
