(** Properties C69 and C70: reading any image; features of other glyphs. *)
From Verif Require Import Base SortModel SortProofs ImageModel ImageSpec PnmModel BoxModel BoxSpec StratModel ZoneModel DatasModel DatasSpec UtfSpec StreamModel
  GlyphIoModel GlyphIoSpec DatasIoModel DictIoModel TrieModel TrieSpec SpellSpec IndexModel GlyphsModel GlyphsSpec FloatModel RecogModel RecogSpec RecogWitness
  FilterModel ExtractModel ExtractSpec AssembleModel AssembleSpec LearnModel LearnSpec PipelineModel PipelineSpec PipelineProofs2 PipelineProofs5 PropPipeline ReadSpec ReadProofs
  LinesSpec ReadingSpec ReadingProofs ReadingProofs2.

(** C69, full statement: with every glyph file and the features written from it, the
    program ends on every image, and prints a text made of words of glyphs that are
    near the pictures.  Proved when the pictures can be compared with the glyphs or
    resemble one of them, and the first character is neither the only lowest one nor
    the only one that starts the lowest; see below for the other images. *)
Theorem C69_read_partial : forall rt gs junk z cx0 datas cx bytes img boxes lines dict spell, legal rt -> trainable gs -> is_std_sort Z.ltb z ->
  write_datas_file junk z cx0 (write_glyphs gs) = Ok (Some datas) -> image_of_bytes bytes 128 = Ok img -> box_searchable img -> segment img = Ok boxes ->
  Forall (readable_box gs img) boxes -> steady_line boxes -> lines_file (labels gs) lines -> dict_spell (labels gs) dict spell ->
  exists cs, Forall2 (fun b c => forall im, char_image img b im -> named gs im c /\ (lines = None -> not_missed gs im c)) boxes cs /\
    let line := marked 0 boxes cs in
    extract_text rt cx (write_glyphs gs) datas bytes lines dict = Ok (text_of_line spell line, unknown_of_line line, vsize boxes).
Proof. exact read_any. Qed.
Print Assumptions C69_read_partial.

Definition picture (img : image) : list Z :=
  str "P6" ++ [10] ++ print_uint (iw img) ++ [32] ++ print_uint (ih img) ++ [10] ++ str "255" ++ [10] ++
  flat_map (fun p => if p =? 120 then [255; 255; 255] else [0; 0; 0]) (idata img).
Definition read_with (gs : list glyph) (img : image) : res (list Z * Z * Z) :=
  df <- write_datas_file (fun _ => 0) (isort Z.ltb) new_ctxs (write_glyphs gs) ;;
  match df with Some df => extract_text ex_rt new_ctxs (write_glyphs gs) df (picture img) None None | None => Throw ExIo end.

Definition ex_glyphs : list glyph := [mkglyph ex_bar [mkview (str "l") (str "f") 0]; mkglyph ex_dots [mkview (str ":") (str "f") 0]].
Definition ex_square : image := rows 3 ["xxx"; "xxx"; "xxx"]%string.
Definition ex_new : image := rows 9 ["-x-xxx-x-"; "-x-xxx---"; "-x-xxx-x-"]%string.
Definition ex_new_boxes : list box := [mkbox 1 0 1 3; mkbox 3 0 3 3; mkbox 7 0 1 3].

Lemma ex_new_pictures b im : In b ex_new_boxes -> char_image ex_new b im -> im = ex_bar \/ im = ex_square \/ im = ex_dots.
Proof.
  assert (T : forall j, 0 <= j < 3 -> j = 0 \/ j = 1 \/ j = 2) by (intros; lia).
  intros [<-|[<-|[<-|[]]]] Hi; [left|right; left|right; right]; refine (ExtractProofs.char_image_unique ex_new _ _ _ Hi _);
    (split; [repeat split; vm_compute; congruence|]; split; [reflexivity|]; split; [reflexivity|]; cbn [bw bh bx by_]; intros i j Hi' Hj;
     destruct (T j Hj) as [->|[->| ->]]; (destruct (T i ltac:(lia)) as [->|[->| ->]]; [reflexivity|try reflexivity; lia|try reflexivity; lia])).
Qed.
Lemma ex_apart : zones_apart ex_glyphs ex_square.
Proof.
  intros g a b x y _ (z & im90 & Hz & E90 & E) _ H. vm_compute in E90. injection E90 as <-. vm_compute in E. injection E as <-.
  assert (W : strict_weak Z.ltb []) by (split; [|split]; intros; contradiction).
  pose proof (proj1 (Hz [] W)) as P. apply Permutation.Permutation_nil in P. rewrite P in H. destruct b; destruct H.
Qed.
Lemma ex_trainable : trainable ex_glyphs.
Proof.
  split; [|split; [vm_compute; reflexivity|]].
  - intros g [<-|[<-|[]]]; (split; [|split; [repeat split; vm_compute; congruence|split; [discriminate|]]]).
    all: try (cbn; intuition discriminate).
    all: (split; [repeat split; vm_compute; congruence|split; [vm_compute; reflexivity|]]; constructor; [|constructor]; split; [apply ex_plain|split; [apply ex_plain|vm_compute; split; congruence]]).
  - split; [|split; [vm_compute; reflexivity|split; [vm_compute; reflexivity|]]].
    + intros w [<-|[<-|[]]]; (split; [intros c [<-|[]]; vm_compute; split; congruence|vm_compute; reflexivity]).
    + intros w ([<-|[<-|[]]] & _); vm_compute; discriminate.
Qed.
(** An unknown picture between two known ones. *)
Example C69_nonvacuous : legal ex_rt /\ trainable ex_glyphs /\ image_of_bytes (picture ex_new) 128 = Ok ex_new /\ box_searchable ex_new /\
  segment ex_new = Ok ex_new_boxes /\ Forall (readable_box ex_glyphs ex_new) ex_new_boxes /\ steady_line ex_new_boxes /\
  lines_file (labels ex_glyphs) None /\ dict_spell (labels ex_glyphs) None (fun _ => None) /\
  marked 0 ex_new_boxes [[str "l"]; []; [str ":"]] = [(false, [str "l"]); (false, []); (false, [str ":"])] /\
  read_with ex_glyphs ex_new = Ok (str "l?:", 1, 3).
Proof.
  split; [exact ex_legal|]. split; [exact ex_trainable|]. split; [vm_compute; reflexivity|]. split; [repeat split; vm_compute; congruence|].
  split; [vm_compute; reflexivity|]. split; [|split; [|split; [left; reflexivity|split; [left; split; reflexivity|split; vm_compute; reflexivity]]]].
  - apply Forall_forall. intros b Hb im Him. destruct (ex_new_pictures b im Hb Him) as [->|[->| ->]]; (split; [repeat split; vm_compute; congruence|]).
    + right. exists (mkglyph ex_bar [mkview (str "l") (str "f") 0]). split; [left; reflexivity|]. apply resembles_refl. repeat split; vm_compute; congruence.
    + left. exact ex_apart.
    + right. exists (mkglyph ex_dots [mkview (str ":") (str "f") 0]). split; [right; left; reflexivity|]. apply resembles_refl. repeat split; vm_compute; congruence.
  - split; (exists (mkbox 3 0 3 3); split; [left; reflexivity|vm_compute; congruence]).
Qed.

(** The same with the candidates of each character told exactly: those of C41 for the
    table of the glyphs, shared by equal pictures (C50), through the filter by lines (C49)
    and then the filter by fonts (C47). *)
Theorem C69_exact_partial : forall rt gs junk z cx0 datas cx bytes img boxes file ls dict spell, legal rt -> trainable gs -> is_std_sort Z.ltb z ->
  write_datas_file junk z cx0 (write_glyphs gs) = Ok (Some datas) -> image_of_bytes bytes 128 = Ok img -> box_searchable img -> segment img = Ok boxes ->
  Forall (readable_box gs img) boxes -> steady_line boxes -> lines_text (labels gs) file ls -> dict_spell (labels gs) dict spell ->
  exists cs, reading gs ls img boxes cs /\
    let line := marked 0 boxes cs in
    extract_text rt cx (write_glyphs gs) datas bytes file dict = Ok (text_of_line spell line, unknown_of_line line, vsize boxes).
Proof. exact read_exact. Qed.
Print Assumptions C69_exact_partial.
(** A bar is an "l" of font f or an "I" of font g, the two dots are of font g; and words
    with their lines: an "I" that would go below the base line is not one. *)
Definition ex_fonts (f : string) : list glyph :=
  [mkglyph ex_bar [mkview (str "l") (str "f") 0]; mkglyph ex_bar [mkview (str "I") (str "g") 0]; mkglyph ex_dots [mkview (str ":") (str f) 0]].
Definition read_lines (gs : list glyph) (ls : list fline) (img : image) : res (list Z * Z * Z) :=
  df <- write_datas_file (fun _ => 0) (isort Z.ltb) new_ctxs (write_glyphs gs) ;;
  match df with Some df => extract_text ex_rt new_ctxs (write_glyphs gs) df (picture img) (Some (flat_map fline_text ls)) None | None => Throw ExIo end.
Definition ex_dotted : image := rows 5 ["-x-x-"; "-x---"; "-x-x-"]%string.
Example C69_exact_nonvacuous :
  read_with (ex_fonts "f") ex_dotted = Ok (str "l:", 0, 2) /\ read_with (ex_fonts "g") ex_dotted = Ok (str "I:", 0, 2) /\
  read_lines (ex_fonts "g") [mkfline (str "I") 0 0 0 4] ex_dotted = Ok (str "l:", 0, 2) /\
  read_lines (ex_fonts "g") [mkfline (str "I") 0 0 0 2] ex_dotted = Ok (str "I:", 0, 2).
Proof. repeat split; vm_compute; reflexivity. Qed.

(** Every line of characters that are not too large: the program is undefined exactly when
    a picture is unreadable (the division of C41) or a side of a box is out of the buffer of
    the filter by lines (C49), and otherwise prints exactly the text of the candidates. *)
Theorem C69_outcome : forall rt gs junk z cx0 datas cx bytes img boxes file ls dict spell, legal rt -> trainable gs -> is_std_sort Z.ltb z ->
  write_datas_file junk z cx0 (write_glyphs gs) = Ok (Some datas) -> image_of_bytes bytes 128 = Ok img -> box_searchable img -> segment img = Ok boxes ->
  Forall (small_character img) boxes -> lines_text (labels gs) file ls -> dict_spell (labels gs) dict spell ->
  reading_outcome gs ls img boxes spell (extract_text rt cx (write_glyphs gs) datas bytes file dict).
Proof. exact read_outcome. Qed.
Print Assumptions C69_outcome.
Definition ex_dot : image := rows 3 ["---"; "-x-"; "---"]%string.
(** A line of one dot; then a dot after a bar, at the top and in the middle: only in the
    middle is the buffer long enough. *)
Example C69_outcome_nonvacuous : image_of_bytes (picture ex_dot) 128 = Ok ex_dot /\ box_searchable ex_dot /\ segment ex_dot = Ok [mkbox 1 1 1 1] /\
  Forall (small_character ex_dot) [mkbox 1 1 1 1] /\ lines_text (labels ex_glyphs) None [] /\ read_with ex_glyphs ex_dot = UB /\
  read_with ex_glyphs (rows 5 ["-x-x-"; "-x---"; "-x---"]%string) = UB /\ read_with ex_glyphs (rows 5 ["-x---"; "-x-x-"; "-x---"]%string) = Ok (str "l?", 1, 2).
Proof.
  split; [vm_compute; reflexivity|]. split; [repeat split; vm_compute; congruence|]. split; [vm_compute; reflexivity|]. split.
  { constructor; [|constructor]. intros im (W & Ew & Eh & _). cbn [bw bh] in Ew, Eh. split; [exact W|]. rewrite Ew, Eh. repeat split; lia. }
  split; [left; split; reflexivity|]. split; [vm_compute; reflexivity|]. split; vm_compute; reflexivity.
Qed.

(** Two glyphs of the same word, and a line whose characters are one pixel longer:
    the program divides by zero. *)
Definition column (l : list (Z * Z)) : image := let d := flat_map (fun '(c, n) => repeat c (Z.to_nat n)) l in mkimage 1 (vsize d) d.
Definition twice (im : image) : image := mkimage 7 (ih im) (flat_map (fun p => [45; p; 45; 45; 45; p; 45]) (idata im)).
Definition ex_i : image := column [(120, 10); (45, 1); (120, 10); (45, 200); (120, 20)].
Definition ex_longer : image := column [(120, 10); (45, 1); (120, 10); (45, 200); (120, 21)].
Definition ex_same_word : list glyph := [mkglyph ex_i [mkview (str "l") (str "f") 0]; mkglyph ex_i [mkview (str "l") (str "g") 0]].
Theorem C69_division_refuted : read_with ex_same_word (twice ex_i) = Ok (str "ll", 0, 2) /\ read_with ex_same_word (twice ex_longer) = UB.
Proof. split; vm_compute; reflexivity. Qed.
Print Assumptions C69_division_refuted.
(** A line of one dot: the program writes outside of its buffer. *)
Theorem C69_one_character_refuted : read_with ex_glyphs (rows 3 ["---"; "-x-"; "---"]%string) = UB.
Proof. vm_compute. reflexivity. Qed.
Print Assumptions C69_one_character_refuted.
(** A line of unknown characters: nothing is printed, and none is counted. *)
Theorem C69_unknown_refuted : read_with ex_glyphs (rows 9 ["-xxx-xxx-"; "-xxx-xxx-"; "-xxx-xxx-"]%string) = Ok ([], 0, 2).
Proof. vm_compute. reflexivity. Qed.
Print Assumptions C69_unknown_refuted.

(** C70, full statement: features that are not those of the glyphs are refused.
    Proved when they do not have the same number of rows. *)
Theorem C70_refused_partial : forall rt gs gs' junk z cx0 datas ws cx image lines dict, legal rt -> trainable gs -> trainable gs' -> is_std_sort Z.ltb z ->
  write_datas_file junk z cx0 (write_glyphs gs') = Ok (Some datas) -> dict_file ws dict -> List.length gs <> List.length gs' ->
  extract_text rt cx (write_glyphs gs) datas image lines dict = Throw ExBadLength.
Proof.
  intros rt gs gs' junk z cx0 datas ws cx image lines dict HL HT HT' Hz ED Hd Ne. unfold extract_text.
  rewrite (load_other rt gs gs' junk z cx0 datas ws lines dict HL HT HT' Hz ED Hd Ne). reflexivity.
Qed.
Print Assumptions C70_refused_partial.
(** Otherwise the pictures of the features are given the labels of the glyphs at the
    same places, and the program reads as with the files of these glyphs. *)
Theorem C70_exact : forall gs gs' junk z cx0 datas, trainable gs -> trainable gs' -> is_std_sort Z.ltb z ->
  write_datas_file junk z cx0 (write_glyphs gs') = Ok (Some datas) -> List.length gs = List.length gs' ->
  trainable (relabelled gs gs') /\ write_datas_file junk z cx0 (write_glyphs (relabelled gs gs')) = Ok (Some datas) /\
  forall rt cx image lines dict,
    extract_text rt cx (write_glyphs gs) datas image lines dict = extract_text rt cx (write_glyphs (relabelled gs gs')) datas image lines dict.
Proof. exact read_other. Qed.
Print Assumptions C70_exact.
Definition read_mixed (gs gs' : list glyph) (img : image) : res (list Z * Z * Z) :=
  df <- write_datas_file (fun _ => 0) (isort Z.ltb) new_ctxs (write_glyphs gs') ;;
  match df with Some df => extract_text ex_rt new_ctxs (write_glyphs gs) df (picture img) None None | None => Throw ExIo end.
(** The features of the same glyphs in another order are accepted, and the words
    are exchanged. *)
Theorem C70_order_refuted : read_mixed (rev ex_glyphs) ex_glyphs ex_line = Ok (str ":l", 0, 2) /\ read_mixed ex_glyphs ex_glyphs ex_line = Ok (str "l :", 0, 2).
Proof. split; vm_compute; reflexivity. Qed.
Print Assumptions C70_order_refuted.
Example C70_nonvacuous : trainable ex_glyphs /\ trainable (firstn 1 ex_glyphs) /\ read_mixed ex_glyphs (firstn 1 ex_glyphs) ex_line = Throw ExBadLength /\
  read_mixed (firstn 1 ex_glyphs) ex_glyphs ex_line = Throw ExBadLength.
Proof.
  split; [exact ex_trainable|]. split; [|split; vm_compute; reflexivity].
  destruct ex_trainable as (A & _ & (B & _)). split; [intros g [<-|[]]; apply A; left; reflexivity|]. split; [vm_compute; reflexivity|].
  split; [intros w [<-|[]]; apply B; left; reflexivity|]. split; [vm_compute; reflexivity|]. split; [vm_compute; reflexivity|].
  intros w ([<-|[]] & _). vm_compute. discriminate.
Qed.
