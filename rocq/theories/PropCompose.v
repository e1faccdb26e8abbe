(** Property C111: pictures side by side. *)
From Verif Require Import Base SortModel SortProofs RecogSpec NormModel AssembleSpec ImageModel ImageSpec PnmModel BoxModel BoxSpec StratModel ZoneModel DatasModel StreamModel GlyphIoModel DatasIoModel
  DictIoModel TrieModel IndexModel GlyphsModel FloatModel RecogModel RecogWitness FilterModel ExtractModel ExtractSpec AssembleModel LearnModel LearnSpec ShowModel PipelineModel PipelineSpec
  PipelineProofs2 ReadSpec Ocr6Model Ocr6Spec Ocr8Model Ocr8Spec PropPipeline PropRead PropOcr6 PropOcr8 MarginSpec ComposeSpec ComposeProofs ComposeProofs2 ComposeProofs3.

(** C111, full statement: a picture made of pictures side by side has the characters of
    these pictures, is learnt as they are, and is read as they are.  The characters: *)
Theorem C111_characters : forall c parts ls, composed c parts -> box_searchable c -> Forall (fun p => box_searchable (snd p)) parts ->
  Forall2 segmented parts ls -> segment c = Ok (placed parts ls) /\
  forall imss, Forall2 (fun '(p, l) ims => Forall2 (char_image (snd p)) l ims) (combine parts ls) imss -> Forall2 (char_image c) (placed parts ls) (List.concat imss).
Proof. intros c parts ls F Sc Sp H. exact (conj (composed_segment c parts F Sc Sp ls H) (fun imss => composed_chars c parts F Sp ls imss H)). Qed.
Print Assumptions C111_characters.
(** write_glyphs: with the texts of the parts one after the other, it prints what it prints
    for them; and so does show_glyphs. *)
Theorem C111_learnt : forall c parts font tos, composed c parts -> box_searchable c -> Forall (fun p => box_searchable (snd p)) parts ->
  Forall2 (fun p to => learn_image (snd p) (fst to) font = Ok (snd to, Learnt)) parts tos ->
  learn_image c (in_turn (map fst tos)) font = Ok (List.concat (map snd tos), Learnt).
Proof. exact composed_learn. Qed.
Print Assumptions C111_learnt.
Theorem C111_shown : forall c parts outs, composed c parts -> box_searchable c -> Forall (fun p => box_searchable (snd p)) parts ->
  Forall2 (fun p o => show_characters (snd p) = Ok o) parts outs -> show_characters c = Ok (List.concat outs).
Proof. exact composed_show. Qed.
Print Assumptions C111_shown.
(** ocr2_extract_text: before the filters, the characters have the candidates they have in
    the parts. *)
Theorem C111_candidates : forall e c parts ss, sound_recogniser e -> composed c parts -> box_searchable c -> Forall (fun p => box_searchable (snd p)) parts ->
  Forall2 (fun p s => (exists cx, read_line e (snd p) cx = Ok s) /\ forall l, segment (snd p) = Ok l -> Forall (small_character (snd p)) l) parts ss ->
  forall cx, exists s, read_line e c cx = Ok s /\ l_boxes s = placed parts (map l_boxes ss) /\ candidates_of s = List.concat (map candidates_of ss).
Proof. exact composed_candidates. Qed.
Print Assumptions C111_candidates.
(** extract_text6 and extract_text8: the words of the first two results are those of the
    parts.  The text is theirs, with blanks between, if there are four columns or more
    between the parts, all their words are known, and none begins with a mark. *)
Theorem C111_read6_partial : forall rt gs junk z cx0 datas dict spell y c parts qs, legal6 rt -> trainable6 gs -> is_std_sort Z.ltb z ->
  write_datas_file junk z cx0 (write_glyphs gs) = Ok (Some datas) -> dict_spell (labels gs) dict spell -> image_of_bytes y 128 = Ok c -> box_searchable c -> composed c parts ->
  let program x := extract_text6 rt (write_glyphs gs) datas x dict in
  Forall2 (part_result program) parts qs -> joined_result program y parts (map snd qs).
Proof. exact extract6_joined. Qed.
Print Assumptions C111_read6_partial.
Theorem C111_read8_partial : forall rt gs junk z cx0 datas nodes e y c parts qs, legal8 rt -> trainable6 gs -> is_std_sort Z.ltb z ->
  write_datas_file junk z cx0 (write_glyphs gs) = Ok (Some datas) -> load_all8 rt (write_glyphs gs) datas None = Ok (nodes, e) -> image_of_bytes y 128 = Ok c -> box_searchable c -> composed c parts ->
  let program x := extract_text8 rt (write_glyphs gs) datas x None in
  Forall2 (part_result program) parts qs -> joined_result program y parts (map snd qs).
Proof. exact extract8_joined. Qed.
Print Assumptions C111_read8_partial.

(** Two "o", the second one lower, in a picture. *)
Definition ex_ring : image := rows 5 ["-xxx-"; "-x-x-"; "-xxx-"]%string.
Definition ex_rings : image := rows 14 ["-xxx----------"; "-x-x------xxx-"; "-xxx------x-x-"; "----------xxx-"]%string.
Definition ex_parts : list part := [(0, 0, ex_ring); (9, 1, ex_ring)].
Definition ex_ohs : list glyph := [g6 "o" ex_o].
Definition ex_features : list Z := match features_of ex_ohs with Ok d => d | _ => [] end.
Example C111_nonvacuous : composed ex_rings ex_parts /\ apart ex_parts /\ box_searchable ex_rings /\ Forall2 segmented ex_parts [[mkbox 1 0 3 3]; [mkbox 1 0 3 3]] /\
  placed ex_parts [[mkbox 1 0 3 3]; [mkbox 1 0 3 3]] = [mkbox 1 0 3 3; mkbox 10 1 3 3] /\
  trainable6 ex_ohs /\ write_datas_file (fun _ => 0) (isort Z.ltb) new_ctxs (write_glyphs ex_ohs) = Ok (Some ex_features) /\ begins_well (str "o ") /\
  Forall2 (part_result (fun x => extract_text6 ex_rt6 (write_glyphs ex_ohs) ex_features x None)) ex_parts
    [(picture ex_ring, (str "o ", str "o ", str "o")); (picture ex_ring, (str "o ", str "o ", str "o"))] /\
  extract_text6 ex_rt6 (write_glyphs ex_ohs) ex_features (picture ex_rings) None = Ok (str "o o ", str "o o ", str "o o") /\
  read8_with ex_ohs ex_rings = Ok (str "o o ", str "o o ", str "o o") /\
  learn_image ex_rings (str "a b") (str "f") = Ok (write_glyph (mkglyph ex_o [mkview (str "a") (str "f") 4294967295]) ++ write_glyph (mkglyph ex_o [mkview (str "b") (str "f") 4294967295]), Learnt).
Proof.
  split; [apply composed_checked; vm_compute; reflexivity|]. split; [constructor; [vm_compute; congruence|constructor]|]. split; [repeat split; vm_compute; congruence|].
  split; [repeat constructor; vm_compute; reflexivity|]. split; [reflexivity|].
  split.
  { split; [|vm_compute; reflexivity]. intros g [<-|[]]. destruct ex_recognisable6 as (_ & _ & R). split; [|split; [exact R|discriminate]]. eapply storable1; [vm_compute; reflexivity|lia|]. exact (proj1 R). }
  split; [vm_compute; reflexivity|]. split; [split; [cbn; intuition discriminate|cbn; intuition discriminate]|].
  split; [|split; [vm_compute; reflexivity|split; [vm_compute; reflexivity|vm_compute; reflexivity]]].
  assert (P : forall dx dy, part_result (fun x => extract_text6 ex_rt6 (write_glyphs ex_ohs) ex_features x None) (dx, dy, ex_ring) (picture ex_ring, (str "o ", str "o ", str "o"))).
  { intros dx dy. split; [vm_compute; reflexivity|]. split; [repeat split; vm_compute; congruence|]. split; [|vm_compute; reflexivity].
    intros l El. cbn [snd] in *. assert (l = [mkbox 1 0 3 3]) as -> by (vm_compute in El; congruence). constructor; [|constructor]. intros im (W & E1 & E2 & _). cbn [bw bh] in *.
    repeat split; try apply W; rewrite ?E1, ?E2; vm_compute; congruence. }
  constructor; [apply P|]. constructor; [apply P|]. constructor.
Qed.

(** ocr2_extract_text reads every arrangement of the lines it was taught: it prints their
    words, under the conditions of C67. *)
Theorem C111_lessons_partial : forall ls sort sort_views junk z cx0, teachable ls -> unambiguous ls -> is_std_sort glyph_less sort -> is_std_sort view_less sort_views -> is_std_sort Z.ltb z ->
  exists gf nf df, learn_images (map arguments ls) [] = Ok (gf, Learnt) /\ normalize_files sort sort_views [gf] = Ok (Some nf) /\ write_datas_file junk z cx0 nf = Ok (Some df) /\
    forall rt cx y c parts ks lines dict, legal rt -> image_of_bytes y 128 = Ok c -> box_searchable c -> composed c parts -> Forall2 (fun p l => In l ls /\ snd p = le_img l) parts ks ->
      let boxes := placed parts (map le_boxes ks) in let ws := flat_map le_words ks in
      steady boxes -> no_lost_break (spoken 0 boxes ws) -> lines_file (flat_map le_words ls) lines -> dict_file ws dict ->
      extract_text rt cx nf df y lines dict = Ok (line_text boxes ws, 0, vsize boxes).
Proof. exact composed_lessons. Qed.
Print Assumptions C111_lessons_partial.
(** The line of C67 twice. *)
Definition ex_twice : image := rows 18 ["-x-----x--x-----x-"; "-x--------x-------"; "-x-----x--x-----x-"]%string.
Definition ex_lines : list part := [(0, 0, ex_line); (9, 0, ex_line)].
Example C111_lessons_nonvacuous : teachable [ex_lesson] /\ unambiguous [ex_lesson] /\ composed ex_twice ex_lines /\ box_searchable ex_twice /\
  Forall2 (fun p l => In l [ex_lesson] /\ snd p = le_img l) ex_lines [ex_lesson; ex_lesson] /\
  let boxes := placed ex_lines (map le_boxes [ex_lesson; ex_lesson]) in let ws := flat_map le_words [ex_lesson; ex_lesson] in
  steady boxes /\ no_lost_break (spoken 0 boxes ws) /\ line_text boxes ws = str "l :l :" /\
  read_with ex_glyphs ex_twice = Ok (str "l :l :", 0, 4).
Proof.
  destruct C67_nonvacuous as (A & B & _). split; [exact A|]. split; [exact B|]. split; [apply composed_checked; vm_compute; reflexivity|]. split; [repeat split; vm_compute; congruence|].
  split; [constructor; [split; [now left|reflexivity]|constructor; [split; [now left|reflexivity]|constructor]]|]. cbv zeta.
  split; [eexists; split; [left; reflexivity|vm_compute; congruence]|]. split; [left; vm_compute; reflexivity|]. split; [vm_compute; reflexivity|vm_compute; reflexivity].
Qed.

(** ocr2_extract_text chooses one font for the line: two bars are "II", and "ll" beside
    dots. *)
Theorem C111_font_refuted : let bars := rows 4 ["x-x-"; "x-x-"; "x-x-"]%string in let dots := rows 4 ["x-x-"; "----"; "x-x-"]%string in
  let both := rows 12 ["x-x-----x-x-"; "x-x---------"; "x-x-----x-x-"]%string in
  composed both [(0, 0, bars); (8, 0, dots)] /\ apart [(0, 0, bars); (8, 0, dots)] /\
  read_with (ex_fonts "f") bars = Ok (str "II", 0, 2) /\ read_with (ex_fonts "f") dots = Ok (str "::", 0, 2) /\ read_with (ex_fonts "f") both = Ok (str "ll ::", 0, 4).
Proof.
  cbv zeta. split; [apply composed_checked; vm_compute; reflexivity|]. split; [constructor; [vm_compute; congruence|constructor]|].
  split; [vm_compute; reflexivity|]. split; [vm_compute; reflexivity|vm_compute; reflexivity].
Qed.
Print Assumptions C111_font_refuted.
(** extract_text6: an unknown character is "?", and "_" when it was already there (C74);
    at the beginning of a part it is not printed (C75). *)
Theorem C111_unknown_refuted : let a := rows 7 ["-xxx-x-"; "-x-x-x-"; "-xxx-x-"]%string in let c := rows 18 ["-xxx-x------xxx-x-"; "-x-x-x------x-x-x-"; "-xxx-x------xxx-x-"]%string in
  composed c [(0, 0, a); (11, 0, a)] /\ apart [(0, 0, a); (11, 0, a)] /\ read6_with ex_rlo a = Ok (str "o _ ", str "o _ ", str "o?") /\
  read6_with ex_rlo c = Ok (str "o _ o _ ", str "o _ o _ ", str "o? o_").
Proof.
  cbv zeta. split; [apply composed_checked; vm_compute; reflexivity|]. split; [constructor; [vm_compute; congruence|constructor]|].
  split; [vm_compute; reflexivity|vm_compute; reflexivity].
Qed.
Print Assumptions C111_unknown_refuted.
(** Ink in the last column of a part is lost there (C11), and not in the whole. *)
Theorem C111_last_column_refuted : let a := rows 5 ["x-x-x"; "x---x"; "x-x-x"]%string in let c := rows 11 ["x-x-x-x-x-x"; "x---x-x---x"; "x-x-x-x-x-x"]%string in
  (forall x y, 0 <= x < 5 -> 0 <= y < 3 -> pix c x y = pix a x y /\ pix c (x + 6) y = pix a x y) /\ (forall y, ink c 5 y = false) /\
  read_with ex_glyphs a = Ok (str "l:", 0, 2) /\ read_with ex_glyphs c = Ok (str "l:ll:", 0, 5).
Proof.
  cbv zeta. split.
  { intros x y Hx Hy. assert (Y : y = 0 \/ y = 1 \/ y = 2) by lia. assert (X : x = 0 \/ x = 1 \/ x = 2 \/ x = 3 \/ x = 4) by lia.
    destruct Y as [->|[->| ->]]; destruct X as [->|[->|[->|[->| ->]]]]; split; vm_compute; reflexivity. }
  split; [intros y; destruct (Z.eq_dec y 0) as [->|]; [reflexivity|]; destruct (Z.eq_dec y 1) as [->|]; [reflexivity|]; destruct (Z.eq_dec y 2) as [->|]; [reflexivity|]; unfold ink, pix; cbn [iw ih rows];
    destruct (_ && _) eqn:B; [cbn in B; lia|reflexivity]|].
  split; [vm_compute; reflexivity|vm_compute; reflexivity].
Qed.
Print Assumptions C111_last_column_refuted.
(** A word too many in one text and too few in the next: both are refused, and the
    whole is accepted, with the words of one part on the characters of another. *)
Theorem C111_words_refuted : let p := [(0, 0, ex_ring); (9, 1, ex_ring)] in
  composed ex_rings p /\ learn_image ex_ring (str "a b") (str "f") = Ok (write_glyph (mkglyph ex_o [mkview (str "a") (str "f") 4294967295]), NoBox) /\ learn_image ex_ring [] (str "f") = Ok ([], NoDefinition) /\
  learn_image ex_rings (in_turn [str "a b"; []]) (str "f") = Ok (write_glyph (mkglyph ex_o [mkview (str "a") (str "f") 4294967295]) ++ write_glyph (mkglyph ex_o [mkview (str "b") (str "f") 4294967295]), Learnt).
Proof. cbv zeta. split; [apply composed_checked; vm_compute; reflexivity|]. split; [vm_compute; reflexivity|]. split; [vm_compute; reflexivity|vm_compute; reflexivity]. Qed.
Print Assumptions C111_words_refuted.
