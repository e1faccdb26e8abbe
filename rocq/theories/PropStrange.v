(** Property C123: lines of characters that no glyph is near. *)
From Coq Require Import Permutation.
From Verif Require Import Base BaseProofs SortModel SortProofs ImageModel ImageSpec PnmModel BoxModel BoxSpec StratModel ZoneModel DatasModel DatasSpec StreamModel GlyphIoModel GlyphIoSpec
  DatasIoModel DictIoModel TrieModel IndexModel GlyphsSpec RecogModel RecogSpec RecogWitness ExtractModel ExtractSpec AssembleSpec LearnModel PipelineModel PipelineSpec PropPipeline ReadSpec ReadProofs PropRead
  Ocr6Model Ocr6Spec PropOcr6 Ocr8Model Ocr8Spec PropOcr8 StrangeSpec StrangeProofs StrangeProofs2.

(** extract_text6: the mark of unknown characters for each of them; the third result has no
    candidate for the pictures that are seen for the first time and the mark for the
    others. *)
Theorem C123_read6 : forall rt gs junk z cx0 datas bytes img boxes dict spell, legal6 rt -> trainable6 gs -> is_std_sort Z.ltb z ->
  write_datas_file junk z cx0 (write_glyphs gs) = Ok (Some datas) -> image_of_bytes bytes 128 = Ok img -> box_searchable img -> segment img = Ok boxes ->
  Forall (small_character img) boxes -> dict_spell (labels gs) dict spell -> Forall (strange6 z gs img) boxes ->
  exists amb, strange_line img 0 [] boxes amb /\ extract_text6 rt (write_glyphs gs) datas bytes dict = Ok (marks boxes, marks boxes, text6 spell amb).
Proof. exact strange_read6. Qed.
Print Assumptions C123_read6.
(** extract_text8, whatever the glyphs: the same, unless loading has undefined behaviour
    (C78), which depends on how many glyphs differ from the first one. *)
Theorem C123_read8_outcome : forall rt gs junk z cx0 datas bytes img boxes dict spell, legal8 rt -> trainable6 gs -> is_std_sort Z.ltb z ->
  write_datas_file junk z cx0 (write_glyphs gs) = Ok (Some datas) -> image_of_bytes bytes 128 = Ok img -> box_searchable img -> segment img = Ok boxes ->
  Forall (small_character img) boxes -> dict_spell (labels gs) dict spell -> Forall (strange8 z gs img) boxes ->
  exists gs' ds, Permutation gs gs' /\ ordered8 z gs' /\ NoDup ds /\ (forall j, In j ds <-> other8 z gs' j) /\
    (((List.length ds = 0%nat \/ List.length ds = 2%nat) /\
      exists amb, strange_line img 0 [] boxes amb /\ extract_text8 rt (write_glyphs gs) datas bytes dict = Ok (marks boxes, marks boxes, text6 spell amb)) \/
     ((List.length ds = 1%nat \/ (3 <= List.length ds)%nat) /\ extract_text8 rt (write_glyphs gs) datas bytes dict = UB)).
Proof. exact strange_outcome8. Qed.
Print Assumptions C123_read8_outcome.
(** C123, full statement: the same as for extract_text6.  Proved when the features do not
    tell the glyphs apart. *)
Theorem C123_read8_partial : forall rt gs junk z cx0 datas bytes img boxes dict spell, legal8 rt -> trainable6 gs -> is_std_sort Z.ltb z ->
  write_datas_file junk z cx0 (write_glyphs gs) = Ok (Some datas) -> (forall g h, In g gs -> In h gs -> ~ differ_glyphs z g h) ->
  image_of_bytes bytes 128 = Ok img -> box_searchable img -> segment img = Ok boxes -> Forall (small_character img) boxes -> dict_spell (labels gs) dict spell ->
  Forall (strange8 z gs img) boxes ->
  exists amb, strange_line img 0 [] boxes amb /\ extract_text8 rt (write_glyphs gs) datas bytes dict = Ok (marks boxes, marks boxes, text6 spell amb).
Proof. exact strange_alike8. Qed.
Print Assumptions C123_read8_partial.
(** So the third result is empty if the characters are all different, whatever the
    dictionary. *)
Theorem C123_silent : forall img boxes amb spell, strange_line img 0 [] boxes amb -> all_different img boxes -> text6 spell amb = [].
Proof. intros img boxes amb spell S (ims & F & N). apply (different_silent img 0 [] boxes amb ims spell S F N). intros im _ []. Qed.
Print Assumptions C123_silent.
(** C123, full statement: ocr2_extract_text gives the text of a line of unknown
    characters.  Proved for the images of C69. *)
Theorem C123_read_partial : forall rt gs junk z cx0 datas cx bytes img boxes lines dict spell, legal rt -> trainable gs -> is_std_sort Z.ltb z ->
  write_datas_file junk z cx0 (write_glyphs gs) = Ok (Some datas) -> image_of_bytes bytes 128 = Ok img -> box_searchable img -> segment img = Ok boxes ->
  Forall (readable_box gs img) boxes -> steady_line boxes -> lines_file (labels gs) lines -> dict_spell (labels gs) dict spell -> Forall (strange gs img) boxes ->
  let line := marked 0 boxes (map (fun _ => []) boxes) in
  extract_text rt cx (write_glyphs gs) datas bytes lines dict = Ok (text_of_line spell line, unknown_of_line line, vsize boxes) /\
  (without_breaks 0 boxes -> extract_text rt cx (write_glyphs gs) datas bytes lines dict = Ok ([], 0, vsize boxes)).
Proof.
  intros rt gs junk z cx0 datas cx bytes img boxes lines dict spell HL HT Hz ED EI Hs Eb Rd Sl Hl Hd St line.
  pose proof (strange_read rt gs junk z cx0 datas cx bytes img boxes lines dict spell HL HT Hz ED EI Hs Eb Rd Sl Hl Hd St) as E. cbv zeta in E. split; [exact E|].
  intros W. destruct (silent_line 0 boxes spell W) as (A & B). rewrite E, A, B. reflexivity.
Qed.
Print Assumptions C123_read_partial.
(** With nothing learnt all characters are strange, and can be read. *)
Theorem C123_nothing : forall z img boxes, Forall (strange6 z [] img) boxes /\ Forall (strange8 z [] img) boxes /\ Forall (strange [] img) boxes /\
  trainable6 [] /\ trainable [] /\ (Forall (small_character img) boxes -> Forall (readable8 z [] img) boxes /\ Forall (readable_box [] img) boxes).
Proof.
  intros z img boxes. split; [apply Forall_forall; intros b _ im g _ []|]. split; [apply Forall_forall; intros b _ im g _ []|]. split; [apply Forall_forall; intros b _ im g _ []|].
  split; [split; [intros g []|reflexivity]|]. split; [split; [intros g []|split; [reflexivity|]]|].
  - split; [intros w []|]. split; [reflexivity|]. split; [reflexivity|]. intros w ([] & _).
  - intros H. split; (eapply Forall_impl; [|exact H]); intros b Hb im Ci; (split; [exact (Hb im Ci)|left]); intros g; intros; match goal with H : In _ [] |- _ => destruct H end.
Qed.
Print Assumptions C123_nothing.

(** Nothing learnt, three characters that are all different, and two that are the same. *)
Example C123_nonvacuous : legal6 ex_rt6 /\ trainable6 [] /\ image_of_bytes (picture ex_orl) 128 = Ok ex_orl /\ box_searchable ex_orl /\ segment ex_orl = Ok ex_orl_boxes /\
  Forall (small_character ex_orl) ex_orl_boxes /\ dict_spell (labels []) None (fun _ => None) /\ (exists datas, features_of [] = Ok datas) /\ marks ex_orl_boxes = str "_ _ _ " /\
  read6_with [] ex_orl = Ok (str "_ _ _ ", str "_ _ _ ", []) /\ read8_with [] ex_orl = Ok (str "_ _ _ ", str "_ _ _ ", []).
Proof.
  destruct C76_nonvacuous as (H1 & _ & H3 & H4 & H5 & H6 & _). split; [exact H1|]. split; [split; [intros g []|reflexivity]|]. split; [exact H3|]. split; [exact H4|]. split; [exact H5|].
  split; [eapply Forall_impl; [|exact H6]; intros b Hb im Hi; apply (Hb im Hi)|]. split; [left; split; reflexivity|]. split; [eexists; vm_compute; reflexivity|].
  split; [reflexivity|]. split; vm_compute; reflexivity.
Qed.
(** The characters that are unknown are not all shown nor counted. *)
Theorem C123_counted_refuted : read_with [] ex_orl = Ok ([], 0, 3) /\ read6_with [] ex_oll = Ok (str "_ _ _ ", str "_ _ _ ", str "_").
Proof. split; vm_compute; reflexivity. Qed.
Print Assumptions C123_counted_refuted.
Example C123_read_nonvacuous : legal ex_rt /\ trainable [] /\ Forall (readable_box [] ex_orl) ex_orl_boxes /\ steady_line ex_orl_boxes /\ lines_file (labels []) None /\
  Forall (strange [] ex_orl) ex_orl_boxes /\ without_breaks 0 ex_orl_boxes /\ all_different ex_orl ex_orl_boxes.
Proof.
  destruct C76_nonvacuous as (_ & _ & _ & _ & _ & H6 & _).
  assert (Sm : Forall (small_character ex_orl) ex_orl_boxes) by (eapply Forall_impl; [|exact H6]; intros b Hb im Hi; apply (Hb im Hi)).
  destruct (C123_nothing (isort Z.ltb) ex_orl ex_orl_boxes) as (_ & _ & St & _ & T & R). destruct (R Sm) as (_ & Rb).
  split; [exact ex_legal|]. split; [exact T|]. split; [exact Rb|].
  split; [split; (exists (mkbox 5 0 2 3); split; [left; reflexivity|vm_compute; congruence])|]. split; [left; reflexivity|]. split; [exact St|].
  split; [cbn; lia|]. pose proof (segment_pictures ex_orl ex_orl_boxes) as P. destruct C76_nonvacuous as (_ & _ & _ & H4 & H5 & _). specialize (P H4 H5).
  inversion P as [|? ? (i1 & C1) P1]; subst. inversion P1 as [|? ? (i2 & C2) P2]; subst. inversion P2 as [|? ? (i3 & C3) P3]; subst.
  exists [i1; i2; i3]. split; [exact (Forall2_cons _ _ C1 (Forall2_cons _ _ C2 (Forall2_cons _ _ C3 (Forall2_nil _))))|].
  destruct C1 as (_ & W1 & _), C2 as (_ & W2 & _), C3 as (_ & W3 & _). cbn [bw] in W1, W2, W3.
  assert (i1 <> i2 /\ i1 <> i3 /\ i2 <> i3) as (N1 & N2 & N3) by (repeat split; congruence).
  constructor; [cbn [In]; intuition congruence|]. constructor; [cbn [In]; intuition congruence|]. constructor; [intros []|constructor].
Qed.
