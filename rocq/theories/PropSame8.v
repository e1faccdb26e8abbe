(** Property C106: what extract_text8 prints depends on its files only. *)
From Verif Require Import Base SortModel SortProofs ImageModel ImageSpec PnmModel BoxModel BoxSpec StratModel StratSpec ZoneModel DatasModel DatasSpec StreamModel GlyphIoModel GlyphIoSpec DatasIoModel DictIoModel
  TrieModel IndexModel FloatModel RecogModel RecogSpec RecogWitness GlyphsModel ExtractModel ExtractSpec LearnModel PipelineModel PipelineSpec PipelineProofs4 ReadSpec PropPipeline PropRead
  Ocr6Model Ocr6Spec Ocr6Proofs5 PropOcr6 Ocr8Model Ocr8Spec PropOcr8 ShowModel PrintModel PrintSpec PropPrint OcrOutModel OcrOutSpec OcrOutProofs3 PropOcrOut PropSame Same6Spec SameProofs4 SameProofs6 PropSame6 Same8Spec SameProofs7.

(** C106, full statement: the order in which std::sort leaves equivalent elements, the
    content of fresh memory and that of the strings that were moved cannot be seen in
    the results.  Proved when all the glyphs have the same features, and those near a
    picture with a score in common have the same words. *)
Theorem C106_results_partial : forall rt rt' gs junk z cx0 datas bytes img ws dict, legal8 rt -> legal8 rt' -> trainable6 gs -> is_std_sort Z.ltb z ->
  write_datas_file junk z cx0 (write_glyphs gs) = Ok (Some datas) -> dict_file ws dict -> (forall g h, In g gs -> In h gs -> ~ differ_glyphs z g h) ->
  image_of_bytes bytes 128 = Ok img -> line_pictures8 z gs (untied8 z gs) img ->
  extract_text8 rt (write_glyphs gs) datas bytes dict = extract_text8 rt' (write_glyphs gs) datas bytes dict.
Proof. exact extract_text8_same. Qed.
Print Assumptions C106_results_partial.
(** All that is printed. *)
Theorem C106_output_partial : forall rt rt' gs junk z cx0 datas bytes img ws dict nan disk prog args, legal8 rt -> legal8 rt' -> trainable6 gs -> is_std_sort Z.ltb z ->
  write_datas_file junk z cx0 (write_glyphs gs) = Ok (Some datas) -> dict_file ws dict -> (forall g h, In g gs -> In h gs -> ~ differ_glyphs z g h) ->
  image_of_bytes bytes 128 = Ok img -> line_pictures8 z gs (untied8 z gs) img -> files_are6 disk args (write_glyphs gs) datas bytes dict ->
  main8 rt nan disk (prog :: args) = main8 rt' nan disk (prog :: args).
Proof. exact main8_same. Qed.
Print Assumptions C106_output_partial.
(** A single picture, for any glyphs, with the rows in any two orders. *)
Theorem C106_picture : forall nan z gs e e' n n' im, is_std_sort Z.ltb z -> trainable6 gs -> built8 z gs e -> built8 z gs e' -> recognisable im ->
  comparable_glyphs z gs im \/ (exists g, In g gs /\ same8 z im g) -> untied8 z gs im ->
  recognise8 e n im = recognise8 e' n' im /\ recognise_out8 nan e n im = recognise_out8 nan e' n' im.
Proof. intros nan z gs e e' n n' im Hz HT HB HB' R D U. split; [exact (recognise8_same z gs e e' n n' im Hz HT HB HB' R D U)|exact (recognise_out8_same nan z gs e e' n n' im Hz HT HB HB' R D U)]. Qed.
Print Assumptions C106_picture.
(** Files that are refused leave nothing open. *)
Theorem C106_refused : forall rt rt' nan disk prog args glyphs datas image dict out x, disk_files6 disk args glyphs datas image dict -> refused_files glyphs datas dict out x ->
  main8 rt nan disk (prog :: args) = main8 rt' nan disk (prog :: args).
Proof. intros. now rewrite !(main_refused8 _ nan disk prog args glyphs datas image dict out x). Qed.
Print Assumptions C106_refused.

(** Other sorts; moved strings that keep their content. *)
Definition ex_other8 : runtime8 := mkrt8 ex_other6 (fun _ => []).
Definition ex_kept8 : runtime8 := mkrt8 ex_rt6 (fun w => w).
Definition read8_by (rt : runtime8) (gs : list glyph) (img : image) : res (list Z * list Z * list Z) :=
  df <- features_of gs ;; extract_text8 rt (write_glyphs gs) df (picture img) None.
Definition ex_block : image := rows 3 ["xxx"; "xxx"; "xxx"]%string.
Definition ex_obc : list glyph := [g6 "o" ex_o; g6 "b" ex_block; g6 "c" ex_block].
Lemma ex_trainable_obc : trainable6 ex_obc.
Proof.
  split; [|vm_compute; reflexivity]. intros g [<-|[<-|[<-|[]]]]; (split; [|split; [repeat split; vm_compute; congruence|discriminate]]); (eapply storable1; [vm_compute; reflexivity|lia|]); repeat split; vm_compute; congruence.
Qed.
(** One sort gives a result where another goes out of the buffers: three glyphs have the
    same first feature, and the one that comes first tells how many are not as the first. *)
Theorem C106_sort_refuted : legal8 ex_rt8 /\ legal8 ex_other8 /\ trainable6 ex_obc /\
  read8_by ex_rt8 ex_obc ex_only_o = Ok (str " ", str " ", []) /\ read8_by ex_other8 ex_obc ex_only_o = UB /\ run_with (main8 ex_other8 (str "nan")) ex_obc ex_only_o = UB.
Proof. split; [exact ex_legal6|]. split; [exact ex_other6_legal|]. split; [exact ex_trainable_obc|]. repeat split; vm_compute; reflexivity. Qed.
Print Assumptions C106_sort_refuted.
(** The content of the moved strings is read. *)
Theorem C106_moved_refuted : legal8 ex_rt8 /\ legal8 ex_kept8 /\ trainable6 ex_obc /\
  read8_by ex_rt8 ex_obc ex_only_o = Ok (str " ", str " ", []) /\ read8_by ex_kept8 ex_obc ex_only_o = Ok (str "o ", str "o ", str "o").
Proof. split; [exact ex_legal6|]. split; [exact ex_legal6|]. split; [exact ex_trainable_obc|]. split; vm_compute; reflexivity. Qed.
Print Assumptions C106_moved_refuted.
(** A picture learnt twice, with two words. *)
Theorem C106_ties_refuted : legal8 ex_rt8 /\ legal8 ex_other8 /\ trainable6 ex_oo /\ (forall g h, In g ex_oo -> In h ex_oo -> ~ differ_glyphs (isort Z.ltb) g h) /\
  read8_by ex_rt8 ex_oo ex_only_o = Ok (str "0 ", str "0 ", str "0") /\ read8_by ex_other8 ex_oo ex_only_o = Ok (str "o ", str "o ", str "o").
Proof.
  destruct C78_nonvacuous as (H1 & H2 & H3 & _). split; [exact H1|]. split; [exact ex_other6_legal|]. split; [exact H2|]. split; [exact H3|]. split; vm_compute; reflexivity.
Qed.
Print Assumptions C106_ties_refuted.

(** The premises hold for a picture learnt twice with one word, and a line with it and
    two others. *)
Definition ex_twice : list glyph := [g6 "o" ex_o; g6 "o" ex_o].
Lemma ex_twice_in g : In g ex_twice -> g = g6 "o" ex_o.
Proof. intros [<-|[<-|[]]]; reflexivity. Qed.
Example C106_nonvacuous : exists datas disk args, legal8 ex_rt8 /\ legal8 ex_other8 /\ trainable6 ex_twice /\ write_datas_file (fun _ => 0) (isort Z.ltb) new_ctxs (write_glyphs ex_twice) = Ok (Some datas) /\
  dict_file [] None /\ (forall g h, In g ex_twice -> In h ex_twice -> ~ differ_glyphs (isort Z.ltb) g h) /\ image_of_bytes (picture ex_orl) 128 = Ok ex_orl /\
  line_pictures8 (isort Z.ltb) ex_twice (untied8 (isort Z.ltb) ex_twice) ex_orl /\ files_are6 disk args (write_glyphs ex_twice) datas (picture ex_orl) None.
Proof.
  destruct C78_nonvacuous as (H1 & H2 & H3 & _). destruct C81_nonvacuous as (_ & _ & H4 & H5 & H6 & H7 & _).
  assert (O : forall g, In g ex_twice -> In g ex_oo) by (intros g Hg; rewrite (ex_twice_in g Hg); now left).
  eexists. exists (fun n => if list_eqb n (str "g") then Some (write_glyphs ex_twice) else if list_eqb n (str "f") then Some (match write_datas_file (fun _ => 0) (isort Z.ltb) new_ctxs (write_glyphs ex_twice) with Ok (Some d) => d | _ => [] end)
    else if list_eqb n (str "i") then Some (picture ex_orl) else None), [str "g"; str "f"; str "i"].
  split; [exact H1|]. split; [exact ex_other6_legal|]. split; [split; [intros g Hg; apply (proj1 H2); now apply O|vm_compute; reflexivity]|]. split; [vm_compute; reflexivity|]. split; [now left|].
  split; [intros g h Hg Hh; apply H3; now apply O|]. split; [exact H4|]. split.
  - split; [exact H5|]. intros boxes b Eb Hb. rewrite H6 in Eb. injection Eb as <-. rewrite Forall_forall in H7. split.
    + intros im Ci. destruct (H7 b Hb im Ci) as (R & D). split; [exact R|]. destruct D as [D|(g & _ & Sg)]; [left; intros g a c Hg; apply D; now apply O|]. destruct (ex_orl_pictures b im Hb Ci) as [-> | [-> | ->]].
      * right. exists (g6 "o" ex_o). split; [now left|exact ex_same8].
      * left. intros g' a c Hg. apply ex_comparable8; [now left|now apply O].
      * left. intros g' a c Hg. apply ex_comparable8; [now right|now apply O].
    + intros im _. split; [|intros _]; intros g h x Hg Hh _ _ _ _; now rewrite (ex_twice_in g Hg), (ex_twice_in h Hh).
  - exists (str "g"), (str "f"), (str "i"), []. repeat split; vm_compute; reflexivity.
Qed.
Example C106_runs : run_with (main8 ex_other8 (str "nan")) ex_twice ex_orl = run_with (main8 ex_rt8 (str "nan")) ex_twice ex_orl.
Proof. vm_compute. reflexivity. Qed.
Example C106_reads : read8_by ex_rt8 ex_twice ex_orl = Ok (str "o _ _ ", str "o _ _ ", str "o??").
Proof. vm_compute. reflexivity. Qed.
