(** Property C105: what extract_text6 prints depends on its files only. *)
From Verif Require Import Base SortModel SortProofs ImageModel ImageSpec PnmModel BoxModel BoxSpec StratModel StratSpec ZoneModel DatasModel DatasSpec StreamModel GlyphIoModel GlyphIoSpec DatasIoModel DictIoModel
  TrieModel IndexModel FloatModel RecogModel RecogSpec RecogWitness GlyphsModel ExtractModel ExtractSpec LearnModel PipelineModel PipelineSpec ReadSpec PropPipeline PropRead
  Ocr6Model Ocr6Spec Ocr6Proofs5 PropOcr6 ShowModel PrintModel PrintSpec PropPrint OcrOutModel OcrOutSpec OcrOutProofs3 PropOcrOut PropSame Same6Spec SameProofs4 SameProofs6.

(** C105: the order in which std::sort leaves equivalent elements and the content of fresh
    memory cannot be seen in the results when the glyphs with the tenths of a picture
    have the same words or, if there is none, when those near it have the same words. *)
Theorem C105_results : forall rt rt' gs junk z cx0 datas bytes img ws dict, legal6 rt -> legal6 rt' -> trainable6 gs -> is_std_sort Z.ltb z ->
  write_datas_file junk z cx0 (write_glyphs gs) = Ok (Some datas) -> dict_file ws dict -> image_of_bytes bytes 128 = Ok img -> line_pictures6 z gs (decided6 z gs) img ->
  extract_text6 rt (write_glyphs gs) datas bytes dict = extract_text6 rt' (write_glyphs gs) datas bytes dict.
Proof. exact extract_text6_same. Qed.
Print Assumptions C105_results.
(** Nor in all that is printed, when the glyphs near a picture with equal scores have
    the same words. *)
Theorem C105_output : forall rt rt' gs junk z cx0 datas bytes img ws dict nan disk prog args, legal6 rt -> legal6 rt' -> trainable6 gs -> is_std_sort Z.ltb z ->
  write_datas_file junk z cx0 (write_glyphs gs) = Ok (Some datas) -> dict_file ws dict -> image_of_bytes bytes 128 = Ok img -> line_pictures6 z gs (untied6 z gs) img ->
  files_are6 disk args (write_glyphs gs) datas bytes dict -> main6 rt nan disk (prog :: args) = main6 rt' nan disk (prog :: args).
Proof. exact main6_same. Qed.
Print Assumptions C105_output.
(** A single picture, with the rows in any two orders. *)
Theorem C105_picture : forall nan z gs e e' n n' im, is_std_sort Z.ltb z -> trainable6 gs -> built6 z gs e -> built6 z gs e' -> recognisable im ->
  comparable_glyphs z gs im \/ (exists g, In g gs /\ same6 z im g) ->
  (decided6 z gs im -> recognise6 e n im = recognise6 e' n' im) /\ (untied6 z gs im -> recognise_out6 nan e n im = recognise_out6 nan e' n' im).
Proof. intros nan z gs e e' n n' im Hz HT HB HB' R D. split; intros U; [exact (recognise6_same z gs e e' n n' im Hz HT HB HB' R D U)|exact (recognise_out6_same nan z gs e e' n n' im Hz HT HB HB' R D U)]. Qed.
Print Assumptions C105_picture.
(** Files that are refused leave nothing open. *)
Theorem C105_refused : forall rt rt' nan disk prog args glyphs datas image dict out x, disk_files6 disk args glyphs datas image dict -> refused_files glyphs datas dict out x ->
  main6 rt nan disk (prog :: args) = main6 rt' nan disk (prog :: args).
Proof. intros. now rewrite !(main_refused6 _ nan disk prog args glyphs datas image dict out x). Qed.
Print Assumptions C105_refused.

(** Other sorts and other memory. *)
Definition ex_other6 : runtime6 := mkrt6 (fun c => rsort (index_lt c)) (fun w => rsort (lt6 w)) (rsort gt_prob) (rsort Z.ltb) (fun _ _ => 5).
Lemma ex_other6_legal : legal6 ex_other6.
Proof. split; [intros; apply rsort_is_sort|]. split; [intros; apply rsort_is_sort|]. split; apply rsort_is_sort. Qed.
(** A picture learnt twice, with two words: the sort of the scores tells which is first. *)
Definition ex_both : list glyph := [g6 "a" ex_o; g6 "b" ex_o].
Definition read6_by (rt : runtime6) (gs : list glyph) (img : image) : res (list Z * list Z * list Z) :=
  df <- features_of gs ;; extract_text6 rt (write_glyphs gs) df (picture img) None.
Definition ex_only_o : image := rows 5 ["-xxx-"; "-x-x-"; "-xxx-"]%string.
Definition ex_head2 : list Z := lines_text [" ## datas.size(): 2"; " ## glyphs.size(): 2"; " ## sort"; " ## sort by word"; " ## sort by value"; " ## go"]%string.
Definition ex_frame_o : list Z := lines_text [":::::"; ":xxx:"; ":x-x:"; ":xxx:"; ":::::"]%string.
Theorem C105_ties_refuted : legal6 ex_rt6 /\ legal6 ex_other6 /\
  read6_by ex_rt6 ex_both ex_only_o = Ok (str "a ", str "a ", str "a") /\ read6_by ex_other6 ex_both ex_only_o = Ok (str "b ", str "b ", str "b") /\
  run_with (main6 ex_rt6 (str "nan")) ex_both ex_only_o = Ok (ex_head2 ++ ex_frame_o ++ found_text "1" "a b " ++ [10; 10] ++
    lines_text [" ## result1: a "; " ## result2: a "; " ## result3: a"]%string, Exits 0) /\
  run_with (main6 ex_other6 (str "nan")) ex_both ex_only_o = Ok (ex_head2 ++ ex_frame_o ++ found_text "1" "b a " ++ [10; 10] ++
    lines_text [" ## result1: b "; " ## result2: b "; " ## result3: b"]%string, Exits 0).
Proof. split; [exact ex_legal6|]. split; [exact ex_other6_legal|]. repeat split; vm_compute; reflexivity. Qed.
Print Assumptions C105_ties_refuted.

(** The premises hold for the run of C95_run6, and the two runs print the same. *)
Lemma ex_near im g : im = ex_o \/ im = ex_r \/ im = ex_l -> In g ex_rlo -> near6 (isort Z.ltb) im g -> gl_img g = im.
Proof.
  assert (Pr : In (mkst Proportionality false) simple_strategies) by (cbv; tauto).
  assert (Bd : forall i j a b, rotate90 i = Ok a -> rotate90 j = Ok b -> forall x y, feature_alone (isort Z.ltb) (mkst Proportionality false) i a = Ok (VNum x) -> feature_alone (isort Z.ltb) (mkst Proportionality false) j b = Ok (VNum y) ->
    forall w, near6 (isort Z.ltb) i (mkglyph j w) -> Z.abs (tenth x - tenth y) <= 0).
  { intros i j a b Ha Hb x y Fx Fy w N. apply (N (mkst Proportionality false) x y Pr); [exists a; auto|exists b; auto]. }
  intros Hi [<-|[<-|[<-|[]]]] N; cbn [gl_img g6]; destruct Hi as [-> | [-> | ->]]; try reflexivity; exfalso;
    (eapply Bd in N; [|vm_compute; reflexivity|vm_compute; reflexivity|vm_compute; reflexivity|vm_compute; reflexivity]); vm_compute in N; congruence.
Qed.
Lemma ex_untied6 im : im = ex_o \/ im = ex_r \/ im = ex_l -> untied6 (isort Z.ltb) ex_rlo im.
Proof.
  intros Hi g h Hg Hh Ng Nh _. apply (ex_near im g Hi Hg) in Ng. apply (ex_near im h Hi Hh) in Nh. rewrite <- Nh in Ng. destruct Hg as [<-|[<-|[<-|[]]]], Hh as [<-|[<-|[<-|[]]]]; try reflexivity; vm_compute in Ng; discriminate.
Qed.
Example C105_nonvacuous : exists datas disk args, legal6 ex_rt6 /\ legal6 ex_other6 /\ trainable6 ex_rlo /\ write_datas_file (fun _ => 0) (isort Z.ltb) new_ctxs (write_glyphs ex_rlo) = Ok (Some datas) /\
  dict_file [] None /\ image_of_bytes (picture ex_orl) 128 = Ok ex_orl /\ line_pictures6 (isort Z.ltb) ex_rlo (untied6 (isort Z.ltb) ex_rlo) ex_orl /\ line_pictures6 (isort Z.ltb) ex_rlo (decided6 (isort Z.ltb) ex_rlo) ex_orl /\
  files_are6 disk args (write_glyphs ex_rlo) datas (picture ex_orl) None.
Proof.
  destruct C95_nonvacuous as (datas & disk & args & _ & _ & _ & H4 & _ & _ & _ & _ & H9). exists datas, disk, args. destruct C76_nonvacuous as (H1 & H2 & H3 & H5 & H6 & H7 & _).
  split; [exact H1|]. split; [exact ex_other6_legal|]. split; [exact H2|]. split; [exact H4|]. split; [now left|]. split; [exact H3|].
  assert (U : line_pictures6 (isort Z.ltb) ex_rlo (untied6 (isort Z.ltb) ex_rlo) ex_orl).
  { split; [exact H5|]. intros boxes b Eb Hb. rewrite H6 in Eb. injection Eb as <-. rewrite Forall_forall in H7. split; [now apply H7|]. intros im Ci. apply ex_untied6. exact (ex_orl_pictures b im Hb Ci). }
  split; [exact U|]. split; [|exact H9]. destruct U as (U1 & U2). split; [exact U1|]. intros boxes b Eb Hb. destruct (U2 boxes b Eb Hb) as (A & B). split; [exact A|]. intros im Ci. apply untied_decided. now apply B.
Qed.
Example C105_runs : run_with (main6 ex_other6 (str "nan")) ex_rlo ex_orl = run_with (main6 ex_rt6 (str "nan")) ex_rlo ex_orl.
Proof. vm_compute. reflexivity. Qed.
