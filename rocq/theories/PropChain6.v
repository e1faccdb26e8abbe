(** Property C107: write_glyphs, normalize_glyphs, write_datas and extract_text6, one
    after the other. *)
From Verif Require Import Base SortModel SortProofs ImageModel PnmModel BoxModel BoxSpec StratModel ZoneModel DatasModel StreamModel GlyphIoModel GlyphIoSpec DictIoModel DatasIoModel TrieModel
  IndexModel NormModel FloatModel RecogModel RecogSpec RecogWitness ExtractSpec LearnModel LearnSpec Ocr6Model Ocr6Spec PipelineModel PipelineSpec ReadSpec ShowModel ShowSpec PrintModel PrintSpec ProgModel ProgSpec
  OcrOutModel OcrOutSpec ChainSpec ChainProofs Chain6Spec Chain6Proofs PropPipeline PropPrint PropChain PropOcr6.

(** C107, in full: when images and texts are learnt with write_glyphs and the files go
    through normalize_glyphs and write_datas, every program ends with 0 and
    extract_text6 prints the text of each image that was learnt.  Proved with the
    luminance 128, when the features of each character of the image do not change
    their tenths by turning it, and different words have different tenths. *)
Theorem C107_reads_partial : forall disk opts names ls sort sort_views junk z cx0 progs gname nname fname, teachable ls -> vsize (flat_map le_words ls) + 63 < 4294967296 -> unambiguous6 ls -> names <> [] ->
  luminance_args opts names 128 -> Forall2 (lesson_on disk 128) names ls -> is_std_sort glyph_less sort -> is_std_sort view_less sort_views -> is_std_sort Z.ltb z -> fname <> nname ->
  exists gf nf df n, let disk1 := saved disk gname gf in let disk2 := saved disk1 nname nf in let disk3 := saved disk2 fname df in
    pictures_taught ls n /\
    write_glyphs_main disk (fst (fst progs) :: opts ++ triples names) = Ok (gf, Exits 0) /\
    normalize_main sort sort_views disk1 [snd (fst progs); gname] = Ok (nf, Exits 0) /\
    write_datas_main junk z cx0 disk2 [snd progs; nname] = Ok (df, Exits 0) /\
    forall image text font l rt nan prog, In (image, text, font, l) (combine names ls) -> ~ In image [gname; nname; fname] -> legal6 rt ->
      (forall b im, In b (le_boxes l) -> char_image (le_img l) b im -> matches6 im im) ->
      exists pics ims ts, Forall2 (char_image (le_img l)) (le_boxes l) pics /\ first_seen pics ims /\
        Forall2 (fun im t => exists w others, learnt6 ls im w /\ t = best_text w ++ zero_text others) ims ts /\
        main6 rt nan disk3 [prog; nname; fname; image] =
          Ok (head6 None n ++ framed_texts ims ts ++
              results_lines (words_line (le_words l), words_line (le_words l), text6 (fun _ => None) (heard6 0 (le_boxes l) (le_words l))), Exits 0).
Proof. exact chain_reads6. Qed.
Print Assumptions C107_reads_partial.
(** With any luminance the files make the program print all lines whose characters
    match those of the lessons, with a dictionary too. *)
Theorem C107_files : forall disk lum opts names ls sort sort_views junk z cx0 progs gname nname, teachable ls -> vsize (flat_map le_words ls) + 63 < 4294967296 -> names <> [] -> luminance_args opts names lum ->
  Forall2 (lesson_on disk lum) names ls -> is_std_sort glyph_less sort -> is_std_sort view_less sort_views -> is_std_sort Z.ltb z ->
  exists gf nf df n, pictures_taught ls n /\ prints_learnt6 ls nf df n /\
    write_glyphs_main disk (fst (fst progs) :: opts ++ triples names) = Ok (gf, Exits 0) /\
    normalize_main sort sort_views (saved disk gname gf) [snd (fst progs); gname] = Ok (nf, Exits 0) /\
    write_datas_main junk z cx0 (saved (saved disk gname gf) nname nf) [snd progs; nname] = Ok (df, Exits 0).
Proof. exact chain6. Qed.
Print Assumptions C107_files.
(** Any files of glyphs: a picture that matches glyphs of one word only is printed with
    this word and the score 1, and the three lines of results have it. *)
Theorem C107_glyphs : forall gs junk z cx0 datas, trainable6 gs -> is_std_sort Z.ltb z -> write_datas_file junk z cx0 (write_glyphs gs) = Ok (Some datas) ->
  prints_words6 (taught6 gs) (labels gs) (write_glyphs gs) datas (vsize gs).
Proof. exact main_taught6. Qed.
Print Assumptions C107_glyphs.

(** The commands, with the files g, n and f. *)
Definition ex_chain6 (disk : disk_of_files) (args : list (list Z)) (image : list Z) : res (list Z * list ended) :=
  '(gf, e1) <- write_glyphs_main disk (str "write_glyphs" :: args) ;;
  '(nf, e2) <- normalize_main (isort glyph_less) (isort view_less) (saved disk (str "g") gf) [str "normalize_glyphs"; str "g"] ;;
  '(df, e3) <- write_datas_main (fun _ => 0) (isort Z.ltb) new_ctxs (saved disk (str "n") nf) [str "write_datas"; str "n"] ;;
  '(out, e4) <- main6 ex_rt6 (str "-nan") (saved (saved disk (str "n") nf) (str "f") df) [str "extract_text6"; str "n"; str "f"; image] ;;
  Ok (out, [e1; e2; e3; e4]).
Definition ex_one (img : image) (text : string) (n : list Z) : option (list Z) :=
  if list_eqb n (str "i") then Some (ex_bytes img) else if list_eqb n (str "t") then Some (str text) else None.
(** The image that ocr2_extract_text reads (C97) is not read by extract_text6, although
    its words are different and so are their tenths: its characters are higher than
    wide. *)
Theorem C107_reads_refuted : teachable [ex_lesson] /\ unambiguous [ex_lesson] /\ unambiguous6 [ex_lesson] /\
  (exists out, ex_chain (ex_one ex_line "l :") [str "i"; str "t"; str "f"] (str "i") = Ok (out ++ lines_text [" ## result: l :"; "unrecognized_count: 0"; "count: 2"; "unrecognized_rate: 0"]%string, [Exits 0; Exits 0; Exits 0; Exits 0])) /\
  exists out, ex_chain6 (ex_one ex_line "l :") [str "i"; str "t"; str "f"] (str "i") = Ok (out ++ lines_text [" ## result1: _ _ "; " ## result2: _ _ "; " ## result3: "]%string, [Exits 0; Exits 0; Exits 0; Exits 0]).
Proof.
  destruct C67_nonvacuous as (A & B & _). split; [exact A|]. split; [exact B|]. split.
  - intros im w im' w' (l & b & [<-|[]] & Hb & Hc) (l' & b' & [<-|[]] & Hb' & Hc') R. cbn [ex_lesson le_boxes le_words le_img] in *.
    assert (V : forall im x, (im = ex_bar /\ x = 100) \/ (im = ex_dots /\ x = 66) -> simple_value im (mkst Density false) x).
    { intros k x [(-> & ->)|(-> & ->)]; eexists; split; vm_compute; reflexivity. }
    assert (I : In (mkst Density false) simple_strategies) by (vm_compute; tauto).
    destruct (ex_pictures b w im Hb Hc) as [(-> & ->)|(-> & ->)], (ex_pictures b' w' im' Hb' Hc') as [(-> & ->)|(-> & ->)]; try reflexivity; exfalso;
      [specialize (R _ 100 66 I)|specialize (R _ 66 100 I)]; cbn [st_algo] in R; specialize (R ltac:(apply V; auto) ltac:(apply V; auto)); vm_compute in R; discriminate.
  - split.
    + exists (lines_text [" ## datas.size(): 2"; " ## glyphs.size(): 2"; " ## go"; ":::"; ":x:"; ":x:"; ":x:"; ":::"; "l "; ":::"; ":x:"; ":-:"; ":x:"; ":::"; ": "]%string). vm_compute. reflexivity.
    + exists (head6 None 2 ++ framed_texts [ex_bar; ex_dots] (repeat (blue ++ str "best: 0 ( )" ++ plain ++ [10; 10]) 2)). vm_compute. reflexivity.
Qed.
Print Assumptions C107_reads_refuted.

(** A ring and a block. *)
Definition ex_ob : image := rows 13 ["-xxx-----xxx-"; "-x-x-----xxx-"; "-xxx-----xxx-"]%string.
Definition ex_ring : image := rows 3 ["xxx"; "x-x"; "xxx"]%string.
Definition ex_full : image := rows 3 ["xxx"; "xxx"; "xxx"]%string.
Definition ex_ob_boxes : list box := [mkbox 1 0 3 3; mkbox 9 0 3 3].
Definition ex_lesson6 : lesson := mklesson ex_ob (str "o b") (str "f") ex_ob_boxes [str "o"; str "b"].
Lemma ex_ob_pictures b w im : In (b, w) (combine ex_ob_boxes [str "o"; str "b"]) -> char_image ex_ob b im -> (w = str "o" /\ im = ex_ring) \/ (w = str "b" /\ im = ex_full).
Proof.
  intros Hb Hi. cbn in Hb. destruct Hb as [E|[E|[]]]; injection E as <- <-; [left|right]; (split; [reflexivity|]); refine (ExtractProofs.char_image_unique ex_ob _ _ _ Hi _);
    (split; [repeat split; vm_compute; congruence|]; split; [reflexivity|]; split; [reflexivity|]; cbn [bw bh bx by_];
     intros i j Hi' Hj; assert (I : i = 0 \/ i = 1 \/ i = 2) by lia; assert (J : j = 0 \/ j = 1 \/ j = 2) by lia;
     destruct I as [->|[->| ->]]; destruct J as [->|[->| ->]]; reflexivity).
Qed.
Lemma ex_matches im : im = ex_ring \/ im = ex_full -> matches6 im im.
Proof. intros H. apply (matches_same (isort Z.ltb) im (g6 "o" im)). apply same_tenths. destruct H as [->| ->]; vm_compute; reflexivity. Qed.
Lemma ex_unmatched : ~ matches6 ex_ring ex_full /\ ~ matches6 ex_full ex_ring.
Proof.
  assert (V : forall im x, (im = ex_full /\ x = 100) \/ (im = ex_ring /\ x = 88) -> simple_value im (mkst Density false) x).
  { intros im x [(-> & ->)|(-> & ->)]; eexists; split; vm_compute; reflexivity. }
  assert (I : In (mkst Density false) simple_strategies) by (vm_compute; tauto).
  split; intros H; [specialize (H _ 88 100 I)|specialize (H _ 100 88 I)]; cbn [st_algo] in H; specialize (H ltac:(apply V; auto) ltac:(apply V; auto)); vm_compute in H; discriminate.
Qed.
Example C107_nonvacuous : teachable [ex_lesson6] /\ vsize (flat_map le_words [ex_lesson6]) + 63 < 4294967296 /\ unambiguous6 [ex_lesson6] /\
  luminance_args [] [(str "i", str "t", str "f")] 128 /\ Forall2 (lesson_on (ex_one ex_ob "o b") 128) [(str "i", str "t", str "f")] [ex_lesson6] /\ legal6 ex_rt6 /\
  (forall b im, In b (le_boxes ex_lesson6) -> char_image (le_img ex_lesson6) b im -> matches6 im im) /\
  ex_chain6 (ex_one ex_ob "o b") [str "i"; str "t"; str "f"] (str "i") =
    Ok (head6 None 2 ++ framed_texts [ex_ring; ex_full] [best_text (str "o") ++ zero_text []; best_text (str "b") ++ zero_text []] ++
        lines_text [" ## result1: o b "; " ## result2: o b "; " ## result3: o b"]%string, [Exits 0; Exits 0; Exits 0; Exits 0]).
Proof.
  assert (R : recognisable ex_ring /\ recognisable ex_full) by (split; repeat split; vm_compute; congruence).
  assert (P : forall c, 33 <= c -> plain_text [c]) by (intros c Hc; split; [discriminate|]; intros d [<-|[]]; lia).
  split; [split|].
  - constructor; [|constructor]. split; [|split; [repeat split; vm_compute; congruence|split; [vm_compute; reflexivity|split; [|split; [apply (P 102); lia|split; [reflexivity|]]]]]].
    + exists (ex_bytes ex_ob), 128. vm_compute. reflexivity.
    + apply (tw_next [] (str "o") 32 (str "b")); [intros c []|apply (P 111); lia|reflexivity|]. apply (tw_last [32] (str "b")); [intros c [<-|[]]; reflexivity|apply (P 98); lia].
    + constructor; [|constructor; [|constructor]]; intros im Him.
      * destruct (ex_ob_pictures (mkbox 1 0 3 3) (str "o") im (or_introl eq_refl) Him) as [(_ & ->)|(_ & ->)]; apply R.
      * destruct (ex_ob_pictures (mkbox 9 0 3 3) (str "b") im (or_intror (or_introl eq_refl)) Him) as [(_ & ->)|(_ & ->)]; apply R.
  - cbn [flat_map le_words ex_lesson6 app]. split; [|split; [vm_compute; reflexivity|split; [vm_compute; reflexivity|]]].
    + intros w [<-|[<-|[]]]; (split; [intros c [<-|[]]; vm_compute; split; congruence|vm_compute; reflexivity]).
    + intros w ([<-|[<-|[]]] & _); vm_compute; discriminate.
  - split; [vm_compute; reflexivity|]. split; [|split; [left; split; [reflexivity|]; split; [reflexivity|discriminate]|split; [|split; [exact ex_legal6|split]]]].
    + intros im w im' w' (l & b & [<-|[]] & Hb & Hc) (l' & b' & [<-|[]] & Hb' & Hc') M. cbn [ex_lesson6 le_boxes le_words le_img] in *.
      destruct (ex_ob_pictures b w im Hb Hc) as [(-> & ->)|(-> & ->)], (ex_ob_pictures b' w' im' Hb' Hc') as [(-> & ->)|(-> & ->)]; try reflexivity;
        exfalso; [apply (proj1 ex_unmatched)|apply (proj2 ex_unmatched)]; exact M.
    + constructor; [|constructor]. split; [exists (ex_bytes ex_ob); split; vm_compute; reflexivity|]. split; reflexivity.
    + cbn [ex_lesson6 le_boxes le_img]. intros b im Hb Him. apply ex_matches.
      destruct Hb as [<-|[<-|[]]]; [destruct (ex_ob_pictures _ (str "o") im (or_introl eq_refl) Him) as [(_ & ->)|(_ & ->)]|destruct (ex_ob_pictures _ (str "b") im (or_intror (or_introl eq_refl)) Him) as [(_ & ->)|(_ & ->)]]; auto.
    + vm_compute. reflexivity.
Qed.
