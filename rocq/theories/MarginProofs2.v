(** Proofs about all that is printed for the same line with other margins. *)
From Verif Require Import Base BaseProofs SortModel ImageModel ImageSpec ImageProofs PnmModel BoxModel BoxSpec BoxProofs StratModel ZoneModel DatasModel StreamModel GlyphIoModel DatasIoModel
  DictIoModel TrieModel IndexModel GlyphsModel FloatModel RecogModel FilterModel ExtractModel AssembleModel LearnModel ShowModel PipelineModel FormatModel ReportModel PrintModel PrintSpec PrintProofs PrintProofs2 Ocr6Model Ocr8Model OcrOutModel
  MarginSpec MarginProofs.

Lemma attempt_ext {A} out (m : res A) k k' : (forall a, m = Ok a -> k a = k' a) -> attempt out m k = attempt out m k'.
Proof. intros H. destruct m; try reflexivity. now apply H. Qed.
Lemma attempt_agree {A} out (R : A -> A -> Prop) (m m' : res A) k k' : agree R m m' -> (forall a a', m = Ok a -> m' = Ok a' -> R a a' -> k a = k' a') -> attempt out m k = attempt out m' k'.
Proof. intros G H. destruct m, m'; cbn [agree] in G; try contradiction; cbn [attempt]; try reflexivity; [now apply H|now rewrite G]. Qed.

Section Framed.
Context (dx dy : Z) (a b : image) (F : framed dx dy a b) (Sa : box_searchable a) (Sb : box_searchable b).
Notation mv := (moved dx dy).
(** * extract_text6 and extract_text8 *)
Lemma step_out_moved rec s s' out t : start_rel6 dx s s' -> tight_box a (q_x s) t -> 0 <= q_x s -> 0 <= q_x s' -> q_x s' <= bx t + dx -> bx t + bw t < iw a ->
  agree (fun q q' => snd q = snd q' /\ start_rel6 dx (fst q) (fst q') /\ q_x (fst q) = bx t + bw t /\ q_x (fst q') = bx t + bw t + dx) (step_out rec a s out t) (step_out rec b s' out (mv t)).
Proof.
  intros R T X0 X1 X2 X3. pose proof (step6_moved dx dy a b F Sa Sb (fun n im => '(f, _) <- rec n im ;; Ok f) s s' t R T X0 X1 X2 X3) as A. destruct R as ((R1 & R2 & R3 & R4 & R5) & R6).
  unfold step6 in A. unfold step_out. cbn [moved bx by_ bw bh] in *. rewrite (section_moved dx dy a b F Sa Sb _ _ T X0) in *. rewrite R4, R5 in *.
  destruct (section a (bx t) (by_ t) (bw t) (bh t)) as [im| | |]; cbn [bind] in *; try exact A. cbv zeta in *.
  destruct (cache_find (q_cache s) im) as [[r|]| | |]; cbn [bind] in *; try exact A.
  - destruct (rd (q_store s) r) as [[w l]| | |]; cbn [bind] in *; try exact A. destruct (rd l 0) as [f| | |]; cbn [bind] in *; try exact A. cbn [agree fst snd] in *. split; [reflexivity|exact A].
  - destruct (show_image im) as [u|ex| |]; cbn [bind agree]; try exact I; try reflexivity. destruct (rec (vsize (q_store s)) im) as [[f infos]| | |]; cbn [bind agree] in *; try exact A.
    destruct (cache_emplace (q_cache s) im (vsize (q_store s))) as [c| | |]; cbn [bind agree fst snd] in *; try exact A. split; [reflexivity|exact A].
Qed.
Lemma read_line_out_moved rec : agree (fun q q' => snd q = snd q' /\ line_rel6 (fst q) (fst q')) (read_line_out rec a) (read_line_out rec b).
Proof.
  destruct (segment_ok a Sa) as (boxes & E & _). pose proof (twin_boxes dx dy a b F Sa Sb (fun _ _ _ => True) boxes (fun _ _ => I) E ltac:(destruct boxes; exact I)) as Tw.
  pose proof (wa_small a Sa) as (W1 & W2). pose proof (wb_small b Sb) as (W3 & W4).
  unfold read_line_out.
  rewrite (loop_ext _ (fun so => cbox <- make_box_character a (q_x (fst so)) 0 (iw a) (ih a) ;; if box_bool cbox then s' <- step_out rec a (fst so) (snd so) cbox ;; Ok (inl s') else Ok (inr so))) by (intros [s o]; reflexivity).
  rewrite (loop_ext (fun '(s, out) => cbox <- make_box_character b (q_x s) 0 (iw b) (ih b) ;; _) (fun so => cbox <- make_box_character b (q_x (fst so)) 0 (iw b) (ih b) ;; if box_bool cbox then s' <- step_out rec b (fst so) (snd so) cbox ;; Ok (inl s') else Ok (inr so))) by (intros [s o]; reflexivity).
  apply (twin_loop dx dy a b F (fun so => q_x (fst so)) (fun so => q_x (fst so)) (fun cbox so => if box_bool cbox then s' <- step_out rec a (fst so) (snd so) cbox ;; Ok (inl s') else Ok (inr so))
    (fun cbox so => if box_bool cbox then s' <- step_out rec b (fst so) (snd so) cbox ;; Ok (inl s') else Ok (inr so))
    (fun _ _ _ => True) (fun q q' => snd q = snd q' /\ start_rel6 dx (fst q) (fst q')) (fun q q' => snd q = snd q' /\ line_rel6 (fst q) (fst q'))) with (x := 0) (x' := 0) (boxes := boxes); try assumption; try reflexivity; try lia.
  - intros s s' t t' (H & H') B B'. rewrite B, B'. split; [exact H|exact (proj1 H')].
  - intros s s' t (H & H') B T X0 X1 X2 X3 _. change (box_bool (mv t)) with (box_bool t). rewrite B, <- H.
    eapply agree_bind; [exact (step_out_moved rec _ _ _ t H' T X0 X1 X2 X3)|]. intros q q' (H1 & H2 & H3 & H4). split; [split; [exact H1|exact H2]|split; [exact H3|exact H4]].
  - cbn [fst snd]. unfold start_rel6, line_rel6. cbn [q_x q_r1 q_r2 q_amb q_cache q_store]. auto 10.
Qed.
(** * ocr2_extract_text *)
Lemma print_step_moved g e s s' out t : start_rel dx dy a s s' -> tight_box a (l_x s) t -> 0 <= l_x s -> 0 <= l_x s' -> l_x s' <= bx t + dx -> bx t + bw t < iw a ->
  agree (fun q q' => snd q = snd q' /\ start_rel dx dy a (fst q) (fst q') /\ l_x (fst q) = bx t + bw t /\ l_x (fst q') = bx t + bw t + dx) (print_step g e a s out t) (print_step g e b s' out (mv t)).
Proof.
  intros R T X0 X1 X2 X3. pose proof (char_step_moved dx dy a b F Sa Sb e s s' t R T X0 X1 X2 X3) as A. destruct R as ((R1 & R2 & R3 & R4 & R5 & R6 & R7) & _).
  unfold char_step in A. unfold print_step. cbn [moved bx by_ bw bh] in *. rewrite (section_moved dx dy a b F Sa Sb _ _ T X0) in *. rewrite R3, R4, R6 in *.
  destruct (section a (bx t) (by_ t) (bw t) (bh t)) as [im| | |]; cbn [bind] in *; try exact A. cbv zeta in *.
  destruct (cache_find (l_cache s) im) as [[r|]| | |]; cbn [bind] in *; try exact A.
  - cbn [agree fst snd] in *. split; [reflexivity|]. destruct A as (A1 & A2 & A3 & _). split; [exact A1|split; [exact A2|exact A3]].
  - destruct (show_image im) as [u|ex| |]; cbn [bind agree]; try exact I; try reflexivity.
    destruct (recognise_img e (vsize (l_store s)) im (l_cx s)) as [[l cx']| | |]; cbn [bind] in *; try exact A. destruct (clone im) as [key| | |]; cbn [bind] in *; try exact A.
    destruct (cache_emplace (l_cache s) key (vsize (l_store s))) as [c| | |]; cbn [bind] in *; try exact A.
    destruct (map_res (fun v => word_text g (ov_word v)) l) as [ws|ex| |]; cbn [bind agree]; try exact I; try reflexivity.
    cbn [agree fst snd] in *. split; [reflexivity|]. destruct A as (A1 & A2 & A3 & _). split; [exact A1|split; [exact A2|exact A3]].
Qed.
Lemma print_line_moved g e cx : agree (fun q q' => snd q = snd q' /\ line_rel dx dy (fst q) (fst q')) (print_line g e a cx) (print_line g e b cx).
Proof.
  destruct (segment_ok a Sa) as (boxes & E & _). pose proof (twin_boxes dx dy a b F Sa Sb (fun _ _ _ => True) boxes (fun _ _ => I) E ltac:(destruct boxes; exact I)) as Tw.
  pose proof (wa_small a Sa) as (W1 & W2). pose proof (wb_small b Sb) as (W3 & W4).
  unfold print_line.
  rewrite (loop_ext _ (fun so => cbox <- make_box_character a (l_x (fst so)) 0 (iw a) (ih a) ;; if box_bool cbox then s' <- print_step g e a (fst so) (snd so) cbox ;; Ok (inl s') else Ok (inr so))) by (intros [s o]; reflexivity).
  rewrite (loop_ext (fun '(s, out) => cbox <- make_box_character b (l_x s) 0 (iw b) (ih b) ;; _) (fun so => cbox <- make_box_character b (l_x (fst so)) 0 (iw b) (ih b) ;; if box_bool cbox then s' <- print_step g e b (fst so) (snd so) cbox ;; Ok (inl s') else Ok (inr so))) by (intros [s o]; reflexivity).
  apply (twin_loop dx dy a b F (fun so => l_x (fst so)) (fun so => l_x (fst so)) (fun cbox so => if box_bool cbox then s' <- print_step g e a (fst so) (snd so) cbox ;; Ok (inl s') else Ok (inr so))
    (fun cbox so => if box_bool cbox then s' <- print_step g e b (fst so) (snd so) cbox ;; Ok (inl s') else Ok (inr so))
    (fun _ _ _ => True) (fun q q' => snd q = snd q' /\ start_rel dx dy a (fst q) (fst q')) (fun q q' => snd q = snd q' /\ line_rel dx dy (fst q) (fst q'))) with (x := 0) (x' := 0) (boxes := boxes); try assumption; try reflexivity; try lia.
  - intros s s' t t' (H & H') B B'. rewrite B, B'. split; [exact H|exact (proj1 H')].
  - intros s s' t (H & H') B T X0 X1 X2 X3 _. change (box_bool (mv t)) with (box_bool t). rewrite B, <- H.
    eapply agree_bind; [exact (print_step_moved g e _ _ _ t H' T X0 X1 X2 X3)|]. intros q q' (H1 & H2 & H3 & H4). split; [split; [exact H1|exact H2]|split; [exact H3|exact H4]].
  - cbn [fst snd]. split; [reflexivity|]. unfold start_rel, line_rel, counted. cbn [l_x l_boxes l_spaces l_cache l_store l_amb l_cx map]. change (vsize (@nil box)) with 0. change (vsize (@nil Z)) with 0.
    split; [split; [reflexivity|]; split; [now left|]; repeat split; lia|]. split; [lia|]. right. auto.
Qed.
End Framed.

Lemma image_out_moved rec nodes x y out : same_line x y -> image_out rec nodes (Some y) out = image_out rec nodes (Some x) out.
Proof.
  intros (dx & dy & a & b & Ea & Eb & Sa & Sb & F). unfold image_out, load_image. rewrite Ea, Eb. cbn [attempt]. symmetry.
  eapply attempt_agree; [exact (read_line_out_moved dx dy a b F Sa Sb rec)|]. intros [s o] [s' o'] _ _ (Eo & [R1|R1] & R2 & R3 & _); cbn [fst snd] in *; rewrite <- Eo, R1, R2, R3, ?assemble6_indent; reflexivity.
Qed.
Theorem main6_moved rt nan disk prog glyphs datas i i' options x y : disk i = Some x -> disk i' = Some y -> same_line x y ->
  main6 rt nan disk (prog :: glyphs :: datas :: i' :: options) = main6 rt nan disk (prog :: glyphs :: datas :: i :: options).
Proof.
  intros Ex Ey L. unfold main6, load_out. rewrite Ex, Ey. apply attempt_ext. intros nodes _. apply attempt_ext. intros cols _. apply attempt_ext. intros gs _.
  destruct (negb _); [reflexivity|]. apply attempt_ext. intros [c w] _. apply attempt_ext. intros bw _. apply attempt_ext. intros sd _. now apply image_out_moved.
Qed.
Theorem main8_moved rt nan disk prog glyphs datas i i' options x y : disk i = Some x -> disk i' = Some y -> same_line x y ->
  main8 rt nan disk (prog :: glyphs :: datas :: i' :: options) = main8 rt nan disk (prog :: glyphs :: datas :: i :: options).
Proof.
  intros Ex Ey L. unfold main8, load_out. rewrite Ex, Ey. apply attempt_ext. intros nodes _. apply attempt_ext. intros cols _. apply attempt_ext. intros gs _.
  destruct (negb _); [reflexivity|]. apply attempt_ext. intros [[c w] t] _. apply attempt_ext. intros bw _. now apply image_out_moved.
Qed.
Theorem main2_moved rt nan cx disk disk' prog args args' glyphs datas x y lines dict dx dy a b boxes :
  files_are disk args glyphs datas x lines dict -> files_are disk' args' glyphs datas y lines dict ->
  image_of_bytes x 128 = Ok a -> image_of_bytes y 128 = Ok b -> box_searchable a -> box_searchable b -> framed dx dy a b ->
  segment a = Ok boxes -> same_indent dx boxes \/ opens_with_letter rt cx glyphs datas lines dict a -> not_second_row boxes -> not_second_row (map (moved dx dy) boxes) ->
  ocr2_main rt nan cx disk' (prog :: args') = ocr2_main rt nan cx disk (prog :: args).
Proof.
  intros Fx Fy Ea Eb Sa Sb F E Hi N N'. rewrite (main_files _ _ _ _ _ _ _ _ _ _ _ Fx), (main_files _ _ _ _ _ _ _ _ _ _ _ Fy), Ea, Eb.
  pose proof (extract_moved rt cx glyphs datas x y lines dict dx dy a b boxes Ea Eb Sa Sb F E Hi N N') as X.
  assert (L : forall nodes g infos t, load_all rt glyphs datas lines dict = Ok (nodes, g, infos, t) ->
    main_of rt nan cx glyphs datas (Ok b) lines dict = main_of rt nan cx glyphs datas (Ok a) lines dict).
  { intros nodes g infos t EL. rewrite !(main_loaded _ _ _ _ _ _ _ _ _ _ _ _ EL). cbv zeta. cbn [attempt]. symmetry.
    eapply attempt_agree; [exact (print_line_moved dx dy a b F Sa Sb g (rt_rec rt t) cx)|]. intros [s o] [s' o'] Es Es' (Eo & R). cbn [fst snd] in *. subst o'.
    apply print_line_forget in Es, Es'. rewrite (extract_rest _ _ _ _ _ _ _ _ _ _ _ _ _ EL Ea Es), (extract_rest _ _ _ _ _ _ _ _ _ _ _ _ _ EL Eb Es') in X.
    destruct R as (_ & _ & _ & _ & R & _). rewrite R in *. destruct (rest_of infos g nodes s) as [[t1 c1]| | |], (rest_of infos g nodes s') as [[t2 c2]| | |]; cbn [bind] in X; cbn [attempt]; try discriminate; try reflexivity; try congruence. }
  unfold main_of. apply attempt_ext. intros nodes E1. cbv zeta. apply attempt_ext. intros cols E2. apply attempt_ext. intros g E3. destruct (negb (vsize (gt_views g) =? datas_size cols)) eqn:E4; [reflexivity|].
  apply attempt_ext. intros ls E5. apply attempt_ext. intros [infos t] E6.
  destruct (words_infos (rt_lines rt) g ls) as [infos0| | |] eqn:E7; try discriminate. cbn [bind] in E6. destruct (make_table rt cols (gt_views g)) as [t0| | |] eqn:E8; try discriminate. cbn [bind] in E6. injection E6 as -> ->.
  specialize (L nodes g infos t). unfold load_all, main_of in L. rewrite E1 in L. cbn [bind attempt] in L. rewrite E2 in L. cbn [bind attempt] in L. rewrite E3 in L. cbn [bind attempt] in L. rewrite E4, E5 in L. cbn [bind attempt] in L. rewrite E7 in L. cbn [bind attempt] in L. rewrite E8 in L. cbn [bind attempt] in L.
  exact (L eq_refl).
Qed.
