(** The output of ocr2_extract_text does not depend on what the standard leaves open. *)
From Verif Require Import Base BaseProofs SortModel SortProofs ImageModel ImageSpec BoxModel BoxSpec BoxProofs StratModel ZoneModel DatasModel DatasSpec StreamModel DatasIoModel DictIoModel
  TrieModel IndexModel FloatModel RecogModel RecogSpec GlyphsModel GlyphsProofs3 FilterModel FilterSpec ExtractModel ExtractSpec ExtractProofs AssembleModel PipelineModel PipelineSpec
  ReportModel ShowModel FormatModel PrintModel PrintSpec LoadProofs PrintProofs SameSpec SameProofs.
From Coq Require Import Permutation Sorted.

(** * A picture *)
Lemma recognise_same e e' n img cx cx' : sound_recogniser e -> sound_recogniser e' -> same_data (r_table e) (r_table e') -> recognisable img -> untied_picture (r_table e) img ->
  labels_only (recognise_img e n img cx) = labels_only (recognise_img e' n img cx').
Proof.
  intros (T & V & P & Z1) (T' & V' & P' & Z1') D R U. unfold recognise_img. destruct (rotate90 img) as [img90| | |] eqn:Er; [|reflexivity..]. cbn [bind].
  assert (I : sound_input (mkin (r_junk e n) (r_zsort e) img img90)) by (split; [exact R|]; split; [exact Er|exact Z1]).
  apply compute_image_same; try assumption; [split; [exact R|]; split; [exact Er|exact Z1']|reflexivity|]. now apply U.
Qed.

(** * The line *)
Definition no_cx (s : lstate) := (l_x s, l_spaces s, l_boxes s, l_cache s, l_store s, l_amb s).
Definition line_only (m : res (lstate * list Z)) := '(s, out) <- m ;; Ok (no_cx s, out).
Lemma no_cx_fields s s' : no_cx s = no_cx s' -> l_x s = l_x s' /\ l_spaces s = l_spaces s' /\ l_boxes s = l_boxes s' /\ l_cache s = l_cache s' /\ l_store s = l_store s' /\ l_amb s = l_amb s'.
Proof. unfold no_cx. intros [=]. repeat split; assumption. Qed.
Lemma print_step_fields g e img s out b s1 o1 : print_step g e img s out b = Ok (s1, o1) -> l_x s1 = u32 (bx b + bw b) /\ l_boxes s1 = l_boxes s ++ [b].
Proof.
  unfold print_step. destruct (section _ _ _ _ _) as [im| | |]; try discriminate. cbn [bind]. destruct (cache_find _ _) as [[r|]| | |]; try discriminate; cbn [bind]; [intros [= <- _]; split; reflexivity|].
  destruct (show_image im) as [t| | |]; try discriminate. cbn [bind]. destruct (recognise_img _ _ _ _) as [[l cx]| | |]; try discriminate. cbn [bind].
  destruct (clone im) as [k| | |]; try discriminate. cbn [bind]. destruct (cache_emplace _ _ _) as [c| | |]; try discriminate. cbn [bind].
  destruct (map_res _ _) as [ws| | |]; try discriminate. cbn [bind]. intros [= <- _]. split; reflexivity.
Qed.

Section Line.
Context (e e' : recogniser) (HE : sound_recogniser e) (HE' : sound_recogniser e') (HD : same_data (r_table e) (r_table e')) (g : glyphs_table) (img : image) (Hs : box_searchable img).

Lemma print_step_same s s' out b x : no_cx s = no_cx s' -> tight_box img x b -> 0 <= x -> small_character img b -> (forall im, char_image img b im -> untied_picture (r_table e) im) ->
  line_only (print_step g e img s out b) = line_only (print_step g e' img s' out b).
Proof.
  intros En T Hx SM U. apply no_cx_fields in En as (E1 & E2 & E3 & E4 & E5 & E6). destruct (char_section img Hs x b T Hx) as (im & Es & Ci).
  unfold print_step. rewrite Es. cbn [bind]. rewrite <- E1, <- E2, <- E3, <- E4, <- E5, <- E6.
  destruct (cache_find (l_cache s) im) as [[r|]| | |]; [reflexivity| |reflexivity..]. cbn [bind]. destruct (show_image im) as [t| | |]; [|reflexivity..]. cbn [bind].
  pose proof (recognise_same e e' (vsize (l_store s)) im (l_cx s) (l_cx s') HE HE' HD (SM im Ci) (U im Ci)) as R. unfold labels_only in R.
  destruct (recognise_img e _ _ _) as [[l cx]|ex| |], (recognise_img e' _ _ _) as [[l' cx']|ex'| |]; try discriminate R; cbn [bind]; [|injection R as ->; reflexivity|reflexivity..].
  injection R as <-. destruct (clone im) as [k| | |]; [|reflexivity..]. cbn [bind]. destruct (cache_emplace _ _ _) as [c| | |]; [|reflexivity..]. cbn [bind].
  destruct (map_res _ _) as [ws| | |]; reflexivity.
Qed.

Lemma print_loop_same : forall fuel s s' out rest, no_cx s = no_cx s' -> 0 <= l_x s <= iw img -> iw img - l_x s < Z.of_nat fuel ->
  loop fuel (seg_body img) (l_x s, l_boxes s) = Ok (l_boxes s ++ rest) -> (forall b, In b rest -> small_character img b /\ forall im, char_image img b im -> untied_picture (r_table e) im) ->
  line_only (loop fuel (print_body g e img) (s, out)) = line_only (loop fuel (print_body g e' img) (s', out)).
Proof.
  induction fuel as [|f IH]; intros s s' out rest En Hx Hf Er SM; [lia|]. cbn [loop] in *. unfold print_body at 1 3.
  pose proof (no_cx_fields _ _ En) as (E1 & _ & E3 & _). rewrite <- E1.
  destruct (make_box_spec img Hs (l_x s) Hx) as (b & Eb & [(Hi & H0 & H1)|Ht]); cbn [seg_body] in Er; rewrite Eb in Er |- *; cbn [bind] in Er |- *.
  - replace (box_bool b) with false in Er |- * by (unfold box_bool; rewrite H0; reflexivity). unfold line_only. cbn [bind]. now rewrite En.
  - pose proof (tight_nonempty _ _ _ Ht) as Hne. apply box_bool_iff in Hne. rewrite Hne in Er |- *.
    assert (Hb : l_x s <= bx b /\ 0 < bw b /\ bx b + bw b < iw img) by (unfold tight_box in Ht; lia).
    assert (HW2 : iw img < 2147483648) by (destruct Hs as (_ & ? & ? & ?); nia).
    rewrite u32_small in Er by lia.
    destruct (segment_loop img Hs f (bx b + bw b) (l_boxes s ++ [b])) as (r & Er' & _); [lia|lia|].
    change (loop f (seg_body img) (bx b + bw b, l_boxes s ++ [b]) = Ok ((l_boxes s ++ [b]) ++ r)) in Er'.
    rewrite Er' in Er. injection Er as Er. rewrite <- app_assoc in Er. apply app_inv_head in Er. subst rest.
    destruct (SM b (or_introl eq_refl)) as (S1 & U1).
    pose proof (print_step_same s s' out b (l_x s) En Ht ltac:(lia) S1 U1) as P. unfold line_only in P.
    destruct (print_step g e img s out b) as [[s1 o1]|ex| |] eqn:P1, (print_step g e' img s' out b) as [[s2 o2]|ex'| |]; cbn [bind] in P |- *; try discriminate P; [|injection P as ->; reflexivity|reflexivity..].
    assert (P' : no_cx s1 = no_cx s2 /\ o1 = o2) by (split; congruence). destruct P' as (Pn & <-). destruct (print_step_fields _ _ _ _ _ _ _ _ P1) as (X & B). rewrite u32_small in X by lia.
    apply (IH s1 s2 o1 r Pn); [lia|lia|rewrite X, B; exact Er'|]. intros b' Hb'. apply SM. now right.
Qed.
Lemma print_line_same cx cx' : settled_line (r_table e) img -> line_only (print_line g e img cx) = line_only (print_line g e' img cx').
Proof.
  intros (_ & U). pose proof Hs as (_ & Hw & _).
  destruct (segment_loop img Hs (S (Z.to_nat (iw img))) 0 []) as (boxes & Eb & _); [lia|lia|].
  apply (print_loop_same (S (Z.to_nat (iw img))) (mkls 0 [] [] [] [] [] cx) (mkls 0 [] [] [] [] [] cx') [] boxes); cbn [l_x l_boxes]; [reflexivity|lia|lia|exact Eb|]. intros b. now apply U.
Qed.
End Line.

(** * The lines of words *)
Lemma infos_same sort sort' g ls : is_std_sort wi_lt sort -> is_std_sort wi_lt sort' -> single_lines g ls -> words_infos sort g ls = words_infos sort' g ls.
Proof.
  intros H H' N. unfold words_infos. destruct (index_lines g ls) as [r| | |] eqn:E; [|reflexivity..]. cbn [bind]. f_equal. specialize (N r E).
  destruct (H r (wi_lt_strict_weak r)) as (P & S1). destruct (H' r (wi_lt_strict_weak r)) as (P' & S2). unfold sorted_by in *.
  apply (sorted_same (fun a b => wi_lt b a = false)); [|exact S1|exact S2|now rewrite <- P, <- P'].
  intros a b Ia Ib L1 L2. unfold wi_lt in *. assert (Ew : wi_word a = wi_word b) by lia. apply (Permutation_in _ (Permutation_sym P)) in Ia, Ib.
  clear - N Ia Ib Ew. induction r as [|c r IH]; [destruct Ia|]. cbn [map] in N. inversion N as [|? ? N1 N2]; subst.
  destruct Ia as [<-|Ia], Ib as [<-|Ib]; [reflexivity|exfalso; apply N1; rewrite Ew; now apply in_map|exfalso; apply N1; rewrite <- Ew; now apply in_map|now apply IH].
Qed.

(** * The program *)
Lemma attempt_ext {A} out (m m' : res A) k k' : m = m' -> (forall a, m = Ok a -> k a = k' a) -> attempt out m k = attempt out m' k'.
Proof. intros <- H. destruct m; cbn [attempt]; auto. Qed.
Lemma attempt_line out m m' k : line_only m = line_only m' -> (forall s s' o, no_cx s = no_cx s' -> k (s, o) = k (s', o)) -> attempt out m k = attempt out m' k.
Proof.
  unfold line_only. intros E H. destruct m as [[s o]|e| |], m' as [[s' o']|e'| |]; cbn [bind] in E; try discriminate E; cbn [attempt]; [|congruence|reflexivity..].
  assert (P' : no_cx s = no_cx s' /\ o = o') by (split; congruence). destruct P' as (Pn & <-). now apply H.
Qed.
Lemma load_disk_some {A} disk (read : istream -> res (A * istream)) f a : load_disk disk read f = Ok a -> exists bytes, load_file read bytes = Ok a.
Proof. unfold load_disk. destruct (disk f) as [b|]; [|discriminate]. eauto. Qed.
Lemma made_sound rt cols g t bytes : legal rt -> load_file (read_datas all_strategies) bytes = Ok cols -> Z.of_nat (List.length (gt_views g)) < 4294967296 ->
  (forall c, In c cols -> Z.of_nat (List.length c) = Z.of_nat (List.length (gt_views g))) -> make_table rt cols (gt_views g) = Ok t ->
  t_strategies t = all_strategies /\ t_cols t = cols /\ t_glyphs t = gt_views g /\ sound_recogniser (rt_rec rt t).
Proof.
  intros (L1 & L2 & _ & LA & LB & LC) ED HS HC. unfold make_table. destruct (indexes_by_words (gt_views g)) as [bw| | |] eqn:EB; try discriminate. cbn [bind]. intros [= <-].
  split; [reflexivity|]. split; [reflexivity|]. split; [reflexivity|]. split; [|split; [apply LA|]; split; [exact LB|exact LC]]. apply loaded_columns in ED.
  constructor; cbn [rt_rec r_table t_strategies t_cols t_first t_by_words t_glyphs t_ids]; try reflexivity; try assumption.
  - symmetry. exact (F2_length _ _ _ ED).
  - intros s c Hc. split; [apply (HC c), (in_combine_r _ _ _ _ Hc)|]. assert (F : Forall (typed s) c); [|rewrite Forall_forall in F; exact F].
    clear - ED Hc. induction ED as [|a b l l' Hab F IH]; [destruct Hc|]. destruct Hc as [[= <- <-]|Hc]; [exact Hab|exact (IH Hc)].
  - eexists. split; [apply L1|reflexivity].
  - unfold indexes_by_words in EB. destruct (words_map (gt_views g) 0 []) as [m| | |] eqn:EW; try discriminate. exact (words_map_labelled _ _ _ _ EW).
  - eexists. split; [apply L2|reflexivity].
Qed.
Lemma main_same rt rt' nan cx cx' disk prog args : legal rt -> legal rt' -> settled_files disk args -> ocr2_main rt nan cx disk (prog :: args) = ocr2_main rt' nan cx' disk (prog :: args).
Proof.
  intros HL HL' SF. unfold ocr2_main. destruct args as [|fg [|fd [|fi options]]]; [reflexivity..|].
  apply attempt_ext; [reflexivity|]. intros nodes _. apply attempt_ext; [reflexivity|]. intros cols Ec. apply attempt_ext; [reflexivity|]. intros g Eg.
  destruct (negb _); [reflexivity|]. apply attempt_ext; [reflexivity|]. intros ls El.
  destruct (SF fg fd fi options cols g ls eq_refl Ec Eg El) as (SL & HS & HC & SI). clear SF. destruct (load_disk_some _ _ _ _ Ec) as (bytes & ED).
  pose proof HL as (_ & _ & W & _). pose proof HL' as (_ & _ & W' & _). rewrite <- (infos_same _ _ g ls W W' SL).
  destruct (words_infos (rt_lines rt) g ls) as [infos| | |]; [|reflexivity..]. cbn [bind].
  destruct (make_table rt cols (gt_views g)) as [t| | |] eqn:Et, (make_table rt' cols (gt_views g)) as [t'| | |] eqn:Et';
    unfold make_table in Et, Et'; destruct (indexes_by_words (gt_views g)) as [bw| | |] eqn:EB; try discriminate Et; try discriminate Et'; try reflexivity; [|cbn [bind attempt] in Et, Et' |- *; injection Et as <-; injection Et' as <-; reflexivity].
  assert (Mt : make_table rt cols (gt_views g) = Ok t) by (unfold make_table; rewrite EB; exact Et). assert (Mt' : make_table rt' cols (gt_views g) = Ok t') by (unfold make_table; rewrite EB; exact Et'). clear Et Et'.
  destruct (made_sound rt cols g t bytes HL ED HS HC Mt) as (T1 & T2 & T3 & HE). destruct (made_sound rt' cols g t' bytes HL' ED HS HC Mt') as (T1' & T2' & T3' & HE').
  cbn [bind attempt]. apply attempt_ext; [reflexivity|]. intros img Ei. pose proof (SI img t Ei T1 T2 T3) as ST.
  apply attempt_line.
  - apply (print_line_same (rt_rec rt t) (rt_rec rt' t') HE HE'); [split; cbn [rt_rec r_table]; congruence|apply ST|exact ST].
  - intros s s' o En. apply no_cx_fields in En as (E1 & E2 & E3 & E4 & E5 & E6). now rewrite <- E2, <- E3, <- E5, <- E6.
Qed.
