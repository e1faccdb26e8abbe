(** Every run ends: the recognition of a character. *)
From Verif Require Import Base BaseProofs SortModel ImageModel StratModel ZoneModel DatasModel StreamModel DatasIoModel TrieModel UtilModel IndexModel FloatModel RecogModel GlyphsModel ExtractModel ShowModel
  FormatModel Ocr6Model Ocr8Model OcrOutModel EndsSpec EndsProofs EndsProofs2 EndsProofs3.

(** * The values *)
Lemma ends_relationship a b n : ends (compute_relationship a b n).
Proof. unfold compute_relationship. ends_auto. Qed.
Lemma ends_pz_product a : forall b acc, ends (pz_product acc a b).
Proof. induction a as [|x a IH]; intros b acc; cbn [pz_product]; ends_auto. apply IH. Qed.
Lemma ends_pz_compute a b : ends (pz_compute a b).
Proof. unfold pz_compute. ends_auto; [apply ends_pz_product|apply ends_relationship]. Qed.
Lemma ends_array {T} (eqb : T -> T -> bool) a b : ends (array_compute eqb a b).
Proof. unfold array_compute. apply ends_divu. Qed.
Lemma ends_rel_dist r a b : ends (rel_dist r a b).
Proof. unfold rel_dist. ends_auto; first [apply ends_relationship|apply ends_array|apply ends_pz_compute]. Qed.
Lemma ends_rel_in_dist r a b d : ends (rel_in_dist r a b d).
Proof. unfold rel_in_dist, array_in_dist, pz_in_dist. ends_auto; first [apply ends_array|apply ends_pz_compute]. Qed.
Lemma ends_rel_compute r a b : ends (rel_compute r a b).
Proof. unfold rel_compute. ends_auto; first [apply ends_relationship|apply ends_array|apply ends_pz_compute]. Qed.
Lemma ends_col_at c i : ends (col_at c i).
Proof. unfold col_at. ends_auto. Qed.
Lemma ends_get_col ss : forall cols s, ends (get_col ss cols s).
Proof. induction ss as [|t ss IH]; intros cols s; cbn [get_col]; ends_auto. apply IH. Qed.
Lemma ends_fold {A S} (f : res S -> A -> res S) l : (forall m a, ends m -> ends (f m a)) -> forall m, ends m -> ends (fold_left f l m).
Proof. intros Hf. induction l as [|a l IH]; intros m Hm; cbn [fold_left]; [exact Hm|]. apply IH. now apply Hf. Qed.

(** * The recogniser of ocr2_extract_text *)
Lemma ends_universe cap r col indexes v : ends (initialize_universe cap r col indexes v).
Proof.
  unfold initialize_universe, get_range, range_bounds. apply ends_bind; [ends_auto|]. intros is _. apply ends_fold; [|discriminate]. intros m a Hm. ends_auto. exact Hm.
Qed.
Ltac rec1 := first [apply ends_col_at|apply ends_rel_dist|apply ends_rel_in_dist|apply ends_get_col|apply ends_rel_compute].
Lemma ends_reduce_distance r col v d ps : ends (reduce_with_distance r col v d ps).
Proof. induction ps as [|p ps IH]; cbn [reduce_with_distance]; ends_auto; first [rec1|exact IH]. Qed.
Lemma ends_init_prob r col v ps : ends (initialize_probability r col v ps).
Proof. induction ps as [|p ps IH]; cbn [initialize_probability]; ends_auto; first [rec1|exact IH]. Qed.
Lemma ends_update_prob r col v ps : ends (RecogModel.update_probability r col v ps).
Proof. induction ps as [|p ps IH]; cbn [RecogModel.update_probability]; ends_auto; first [rec1|exact IH]. Qed.
Lemma ends_reduce_update r col v limit ps : ends (reduce_and_update r col v limit ps).
Proof. induction ps as [|p ps IH]; cbn [reduce_and_update]; ends_auto; first [rec1|exact IH]. Qed.
Lemma ends_some_of pred l : (forall i, ends (pred i)) -> ends (some_of pred l).
Proof. intros Hp. induction l as [|i l IH]; cbn [some_of]; ends_auto; [apply Hp|exact IH]. Qed.
Lemma ends_reduce_by_word by_words pred ps : (forall i, ends (pred i)) -> ends (reduce_by_word by_words pred ps).
Proof. intros Hp. induction ps as [|p ps IH]; cbn [reduce_by_word]; ends_auto; first [now apply ends_some_of|exact IH]. Qed.
Lemma ends_reduce_all t ss : forall vs ps, ends (reduce_all t ss vs ps).
Proof. induction ss as [|s ss IH]; intros vs ps; cbn [reduce_all]; ends_auto; first [rec1|apply ends_reduce_distance|apply IH]. Qed.
Lemma ends_update_all t ss : forall vs ps, ends (update_all t ss vs ps).
Proof. induction ss as [|s ss IH]; intros vs ps; cbn [update_all]; ends_auto; first [rec1|apply ends_update_prob|apply IH]. Qed.
Lemma ends_all_in_dist t ss : forall vs i, ends (all_in_dist t ss vs i).
Proof. induction ss as [|s ss IH]; intros vs i; cbn [all_in_dist]; ends_auto; first [rec1|apply IH]. Qed.
Lemma ends_insert_views glyphs limit ps : ends (insert_views glyphs limit ps).
Proof. induction ps as [|p ps IH]; cbn [insert_views]; ends_auto. exact IH. Qed.

Section Input.
Context (inp : input) (H1 : sane (in_img inp)) (H2 : sane (in_img90 inp)).
Lemma ends_load s cx : ends (load inp s cx).
Proof. now apply ends_strategy_load. Qed.
Lemma ends_load_values ss : forall cx, ends (load_values inp ss cx).
Proof. induction ss as [|s ss IH]; intros cx; cbn [load_values]; ends_auto; [apply ends_load|apply IH]. Qed.
Lemma ends_simple t ss cx : ends (compute_simple_universe inp t ss cx).
Proof.
  unfold compute_simple_universe. ends_auto; first [apply ends_load|apply ends_get_col|apply ends_universe|apply ends_load_values|apply ends_reduce_all|apply ends_init_prob|apply ends_update_all].
Qed.
Lemma ends_reduce_complex t ss : forall ps cx, ends (reduce_complex inp t ss ps cx).
Proof. induction ss as [|s ss IH]; intros ps cx; cbn [reduce_complex]; ends_auto; first [apply ends_get_col|apply ends_load|apply ends_reduce_update|apply IH]. Qed.
Lemma ends_reduce_exclusive t ss ps cx : ends (reduce_exclusive inp t ss ps cx).
Proof. unfold reduce_exclusive. ends_auto; [apply ends_load_values|]. apply ends_reduce_by_word. intros i. apply ends_all_in_dist. Qed.
Lemma ends_compute_image sortv sortp simple complex exclusive t limit cx : ends (compute_image sortv sortp simple complex exclusive t inp limit cx).
Proof.
  unfold compute_image, sort_by_views, unique_by_views.
  ends_auto; first [apply ends_simple|apply ends_reduce_complex|apply ends_reduce_exclusive|apply ends_insert_views].
Qed.
End Input.
Lemma ends_recognise_img e n img cx : sane img -> ends (recognise_img e n img cx).
Proof.
  intros S. unfold recognise_img. apply ends_bind; [now apply ends_rotate90|]. intros i90 E. apply rotate90_sane in E as (E & _); [|exact S]. now apply ends_compute_image.
Qed.

(** * The recognisers of extract_text6 and extract_text8 *)
Lemma ends_load6 junk zsort img img90 s : sane img -> sane img90 -> ends (load6 junk zsort img img90 s).
Proof. intros S1 S2. unfold load6. ends_auto; now apply ends_strategy_load. Qed.
Lemma ends_and_mask mask : forall a, ends (and_mask a mask).
Proof. induction mask as [|m mask IH]; intros [|x a]; cbn [and_mask]; ends_auto. apply IH. Qed.
Lemma ends_and_masks masks : forall a vs, ends (and_masks a masks vs).
Proof. induction masks as [|m masks IH]; intros a [|v vs]; cbn [and_masks]; ends_auto; [apply ends_and_mask|apply IH]. Qed.
Lemma ends_score6 cols ss : forall vs i p, ends (score6 cols ss vs i p).
Proof. induction ss as [|s ss IH]; intros vs i p; cbn [score6]; unfold score_step; ends_auto; first [rec1|apply IH]. Qed.
Lemma ends_candidates6 cap cols sd vs : ends (candidates6 cap cols sd vs).
Proof. unfold candidates6, accepted6. ends_auto; first [apply ends_and_masks|apply ends_score6]. Qed.
Lemma ends_reduce8 d v col ps : ends (reduce8 d v col ps).
Proof. induction ps as [|p ps IH]; cbn [reduce8]; ends_auto; first [rec1|exact IH]. Qed.
Lemma ends_complex1 r col v ps : ends (reduce_complex1 r col v ps).
Proof. induction ps as [|p ps IH]; cbn [reduce_complex1]; ends_auto; first [rec1|exact IH]. Qed.
Lemma ends_has_value cols ss : forall vs i, ends (has_value cols ss vs i).
Proof. induction ss as [|s ss IH]; intros vs i; cbn [has_value]; ends_auto; first [rec1|apply IH]. Qed.
Section Load.
Context (load : strategy -> res fval) (Hl : forall s, ends (load s)).
Lemma ends_reduce_all8 cols ss : forall ps, ends (reduce_all8 load cols ss ps).
Proof. induction ss as [|s ss IH]; intros ps; cbn [reduce_all8]; ends_auto; first [apply Hl|rec1|apply ends_reduce8|apply IH]. Qed.
Lemma ends_score8 cols ss : forall i p, ends (score8 load cols ss i p).
Proof. induction ss as [|s ss IH]; intros i p; cbn [score8]; unfold update_probability; ends_auto; first [apply Hl|rec1|apply IH]. Qed.
Lemma ends_candidates8 cap cols : ends (candidates8 cap cols load).
Proof. unfold candidates8. ends_auto; first [apply Hl|rec1|apply ends_reduce_all8|apply ends_score8]. Qed.
Lemma ends_complex6 cols ss : forall ps, ends (reduce_complex6 load cols ss ps).
Proof. induction ss as [|s ss IH]; intros ps; cbn [reduce_complex6]; ends_auto; first [apply Hl|rec1|apply ends_complex1|apply IH]. Qed.
Lemma ends_exclusive6 cols by_words ps : ends (reduce_exclusive6 load cols by_words ps).
Proof. unfold reduce_exclusive6. ends_auto; [apply Hl|]. apply ends_reduce_by_word. intros i. apply ends_has_value. Qed.
Lemma ends_decide nan rt cols words by_word ps : ends (decide_out nan rt cols words by_word load ps).
Proof. unfold decide_out, rank_out, rank6, first_word6. ends_auto; first [apply ends_complex6|apply ends_exclusive6]. Qed.
End Load.
Lemma ends_recognise6 nan e n img : sane img -> ends (recognise_out6 nan e n img).
Proof.
  intros S. unfold recognise_out6. apply ends_bind; [now apply ends_rotate90|]. intros i90 E. apply rotate90_sane in E as (E & _); [|exact S].
  ends_auto; first [now apply ends_load6|apply ends_candidates6|apply ends_decide; intros s; now apply ends_load6].
Qed.
Lemma ends_recognise8 nan e n img : sane img -> ends (recognise_out8 nan e n img).
Proof.
  intros S. unfold recognise_out8. apply ends_bind; [now apply ends_rotate90|]. intros i90 E. apply rotate90_sane in E as (E & _); [|exact S].
  ends_auto; first [apply ends_candidates8; intros s; now apply ends_load6|apply ends_decide; intros s; now apply ends_load6].
Qed.

(** * The tables *)
Lemma ends_swap_each l : forall done tmp out, ends (swap_each done l tmp out).
Proof. induction l as [|i l IH]; intros done tmp out; cbn [swap_each]; ends_auto. apply IH. Qed.
Lemma ends_words_map gs : forall n m, ends (words_map gs n m).
Proof. induction gs as [|g gs IH]; intros n m; cbn [words_map]; ends_auto. apply IH. Qed.
Lemma ends_fill_by_words m : forall out, ends (fill_by_words m out).
Proof. induction m as [|(k, l) m IH]; intros out; cbn [fill_by_words]; ends_auto; first [apply ends_swap_each|apply IH]. Qed.
Lemma ends_indexes_by_words gs : ends (indexes_by_words gs).
Proof. unfold indexes_by_words. ends_auto; [apply ends_words_map|apply ends_fill_by_words]. Qed.
Lemma ends_word_groups ws : forall n m, ends (word_groups ws n m).
Proof. induction ws as [|w ws IH]; intros n m; cbn [word_groups]; ends_auto. apply IH. Qed.
Lemma ends_fill_data m : forall out, ends (fill_data_by_word m out).
Proof. induction m as [|(k, l) m IH]; intros out; cbn [fill_data_by_word]; ends_auto; first [apply ends_swap_each|apply IH]. Qed.
Lemma ends_data_by_word ws : ends (data_by_word ws).
Proof. unfold data_by_word. ends_auto; [apply ends_word_groups|apply ends_fill_data]. Qed.
Lemma ends_reindex {T} (def : T) moved ix cont : ends (reindex def moved ix cont).
Proof.
  unfold reindex. generalize (repeat def (List.length cont)) as new. generalize 0 as it. revert cont. induction ix as [|i ix IH]; intros cont it new; cbn [reindex_loop]; ends_auto. apply IH.
Qed.
Lemma ends_order6 rt cols ws : ends (order6 rt cols ws).
Proof. unfold order6. ends_auto; first [apply ends_get_col|apply ends_reindex]. Qed.
Lemma ends_count_near n col : ends (count_near n col).
Proof. unfold count_near. apply ends_fold; [|discriminate]. intros m a Hm. ends_auto. exact Hm. Qed.
Lemma ends_count_below n col : ends (count_below n col).
Proof. unfold count_below. apply ends_bind; [|discriminate]. apply ends_fold; [|discriminate]. intros m a Hm. ends_auto. exact Hm. Qed.
Lemma ends_search6 cols : ends (make_search6 cols).
Proof. unfold make_search6, masks_of, mask_of_value, set_bit. ends_auto; first [apply ends_get_col|apply ends_count_near|apply ends_count_below]. Qed.
Lemma ends_rows_eq cols i j : ends (rows_eq cols i j).
Proof. induction cols as [|c cols IH]; cbn [rows_eq]; ends_auto; first [apply ends_col_at|exact IH]. Qed.
Lemma ends_find_row cols i l : forall pos, ends (find_row cols i l pos).
Proof. induction l as [|j l IH]; intros pos; cbn [find_row]; ends_auto; [apply ends_rows_eq|apply IH]. Qed.
Lemma find_row_range cols i l : forall pos r, find_row cols i l pos = Ok r -> pos <= r <= pos + vsize l.
Proof.
  induction l as [|j l IH]; intros pos r; cbn [find_row]; [intros E; injection E as <-; unfold vsize; cbn; lia|]. intros E. apply bind_Ok in E as (b & _ & E). destruct b.
  - injection E as <-. unfold vsize. lia.
  - apply IH in E. unfold vsize in *. cbn [List.length]. lia.
Qed.
Lemma ends_merge_at moved ix p s : ends (merge_at moved ix p s).
Proof. unfold merge_at. destruct s. ends_auto. Qed.
Lemma ends_find_duplicates moved cols ix ws : ends (find_duplicates moved cols ix ws).
Proof.
  unfold find_duplicates. apply (ends_loop (fun '(first, _) => 0 <= first <= vsize ix) (fun '(first, _) => Z.to_nat (vsize ix - first))); [| |unfold vsize; lia|unfold vsize; lia].
  - intros (first & s) _. ends_auto; [apply ends_find_row|apply ends_merge_at].
  - intros (first & s) (f2 & s2) Hf H. destruct (Z.eqb_spec first (vsize ix)); [discriminate|]. apply bind_Ok in H as (i & E & H). apply rd_Ok in E. apply bind_Ok in H as (pos & E2 & H).
    apply find_row_range in E2. apply bind_Ok in H as (s3 & _ & H). injection H as <- _. unfold vsize in *. rewrite skipn_length in E2. lia.
Qed.
Lemma ends_advance p l : ends (advance p l).
Proof. induction l as [|d l IH]; cbn [advance]; ends_auto. exact IH. Qed.
Lemma ends_drop_duplicates dup ix : ends (drop_duplicates dup ix).
Proof. unfold drop_duplicates, copy_step, put_cells. ends_auto. apply ends_advance. Qed.
Lemma ends_order8 rt cols ws : ends (order_out8 rt cols ws).
Proof. unfold order_out8. ends_auto; first [apply ends_get_col|apply ends_find_duplicates|apply ends_drop_duplicates|apply ends_reindex]. Qed.
