(** Proofs about what extract_text6 and extract_text8 print: the programs. *)
From Verif Require Import Base BaseProofs SortModel ImageModel ImageSpec PnmModel BoxModel BoxSpec StratModel ZoneModel DatasModel DatasSpec DatasProofs StreamModel GlyphIoModel GlyphIoSpec GlyphIoProofs
  DatasIoModel DictIoModel TrieModel TrieProofs UtilModel UtilProofs IndexModel FloatModel RecogModel RecogSpec RecogProofs RecogProofs2 ExtractModel ExtractSpec LearnModel PipelineModel PipelineSpec AssembleSpec PipelineProofs4 LearnProofs3 PipelineProofs2 ReadSpec ReadProofs
  Ocr6Model Ocr6Spec Ocr6Proofs Ocr6Proofs2 OcrProofs Ocr6Proofs3 Ocr6Proofs4 Ocr6Proofs5 Ocr8Model Ocr8Spec Ocr8Proofs Ocr8Proofs2 Ocr8Proofs3 OcrOutcome OcrOutcome2 Ocr8Outcome
  ShowModel ShowSpec FormatModel PrintModel PrintSpec PrintProofs PrintProofs2 OcrOutModel OcrOutSpec OcrOutProofs OcrOutProofs2.
From Coq Require Import Permutation.

(** * Sizes *)
Lemma wr_size {T} (l : list T) i v l' : wr l i v = Ok l' -> List.length l' = List.length l.
Proof. unfold wr. destruct (_ || _); [discriminate|]. intros [= <-]. apply upd_length. Qed.
Lemma reindex_loop_size {T} (moved : T -> T) : forall idx cont new it out, reindex_loop moved idx cont new it = Ok out -> List.length out = List.length new.
Proof.
  induction idx as [|i idx IH]; intros cont new it out; cbn [reindex_loop]; [intros [= <-]; reflexivity|]. destruct (rd cont i) as [x| | |]; try discriminate. cbn [bind].
  destruct (wr new it x) as [new'| | |] eqn:E; try discriminate. cbn [bind]. destruct (wr cont i _); try discriminate. cbn [bind]. intros H. rewrite (IH _ _ _ _ H). exact (wr_size _ _ _ _ E).
Qed.
Lemma reindex_size {T} (d : T) moved idx l out : reindex d moved idx l = Ok out -> List.length out = List.length l.
Proof. unfold reindex. intros H. rewrite (reindex_loop_size _ _ _ _ _ _ H). apply repeat_length. Qed.
Lemma reindex_datas idx cols cs : map_res (reindex (VNum 0) moved_value idx) cols = Ok cs -> datas_size cs = datas_size cols.
Proof.
  destruct cols as [|c cols]; cbn [map_res]; [intros [= <-]; reflexivity|]. destruct (reindex _ _ idx c) as [c'| | |] eqn:E; try discriminate. cbn [bind].
  destruct (map_res _ cols); try discriminate. cbn [bind]. intros [= <-]. cbn [datas_size]. now rewrite (reindex_size _ _ _ _ _ E).
Qed.

(** * The order of extract_text8 *)
Lemma order_forget rt cols words : order8 rt cols words = ('(cs, w, _) <- order_out8 rt cols words ;; Ok (cs, w)).
Proof.
  unfold order8, order_out8. destruct (1 <? vsize words); [|reflexivity]. destruct (get_col _ _ _) as [c| | |]; try reflexivity. cbn [bind]. cbv zeta. destruct (find_duplicates _ _ _ _) as [(dup, w)| | |]; try reflexivity. cbn [bind].
  destruct (drop_duplicates _ _); try reflexivity. cbn [bind]. destruct (reindex _ _ _ _); try reflexivity. cbn [bind]. destruct (map_res _ _); reflexivity.
Qed.
Lemma merge_at_length moved idx p dup words dup' words' : merge_at moved idx p (dup, words) = Ok (dup', words') -> List.length words' = List.length words.
Proof.
  unfold merge_at. destruct (rd idx p); try discriminate. cbn [bind]. destruct (rd idx (p - 1)); try discriminate. cbn [bind]. destruct (rd words _); try discriminate. cbn [bind]. destruct (rd words _); try discriminate. cbn [bind].
  destruct (union_words _ _ _) as (o, r). destruct (wr words _ r) as [w1| | |] eqn:E1; try discriminate. cbn [bind]. destruct (wr w1 _ _) as [w2| | |] eqn:E2; try discriminate. cbn [bind]. intros [= _ <-].
  rewrite (wr_size _ _ _ _ E2). exact (wr_size _ _ _ _ E1).
Qed.
Lemma merges_size moved idx n : forall i s s', for_up n i (merge_at moved idx) s = Ok s' -> List.length (snd s') = List.length (snd s).
Proof.
  induction n as [|n IH]; intros i s s'; cbn [for_up]; [intros [= <-]; reflexivity|]. destruct (merge_at moved idx i s) as [s1| | |] eqn:E; try discriminate. cbn [bind]. intros H. rewrite (IH _ _ _ H).
  destruct s as (d, w), s1 as (d1, w1). exact (merge_at_length _ _ _ _ _ _ _ E).
Qed.
Lemma find_size moved cols idx words dup w : find_duplicates moved cols idx words = Ok (dup, w) -> List.length w = List.length words.
Proof.
  unfold find_duplicates. assert (H : forall fuel first (s : list Z * list (list (list Z))) s', loop fuel (fun '(first, s) => if first =? vsize idx then Ok (inr s) else
     i <- rd idx first ;; pos <- find_row cols i (skipn (Z.to_nat (first + 1)) idx) (first + 1) ;; s <- for_up (Z.to_nat (pos - (first + 1))) (first + 1) (merge_at moved idx) s ;; Ok (inl (pos, s))) (first, s) = Ok s' ->
     List.length (snd s') = List.length (snd s)).
  { induction fuel as [|fuel IH]; intros first s s'; cbn [loop]; [discriminate|]. destruct (first =? vsize idx); [intros [= <-]; reflexivity|]. destruct (rd idx first); try discriminate. cbn [bind].
    destruct (find_row _ _ _ _); try discriminate. cbn [bind]. destruct (for_up _ _ _ s) as [s1| | |] eqn:E; try discriminate. cbn [bind]. intros H. rewrite (IH _ _ _ H). exact (merges_size _ _ _ _ _ _ E). }
  intros E. exact (H _ _ _ _ E).
Qed.
Lemma order_shown rt cols words cs w t : order_out8 rt cols words = Ok (cs, w, t) -> vsize w = vsize words /\ datas_size cs = datas_size cols /\
  exists k, t = (if 1 <? vsize words then str " ## duplicate.size(): " ++ print_uint k ++ [10] else []) /\
    (1 < vsize words -> exists col dup w1, get_col all_strategies cols first6 = Ok col /\
       find_duplicates (r8_moved rt) cols (r6_first (r8_base rt) (map Ocr6Model.num col) (zrange (datas_size cols))) words = Ok (dup, w1) /\ k = vsize dup).
Proof.
  unfold order_out8. destruct (Z.ltb_spec 1 (vsize words)) as [L|L]; [|intros [= <- <- <-]; split; [reflexivity|]; split; [reflexivity|]; exists 0; split; [reflexivity|lia]].
  destruct (get_col _ _ _) as [c| | |]; try discriminate. cbn [bind]. cbv zeta. destruct (find_duplicates _ _ _ _) as [(dup, w1)| | |] eqn:Ef; try discriminate. cbn [bind].
  destruct (drop_duplicates _ _); try discriminate. cbn [bind]. destruct (reindex [] _ _ _) as [w2| | |] eqn:Er; try discriminate. cbn [bind]. destruct (map_res _ _) as [cs'| | |] eqn:Em; try discriminate. cbn [bind].
  intros E. apply Ok_inj in E. injection E as <- <- <-. split; [unfold vsize; now rewrite (reindex_size _ _ _ _ _ Er), (find_size _ _ _ _ _ _ Ef)|]. split; [exact (reindex_datas _ _ _ Em)|].
  exists (vsize dup). split; [reflexivity|]. intros _. exists c, dup, w1. auto.
Qed.

(** * The files *)
Lemma load_out_ok disk fg fd o glyphs datas dict k nodes cols gs : disk fg = Some glyphs -> disk fd = Some datas -> option_file disk o dict ->
  load_optional read_dict [] dict = Ok nodes -> load_file (read_datas all_strategies) datas = Ok cols -> load_file read_glyphs glyphs = Ok gs -> vsize gs = datas_size cols ->
  load_out disk fg fd o k = k (dict_line (dict_shown dict nodes) ++ sizes (vsize gs) (vsize gs)) nodes cols gs.
Proof.
  intros Eg Ed Od En Ec Es V. unfold load_out. rewrite (option_load disk read_dict [] _ _ Od), En. cbn [attempt]. rewrite (option_shown disk _ _ nodes Od). unfold load_disk. rewrite Ed, Ec. cbn [attempt]. rewrite Eg, Es. cbn [attempt].
  rewrite V, Z.eqb_refl. cbn [negb]. unfold sizes, report_line. rewrite <- !app_assoc. reflexivity.
Qed.
Lemma load_out_refused disk glyphs datas dict out x (k : list Z -> list fnode -> list (list fval) -> list glyph -> res (list Z * ended)) fg fd o :
  disk fg = glyphs -> disk fd = datas -> option_file disk o dict -> refused_files glyphs datas dict out x -> load_out disk fg fd o k = Ok (out, Aborts x).
Proof.
  intros <- <- Od R. unfold load_out. rewrite (option_load disk read_dict [] _ _ Od). unfold load_disk.
  inversion R as [? H|nodes ? H1 H2|nodes cols ? H1 H2 H3|nodes cols gs H1 H2 H3 H4]; subst; unfold contents in *.
  - rewrite H. reflexivity.
  - rewrite H1. cbn [attempt]. rewrite (option_shown disk _ _ nodes Od), H2. reflexivity.
  - rewrite H1. cbn [attempt]. rewrite (option_shown disk _ _ nodes Od), H2. cbn [attempt]. rewrite H3. reflexivity.
  - rewrite H1. cbn [attempt]. rewrite (option_shown disk _ _ nodes Od), H2. cbn [attempt]. rewrite H3. cbn [attempt]. apply Z.eqb_neq in H4. rewrite H4. cbn [negb]. unfold sizes, report_line. rewrite <- !app_assoc. reflexivity.
Qed.
Theorem main_refused6 rt nan disk prog args glyphs datas image dict out x : disk_files6 disk args glyphs datas image dict -> refused_files glyphs datas dict out x ->
  main6 rt nan disk (prog :: args) = Ok (out, Aborts x).
Proof. intros (fg & fd & fi & options & -> & Eg & Ed & Ei & Od) R. unfold main6. eapply load_out_refused; eassumption. Qed.
Theorem main_refused8 rt nan disk prog args glyphs datas image dict out x : disk_files6 disk args glyphs datas image dict -> refused_files glyphs datas dict out x ->
  main8 rt nan disk (prog :: args) = Ok (out, Aborts x).
Proof. intros (fg & fd & fi & options & -> & Eg & Ed & Ei & Od) R. unfold main8. eapply load_out_refused; eassumption. Qed.

Lemma loaded6 rt glyphs datas dict nodes e : load_all6 rt glyphs datas dict = Ok (nodes, e) -> exists cols gs cs w bw sd, load_optional read_dict [] dict = Ok nodes /\ load_file (read_datas all_strategies) datas = Ok cols /\
  load_file read_glyphs glyphs = Ok gs /\ vsize gs = datas_size cols /\ order6 rt cols (map (fun g => unique_words (map vw_word (gl_views g))) gs) = Ok (cs, w) /\ data_by_word w = Ok bw /\ make_search6 cs = Ok sd /\ e = mkenv6 rt cs sd w bw.
Proof.
  unfold load_all6. destruct (load_optional read_dict [] dict) as [nodes0| | |]; try discriminate. cbn [bind]. destruct (load_file (read_datas all_strategies) datas) as [cols| | |]; try discriminate. cbn [bind].
  destruct (load_file read_glyphs glyphs) as [gs| | |]; try discriminate. cbn [bind]. destruct (negb (vsize gs =? datas_size cols)) eqn:N; try discriminate. apply negb_false_iff, Z.eqb_eq in N.
  destruct (order6 _ _ _) as [(cs, w)| | |] eqn:Eo; try discriminate. cbn [bind]. destruct (data_by_word w) as [bw| | |] eqn:Eb; try discriminate. cbn [bind]. destruct (make_search6 cs) as [sd| | |] eqn:Es; try discriminate. cbn [bind].
  intros E. apply Ok_inj in E. injection E as <- <-. exists cols, gs, cs, w, bw, sd. auto 10.
Qed.
Lemma main_loaded6 rt nan disk prog args glyphs datas image dict nodes e : disk_files6 disk args (Some glyphs) (Some datas) image dict -> load_all6 rt glyphs datas dict = Ok (nodes, e) ->
  exists gs, load_file read_glyphs glyphs = Ok gs /\ main6 rt nan disk (prog :: args) = image_out (recognise_out6 nan e) nodes image (head6 (dict_shown dict nodes) (vsize gs)).
Proof.
  intros (fg & fd & fi & options & -> & Eg & Ed & Ei & Od) EL. destruct (loaded6 _ _ _ _ _ _ EL) as (cols & gs & cs & w & bw & sd & En & Ec & Es & V & Eo & Eb & Ex & ->). exists gs. split; [exact Es|].
  unfold main6. rewrite (load_out_ok disk fg fd _ glyphs datas dict _ nodes cols gs Eg Ed Od En Ec Es V). cbv zeta. rewrite Eo. cbn [attempt]. rewrite Eb. cbn [attempt]. rewrite Ex. cbn [attempt]. rewrite Ei.
  unfold head6, report_line, note_line. rewrite <- !app_assoc. reflexivity.
Qed.
Lemma loaded8 rt glyphs datas dict nodes e : load_all8 rt glyphs datas dict = Ok (nodes, e) -> exists cols gs cs w bw t, load_optional read_dict [] dict = Ok nodes /\ load_file (read_datas all_strategies) datas = Ok cols /\
  load_file read_glyphs glyphs = Ok gs /\ vsize gs = datas_size cols /\ order_out8 rt cols (map (fun g => unique_words (map vw_word (gl_views g))) gs) = Ok (cs, w, t) /\ data_by_word w = Ok bw /\ e = mkenv8 (r8_base rt) cs w bw.
Proof.
  unfold load_all8. destruct (load_optional read_dict [] dict) as [nodes0| | |]; try discriminate. cbn [bind]. destruct (load_file (read_datas all_strategies) datas) as [cols| | |]; try discriminate. cbn [bind].
  destruct (load_file read_glyphs glyphs) as [gs| | |]; try discriminate. cbn [bind]. destruct (negb (vsize gs =? datas_size cols)) eqn:N; try discriminate. apply negb_false_iff, Z.eqb_eq in N. rewrite order_forget.
  destruct (order_out8 _ _ _) as [((cs, w), t)| | |] eqn:Eo; try discriminate. cbn [bind]. destruct (data_by_word w) as [bw| | |] eqn:Eb; try discriminate. cbn [bind].
  intros E. apply Ok_inj in E. injection E as <- <-. exists cols, gs, cs, w, bw, t. auto 10.
Qed.
Lemma main_loaded8 rt nan disk prog args glyphs datas image dict nodes e : disk_files6 disk args (Some glyphs) (Some datas) image dict -> load_all8 rt glyphs datas dict = Ok (nodes, e) ->
  exists gs k, load_file read_glyphs glyphs = Ok gs /\ main8 rt nan disk (prog :: args) = image_out (recognise_out8 nan e) nodes image (head8 (dict_shown dict nodes) (vsize gs) k) /\
    (1 < vsize gs -> exists cols col dup w1, load_file (read_datas all_strategies) datas = Ok cols /\ get_col all_strategies cols first6 = Ok col /\
       find_duplicates (r8_moved rt) cols (r6_first (r8_base rt) (map Ocr6Model.num col) (zrange (datas_size cols))) (map (fun g => unique_words (map vw_word (gl_views g))) gs) = Ok (dup, w1) /\ k = vsize dup).
Proof.
  intros (fg & fd & fi & options & -> & Eg & Ed & Ei & Od) EL. destruct (loaded8 _ _ _ _ _ _ EL) as (cols & gs & cs & w & bw & t & En & Ec & Es & V & Eo & Eb & ->). exists gs.
  destruct (order_shown _ _ _ _ _ _ Eo) as (W1 & W2 & k & Et & K). assert (Vm : vsize (map (fun g => unique_words (map vw_word (gl_views g))) gs) = vsize gs) by (unfold vsize; now rewrite map_length). rewrite Vm in *.
  exists k. split; [exact Es|]. split; [|intros L; destruct (K L) as (col & dup & w1 & K1 & K2 & K3); exists cols, col, dup, w1; auto].
  unfold main8. rewrite (load_out_ok disk fg fd _ glyphs datas dict _ nodes cols gs Eg Ed Od En Ec Es V). cbv zeta. rewrite Eo. cbn [attempt]. rewrite Eb. cbn [attempt]. rewrite Ei, W1, W2, <- V, Et.
  unfold head8, sizes, report_line, note_line. rewrite <- !app_assoc. reflexivity.
Qed.

(** * The image *)
Lemma image_shown rec reco (text : image -> found6 -> list Z -> Prop) nodes image img boxes head : steady rec -> (forall n im, rec n im = ('(f, _) <- reco n im ;; Ok f)) ->
  (forall n im f t, recognisable im -> reco n im = Ok (f, t) -> text im f t) -> image_of_bytes image 128 = Ok img -> box_searchable img -> segment img = Ok boxes -> Forall (small_character img) boxes ->
  shown_as (s <- read_line6 rec img ;; r3 <- assemble6 nodes (q_amb s) ;; Ok (q_r1 s, q_r2 s, r3)) head (printed_with rec text img boxes) (image_out reco nodes (Some image) head).
Proof.
  intros HA Hr Ht EI Hs Eb Sm. destruct (read_line_out_ok rec HA reco Hr text Ht img Hs boxes Eb Sm) as (F & P). unfold image_out. cbn [load_image]. rewrite EI. cbn [attempt]. rewrite F.
  destruct (read_line_out reco img) as [(s, chars)|x| |] eqn:E; cbn [bind attempt]; [|exists []; now rewrite app_nil_r|reflexivity|reflexivity].
  destruct (assemble6 nodes (q_amb s)) as [r3|x| |]; cbn [bind attempt shown_as]; [|exists chars; reflexivity|reflexivity|reflexivity].
  exists chars. split; [exact (P s chars eq_refl)|]. unfold results_text, results_lines, report_line. rewrite <- !app_assoc. reflexivity.
Qed.
Theorem main_output6 rt nan disk prog args glyphs datas image dict nodes e img boxes : files_are6 disk args glyphs datas image dict -> load_all6 rt glyphs datas dict = Ok (nodes, e) -> sound_env6 e ->
  image_of_bytes image 128 = Ok img -> box_searchable img -> segment img = Ok boxes -> Forall (small_character img) boxes ->
  exists gs, load_file read_glyphs glyphs = Ok gs /\
    shown_as (extract_text6 rt glyphs datas image dict) (head6 (dict_shown dict nodes) (vsize gs)) (printed_with (recognise6 e) (explained6 e) img boxes) (main6 rt nan disk (prog :: args)).
Proof.
  intros F EL HE EI Hs Eb Sm. destruct (main_loaded6 rt nan disk prog args glyphs datas (Some image) dict nodes e F EL) as (gs & Eg & ->). exists gs. split; [exact Eg|].
  unfold extract_text6. rewrite EL. cbn [bind]. rewrite EI. cbn [bind]. apply image_shown; [now apply recognise6_steady|intros; apply recognise_forget6|intros n im f t R; now apply recognise_text6|assumption..].
Qed.
Theorem main_output8 rt nan disk prog args glyphs datas image dict nodes e img boxes : files_are6 disk args glyphs datas image dict -> load_all8 rt glyphs datas dict = Ok (nodes, e) -> sound_env8 e ->
  image_of_bytes image 128 = Ok img -> box_searchable img -> segment img = Ok boxes -> Forall (small_character img) boxes ->
  exists gs repeated, load_file read_glyphs glyphs = Ok gs /\
    shown_as (extract_text8 rt glyphs datas image dict) (head8 (dict_shown dict nodes) (vsize gs) repeated) (printed_with (recognise8 e) (explained8 e) img boxes) (main8 rt nan disk (prog :: args)).
Proof.
  intros F EL HE EI Hs Eb Sm. destruct (main_loaded8 rt nan disk prog args glyphs datas (Some image) dict nodes e F EL) as (gs & k & Eg & -> & _). exists gs, k. split; [exact Eg|].
  unfold extract_text8. rewrite EL. cbn [bind]. rewrite EI. cbn [bind]. apply image_shown; [now apply recognise8_steady|intros; apply recognise_forget8|intros n im f t R; now apply recognise_text8|assumption..].
Qed.
(** An image that is refused or missing. *)
Theorem main_image6 rt nan disk prog args glyphs datas image dict nodes e x : disk_files6 disk args (Some glyphs) (Some datas) image dict -> load_all6 rt glyphs datas dict = Ok (nodes, e) -> load_image image 128 = Throw x ->
  exists gs, load_file read_glyphs glyphs = Ok gs /\ main6 rt nan disk (prog :: args) = Ok (head6 (dict_shown dict nodes) (vsize gs), Aborts x).
Proof. intros F EL EI. destruct (main_loaded6 rt nan disk prog args glyphs datas image dict nodes e F EL) as (gs & Eg & ->). exists gs. split; [exact Eg|]. unfold image_out. now rewrite EI. Qed.
Theorem main_image8 rt nan disk prog args glyphs datas image dict nodes e x : disk_files6 disk args (Some glyphs) (Some datas) image dict -> load_all8 rt glyphs datas dict = Ok (nodes, e) -> load_image image 128 = Throw x ->
  exists gs repeated, load_file read_glyphs glyphs = Ok gs /\ main8 rt nan disk (prog :: args) = Ok (head8 (dict_shown dict nodes) (vsize gs) repeated, Aborts x).
Proof. intros F EL EI. destruct (main_loaded8 rt nan disk prog args glyphs datas image dict nodes e F EL) as (gs & k & Eg & -> & _). exists gs, k. split; [exact Eg|]. unfold image_out. now rewrite EI. Qed.
Lemma usage6 rt nan disk prog args : (List.length args < 3)%nat -> main6 rt nan disk (prog :: args) = Ok ([], Exits 1).
Proof. intros H. destruct args as [|a [|b [|c args]]]; cbn in H; try lia; reflexivity. Qed.
Lemma usage8 rt nan disk prog args : (List.length args < 3)%nat -> main8 rt nan disk (prog :: args) = Ok ([], Exits 1).
Proof. intros H. destruct args as [|a [|b [|c args]]]; cbn in H; try lia; reflexivity. Qed.

(** * Trained glyphs *)
Theorem main_trained6 rt gs junk z cx0 datas bytes img boxes dict spell nan disk prog args : legal6 rt -> trainable6 gs -> is_std_sort Z.ltb z ->
  write_datas_file junk z cx0 (write_glyphs gs) = Ok (Some datas) -> image_of_bytes bytes 128 = Ok img -> box_searchable img -> segment img = Ok boxes ->
  Forall (small_character img) boxes -> dict_spell (labels gs) dict spell -> files_are6 disk args (write_glyphs gs) datas bytes dict ->
  exists e nodes, built6 z gs e /\ load_optional read_dict [] dict = Ok nodes /\
    let bad := exists b im, In b boxes /\ char_image img b im /\ undefined6 (r6_zones rt) im (e6_cols e) (e6_words e) in
    (bad /\ main6 rt nan disk (prog :: args) = UB) \/
    (~ bad /\ exists fs amb out, line6 (recognise6 e) img 0 [] boxes fs amb /\ printed_with (recognise6 e) (explained6 e) img boxes out /\
       main6 rt nan disk (prog :: args) = Ok (head6 (dict_shown dict nodes) (vsize gs) ++ out ++ results_lines (spaced f6_r1 fs, spaced f6_r2 fs, text6 spell amb), Exits 0)).
Proof.
  intros HL HT Hz ED EI Hs Eb Sm Hd F. destruct (load_all6_ok rt HL gs HT junk z Hz cx0 datas ED (labels gs) dict (spell_file _ _ _ Hd)) as (nodes & e & EL & En & HB & Er).
  pose proof HB as (HE & _). destruct (main_output6 rt nan disk prog args (write_glyphs gs) datas bytes dict nodes e img boxes F EL HE EI Hs Eb Sm) as (gs' & Eg & S).
  assert (gs' = gs). { destruct HT as (Hg & _). rewrite glyph_file_round_trip in Eg; [congruence|]. apply Forall_forall. intros g H. apply (Hg g H). }
  subst gs'. exists e, nodes. split; [exact HB|]. split; [exact En|]. cbv zeta.
  pose proof (recognise6_steady e HE) as HS.
  assert (HO : forall n im, recognisable im -> (undefined6 (r6_zones (e6_rt e)) im (e6_cols e) (e6_words e) /\ recognise6 e n im = UB) \/ (~ undefined6 (r6_zones (e6_rt e)) im (e6_cols e) (e6_words e) /\ exists f, recognise6 e n im = Ok f)).
  { intros n im R. destruct (recognise6_defined e n im HE R) as [H|(H & f & E & _)]; [now left|right; eauto]. }
  destruct (read_line6_defined _ HS _ HO img Hs boxes Eb Sm) as [(B & E)|(B & s & fs & E & L & Q1 & Q2)]; rewrite Er in B; unfold extract_text6 in S; rewrite EL in S; cbn [bind] in S; rewrite EI in S; cbn [bind] in S; rewrite E in S; cbn [bind] in S.
  - left. split; [exact B|exact S].
  - right. split; [exact B|]. rewrite (assemble_line _ img gs boxes fs (q_amb s) dict spell nodes HS Sm L) in S; [|..].
    + cbn [bind] in S. destruct S as (out & P & Em). exists fs, (q_amb s), out. split; [exact L|]. split; [exact P|]. rewrite Em, Q1, Q2. reflexivity.
    + intros im f w R Rf Hw. destruct (found_named z Hz gs e HB im f R Rf w Hw) as [->|(g & Hg & _ & Hv)]; [now left|right]. apply in_map_iff in Hv as (v & <- & Hv). exact (label_in gs g v Hg Hv).
    + exact Hd.
    + exact En.
Qed.

Lemma main8_UB rt nan disk prog args glyphs datas image dict : disk_files6 disk args (Some glyphs) (Some datas) image dict -> load_all8 rt glyphs datas dict = UB -> main8 rt nan disk (prog :: args) = UB.
Proof.
  intros (fg & fd & fi & options & -> & Eg & Ed & Ei & Od). unfold load_all8, main8, load_out. rewrite (option_load disk read_dict [] _ _ Od). unfold load_disk. rewrite Ed, Eg.
  destruct (load_optional read_dict [] dict) as [nodes| | |]; try discriminate; [|reflexivity]. cbn [bind attempt]. destruct (load_file (read_datas all_strategies) datas) as [cols| | |]; try discriminate; [|reflexivity]. cbn [bind attempt].
  destruct (load_file read_glyphs glyphs) as [gs| | |]; try discriminate; [|reflexivity]. cbn [bind attempt]. destruct (negb (vsize gs =? datas_size cols)); try discriminate. rewrite order_forget.
  destruct (order_out8 _ _ _) as [((cs, w), t)| | |]; try discriminate; [|reflexivity]. cbn [bind attempt]. destruct (data_by_word w) as [bw| | |]; try discriminate. reflexivity.
Qed.
Theorem main_trained8 rt gs junk z cx0 datas bytes img boxes nan disk prog args : legal8 rt -> trainable6 gs -> is_std_sort Z.ltb z ->
  write_datas_file junk z cx0 (write_glyphs gs) = Ok (Some datas) -> image_of_bytes bytes 128 = Ok img -> box_searchable img -> segment img = Ok boxes ->
  Forall (small_character img) boxes -> files_are6 disk args (write_glyphs gs) datas bytes None ->
  exists gs' ds, Permutation gs gs' /\ ordered8 z gs' /\ NoDup ds /\ (forall j, In j ds <-> other8 z gs' j) /\
    (((List.length ds = 1%nat \/ (3 <= List.length ds)%nat) /\ main8 rt nan disk (prog :: args) = UB) \/
     ((List.length ds = 0%nat \/ List.length ds = 2%nat) /\ exists e, sound_env8 e /\ joined_rows8 z gs' e /\
        let bad := exists b im, In b boxes /\ char_image img b im /\ undefined8 (r6_zones (e8_rt e)) im (e8_cols e) (e8_words e) in
        (bad /\ main8 rt nan disk (prog :: args) = UB) \/
        (~ bad /\ exists fs amb out, line6 (recognise8 e) img 0 [] boxes fs amb /\ printed_with (recognise8 e) (explained8 e) img boxes out /\
           main8 rt nan disk (prog :: args) =
             Ok (head8 None (vsize gs) (Z.of_nat (List.length ds)) ++ out ++ results_lines (spaced f6_r1 fs, spaced f6_r2 fs, text6 (fun _ => None) amb), Exits 0)))).
Proof.
  intros HL HT Hz ED EI Hs Eb Sm F. destruct (load8_counted rt HL gs HT junk z Hz cx0 datas ED [] None (or_introl eq_refl)) as (gs' & ds & H1 & H2 & H3 & H4 & HC & H5). exists gs', ds. split; [exact H1|]. split; [exact H2|]. split; [exact H3|]. split; [exact H4|].
  destruct H5 as [(Hn & nodes & e & EL & En & HE & HJ)|(Hn & U)]; [right|left; split; [exact Hn|exact (main8_UB _ _ _ _ _ _ _ _ _ F U)]]. split; [exact Hn|]. exists e. split; [exact HE|]. split; [exact HJ|]. cbv zeta.
  assert (HS : Forall storable gs) by (destruct HT as (Hg & _); apply Forall_forall; intros g H; apply (Hg g H)).
  destruct (main_loaded8 rt nan disk prog args (write_glyphs gs) datas (Some bytes) None nodes e F EL) as (gs0 & k & Eg & Em & K). rewrite (glyph_file_round_trip gs HS) in Eg. apply Ok_inj in Eg. subst gs0.
  assert (Eh : head8 (dict_shown None nodes) (vsize gs) k = head8 None (vsize gs) (Z.of_nat (List.length ds))).
  { unfold head8, dict_shown. destruct (Z.ltb_spec 1 (vsize gs)) as [L|L]; [|reflexivity]. destruct (K L) as (cols & col & dup & w1 & Ec & Ecol & Ef & ->).
    assert (HR : Forall (fun g => recognisable (gl_img g)) gs) by (destruct HT as (Hg & _); apply Forall_forall; intros g H; apply (Hg g H)).
    assert (Hn' : vsize gs < 4294967296) by (destruct HT as (_ & Hn'); unfold vsize in *; lia). unfold vsize in Hn', L. destruct (write_datas_table z Hz junk cx0 gs HS HR ltac:(lia)) as (E1 & E2). rewrite ED in E1. injection E1 as ->.
    rewrite E2 in Ec. apply Ok_inj in Ec. subst cols.
    pose proof (rows8_glyphs gs HT z Hz) as R8. fold (words6 gs) in Ef. rewrite (size8 _ _ R8) in Ef.
    assert (Ei : r6_first (r8_base rt) (map Ocr6Model.num col) (zrange (Z.of_nat (List.length gs))) = idx8 rt (feature_table z (map gl_img gs)) (Z.of_nat (List.length gs))) by (unfold idx8; rewrite Ecol; reflexivity). rewrite Ei in Ef.
    rewrite (find_duplicates_ok _ _ R8 (r8_moved rt) _ (idx8_perm rt HL _ _ R8) (words6 gs) (words6_length gs) ltac:(lia)) in Ef. apply Ok_inj in Ef. injection Ef as <- _.
    rewrite (HC L). reflexivity. }
  rewrite Em, Eh. clear Em K Eh.
  pose proof (recognise8_steady e HE) as HSt.
  pose proof (image_shown (recognise8 e) (recognise_out8 nan e) (explained8 e) nodes bytes img boxes (head8 None (vsize gs) (Z.of_nat (List.length ds))) HSt (fun n im => recognise_forget8 nan e n im)
    (fun n im f t R => recognise_text8 nan e n im f t HE R) EI Hs Eb Sm) as S.
  assert (HO : forall n im, recognisable im -> (undefined8 (r6_zones (e8_rt e)) im (e8_cols e) (e8_words e) /\ recognise8 e n im = UB) \/ (~ undefined8 (r6_zones (e8_rt e)) im (e8_cols e) (e8_words e) /\ exists f, recognise8 e n im = Ok f)).
  { intros n im R. destruct (recognise8_outcome e n im HE R) as [H|(H & f & E & _)]; [now left|right; eauto]. }
  cbn in En. injection En as <-.
  destruct (read_line6_defined _ HSt _ HO img Hs boxes Eb Sm) as [(B & E)|(B & s & fs & E & L & Q1 & Q2)]; rewrite E in S; cbn [bind] in S; [left; split; [exact B|exact S]|right]. split; [exact B|].
  rewrite (assemble6_exact [] (fun _ => None) (q_amb s)) in S by (intros ps out Ne _; destruct ps; [congruence|reflexivity]). cbn [bind] in S. destruct S as (out & P & ->). exists fs, (q_amb s), out. split; [exact L|]. split; [exact P|]. rewrite Q1, Q2. reflexivity.
Qed.
