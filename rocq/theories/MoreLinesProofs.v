(** Files of lines that tell the same words are read alike. *)
From Coq Require Import Permutation.
From Verif Require Import Base BaseProofs SortModel SortProofs ImageModel PnmModel StratModel DatasModel StreamModel GlyphIoModel GlyphIoSpec DatasIoModel DictIoModel
  TrieModel TrieSpec TrieProofs IndexModel RecogModel GlyphsModel GlyphsSpec GlyphsProofs3 FilterModel ExtractModel AssembleModel LearnModel LearnSpec PipelineModel PipelineSpec PipelineProofs4
  PrintModel PrintSpec ReadingSpec ReadingProofs SameProofs SameProofs2 MoreLinesSpec.

Definition lines_of (v : Z * Z * Z * Z) : word_lines := let '(a, c, m, b) := v in mkwl a c m b.
Lemma entry_values l : fline_entry l = (fn_word l, lines_of (values l)).
Proof. reflexivity. Qed.
Definition info_of (wid : list Z -> Z) (e : list Z * (Z * Z * Z * Z)) : word_infos := mkwi (wid (fst e)) (lines_of (snd e)).

Lemma told_in ws ls es : told ws ls es -> forall e, In e es -> In (fst e) ws.
Proof.
  induction 1 as [|l ls es L T IH|l ls es N T IH|l ls es w L D T IH]; intros e He; [destruct He|auto|auto|].
  destruct He as [<-|He]; [exact (proj1 D)|auto].
Qed.

Section Index.
Context (t : glyphs_table) (ws : list (list Z)) (wid : list Z -> Z).
Hypothesis (Wb : forall w, In w ws -> 0 <= wid w < no_index).
Hypothesis (Ix : forall s, searchable ws s -> exists i, word_index_of t s = Ok i /\ answer ws wid s i).

Lemma index_told ls es : told ws ls es -> (forall l, In l ls -> searchable ws (fn_word l)) -> index_lines t (entries ls) = Ok (map (info_of wid) es).
Proof.
  induction 1 as [|l ls es L T IH|l ls es N T IH|l ls es w L D T IH]; intros S; [reflexivity|..];
    (assert (IH' := IH (fun x Hx => S x (or_intror Hx))); clear IH; unfold entries in *; cbn [map filter]; rewrite (entry_values l); cbn [fst]).
  - replace (vsize (fn_word l) <=? 8) with false by lia. exact IH'.
  - destruct (vsize (fn_word l) <=? 8); [|exact IH']. cbn [index_lines]. destruct (Ix (fn_word l) (S l (or_introl eq_refl))) as (i & Ei & [(w & (Hw & Sw & _) & _)|(_ & ->)]).
    + exfalso. exact (N w Hw Sw).
    + rewrite Ei. cbn [bind]. rewrite IH'. cbn [bind]. rewrite Z.eqb_refl. reflexivity.
  - replace (vsize (fn_word l) <=? 8) with true by lia. cbn [index_lines]. destruct (Ix (fn_word l) (S l (or_introl eq_refl))) as (i & Ei & [(w' & D' & ->)|(N & _)]).
    + rewrite (designated_unique _ _ _ _ D' D) in Ei. rewrite Ei. cbn [bind]. rewrite IH'. cbn [bind].
      pose proof (Wb w (proj1 D)). replace (wid w =? no_index) with false by lia. reflexivity.
    + exfalso. exact (N w (proj1 D) (proj1 (proj2 D))).
Qed.
End Index.

Lemma infos_perm sort r r' : is_std_sort wi_lt sort -> NoDup (map wi_word r) -> Permutation r r' -> sort r = sort r'.
Proof.
  intros H N Q. destruct (H r (wi_lt_strict_weak r)) as (P & S1). destruct (H r' (wi_lt_strict_weak r')) as (P' & S2). unfold sorted_by in *.
  apply (sorted_same (fun a b => wi_lt b a = false)); [|exact S1|exact S2|now rewrite <- P, <- P'].
  intros a b Ia Ib L1 L2. unfold wi_lt in *. assert (Ew : wi_word a = wi_word b) by lia. apply (Permutation_in _ (Permutation_sym P)) in Ia, Ib.
  clear - N Ia Ib Ew. induction r as [|c r IH]; [destruct Ia|]. cbn [map] in N. inversion N as [|? ? N1 N2]; subst.
  destruct Ia as [<-|Ia], Ib as [<-|Ib]; [reflexivity|exfalso; apply N1; rewrite Ew; now apply in_map|exfalso; apply N1; rewrite <- Ew; now apply in_map|now apply IH].
Qed.
Lemma NoDup_wid (ws : list (list Z)) (wid : list Z -> Z) es : (forall w w', In w ws -> In w' ws -> wid w = wid w' -> w = w') ->
  (forall e : list Z * (Z * Z * Z * Z), In e es -> In (fst e) ws) -> NoDup (map fst es) -> NoDup (map wi_word (map (info_of wid) es)).
Proof.
  intros J. induction es as [|e es IH]; intros I N; [constructor|]. cbn [map] in *. inversion N as [|? ? N1 N2]; subst. constructor.
  - intros H. apply in_map_iff in H as (x & Ex & Hx). apply in_map_iff in Hx as (e' & <- & He'). cbn [info_of wi_word] in Ex.
    apply N1. rewrite <- (J (fst e') (fst e)); [now apply in_map|apply I; now right|apply I; now left|exact Ex].
  - apply IH; [|exact N2]. intros x Hx. apply I. now right.
Qed.

Lemma infos_told rt gs g file file' ls ls' es es' : legal rt -> trainable gs -> load_file load_glyphs (write_glyphs gs) = Ok g ->
  lines_text (labels gs) file ls -> lines_text (labels gs) file' ls' -> told (labels gs) ls es -> told (labels gs) ls' es' -> same_words es es' ->
  words_infos (rt_lines rt) g (entries ls') = words_infos (rt_lines rt) g (entries ls).
Proof.
  intros HL HT Eg Hl Hl' T T' Q.
  assert (Eo : exists s, load_glyphs (open_stream (file_text (map fglyph_of gs))) = Ok (g, s)).
  { rewrite <- written_text. unfold load_file in Eg. destruct (load_glyphs (open_stream (write_glyphs gs))) as [[g0 s]| | |]; try discriminate. cbn [bind] in Eg.
    destruct (is_eof s); [injection Eg as ->; exists s; reflexivity|discriminate]. }
  destruct Eo as (s & Eo). destruct (index_of_file_ok _ _ _ (trainable_file gs HT) Eo) as (wid & fid & Ho & Wb & Ix). rewrite words_labels in Wb, Ix.
  assert (S : forall f l, lines_text (labels gs) f l -> forall x, In x l -> searchable (labels gs) (fn_word x)).
  { intros f l [(_ & ->)|(_ & _ & H)] x Hx; [destruct Hx|auto]. }
  unfold words_infos. rewrite (index_told g _ wid Wb Ix ls es T (S _ _ Hl)), (index_told g _ wid Wb Ix ls' es' T' (S _ _ Hl')). cbn [bind]. f_equal.
  destruct Q as [->|(N & P)]; [reflexivity|]. symmetry. apply infos_perm; [apply HL| |now apply Permutation_map].
  apply (NoDup_wid (labels gs)); [|exact (told_in _ _ _ T)|exact N].
  intros w w' Hw Hw' Ew. destruct Ho as (_ & Hx & _). rewrite words_labels in Hx. pose proof (Hx w Hw) as A. rewrite Ew, (Hx w' Hw') in A. congruence.
Qed.

Lemma load_same rt gs datas dict file file' ls ls' es es' : legal rt -> trainable gs -> lines_text (labels gs) file ls -> lines_text (labels gs) file' ls' ->
  told (labels gs) ls es -> told (labels gs) ls' es' -> same_words es es' ->
  load_all rt (write_glyphs gs) datas file' dict = load_all rt (write_glyphs gs) datas file dict.
Proof.
  intros HL HT Hl Hl' T T' Q. unfold load_all.
  destruct (load_optional read_dict [] dict) as [nodes| | |]; [|reflexivity..]. cbn [bind].
  destruct (load_file (read_datas all_strategies) datas) as [cols| | |]; [|reflexivity..]. cbn [bind].
  destruct (load_file load_glyphs (write_glyphs gs)) as [g| | |] eqn:Eg; [|reflexivity..]. cbn [bind].
  destruct (negb (vsize (gt_views g) =? datas_size cols)); [reflexivity|].
  rewrite (load_entries _ _ _ Hl), (load_entries _ _ _ Hl'). cbn [bind].
  rewrite (infos_told rt gs g file file' ls ls' es es' HL HT Eg Hl Hl' T T' Q). reflexivity.
Qed.

Theorem lines_same rt cx gs datas image dict file file' ls ls' es es' : legal rt -> trainable gs -> lines_text (labels gs) file ls -> lines_text (labels gs) file' ls' ->
  told (labels gs) ls es -> told (labels gs) ls' es' -> same_words es es' ->
  extract_text rt cx (write_glyphs gs) datas image file' dict = extract_text rt cx (write_glyphs gs) datas image file dict.
Proof. intros HL HT Hl Hl' T T' Q. unfold extract_text. rewrite (load_same rt gs datas dict file file' ls ls' es es' HL HT Hl Hl' T T' Q). reflexivity. Qed.

(** Every file tells words, once. *)
Lemma told_unique ws ls es : told ws ls es -> forall es', told ws ls es' -> es = es'.
Proof.
  induction 1 as [|l ls es L T IH|l ls es N T IH|l ls es w L D T IH]; intros es' T'; inversion T' as [|? ? ? L' T1|? ? ? N' T1|? ? ? w' L' D' T1]; subst; auto; try lia.
  - exfalso. exact (N w' (proj1 D') (proj1 (proj2 D'))).
  - exfalso. exact (N' w (proj1 D) (proj1 (proj2 D))).
  - now rewrite (designated_unique _ _ _ _ D D'), (IH _ T1).
Qed.
Lemma starts_dec s : forall w, starts_with s w \/ ~ starts_with s w.
Proof.
  induction s as [|c s IH]; intros w; [left; exists w; reflexivity|]. destruct w as [|d w]; [right; intros (r & E); discriminate|].
  destruct (Z.eq_dec d c) as [->|Ne]; [|right; intros (r & E); injection E as E _; congruence].
  destruct (IH w) as [(r & ->)|N]; [left; exists r; reflexivity|right; intros (r & E); injection E as E; apply N; exists r; exact E].
Qed.
Lemma designates_or_not s : forall ws, (forall w, In w ws -> ~ starts_with s w) \/ exists w, designates ws s w.
Proof.
  induction ws as [|v ws IH]; [left; intros w []|]. destruct (starts_dec s v) as [Sv|Nv].
  - right. destruct IH as [N|(w & Iw & Sw & L)].
    + exists v. split; [now left|]. split; [exact Sv|]. intros w' [<-|H] S'; [now left|destruct (N w' H S')].
    + destruct (lex_total v w) as [X|[->|X]].
      * exists v. split; [now left|]. split; [exact Sv|]. intros w' [<-|H] S'; [now left|]. right. destruct (L w' H S') as [->|Y]; [exact X|exact (lex_trans _ _ _ X Y)].
      * exists w. split; [now left|]. split; [exact Sv|]. intros w' [<-|H] S'; [now left|exact (L w' H S')].
      * exists w. split; [now right|]. split; [exact Sw|]. intros w' [<-|H] S'; [now right|exact (L w' H S')].
  - destruct IH as [N|(w & Iw & Sw & L)].
    + left. intros w [<-|H]; [exact Nv|exact (N w H)].
    + right. exists w. split; [now right|]. split; [exact Sw|]. intros w' [<-|H] S'; [contradiction|exact (L w' H S')].
Qed.
Lemma told_some ws : forall ls, exists es, told ws ls es.
Proof.
  induction ls as [|l ls (es & T)]; [exists []; constructor|]. destruct (Z_lt_le_dec 8 (vsize (fn_word l))) as [L|L]; [exists es; now apply told_long|].
  destruct (designates_or_not (fn_word l) ws) as [N|(w & D)]; [exists es; now apply told_nobody|exists ((w, values l) :: es); now apply told_word].
Qed.

(** * The program *)
Lemma option_load {A} (read : istream -> res (A * istream)) (d : A) disk name file : option_file disk name file ->
  match name with Some f => load_disk disk read f | None => Ok d end = load_optional read d file /\
  match name with Some _ => true | None => false end = match file with Some _ => true | None => false end.
Proof. destruct name as [f|]; cbn [option_file]; [intros (bytes & E & ->); unfold load_disk; rewrite E|intros ->]; split; reflexivity. Qed.
Theorem printed_same rt nan cx disk disk' prog prog' args args' gs datas image dict file file' ls ls' es es' : legal rt -> trainable gs ->
  disk_files disk args (Some (write_glyphs gs)) datas image file dict -> disk_files disk' args' (Some (write_glyphs gs)) datas image file' dict ->
  lines_text (labels gs) file ls -> lines_text (labels gs) file' ls' -> told (labels gs) ls es -> told (labels gs) ls' es' -> same_words es es' ->
  ocr2_main rt nan cx disk' (prog' :: args') = ocr2_main rt nan cx disk (prog :: args).
Proof.
  intros HL HT (fg & fd & fi & options & -> & Eg & Ed & Ei & Ol & Od) (fg' & fd' & fi' & options' & -> & Eg' & Ed' & Ei' & Ol' & Od') Hl Hl' T T' Q.
  pose proof (load_entries _ _ _ Hl) as L. pose proof (load_entries _ _ _ Hl') as L'.
  unfold ocr2_main. unfold load_disk at 2 3 6 7. rewrite Eg, Ed, Ei, Eg', Ed', Ei'.
  destruct (option_load read_words_lines [] _ _ _ Ol) as (-> & _). destruct (option_load read_words_lines [] _ _ _ Ol') as (-> & _). rewrite L, L'.
  destruct (option_load read_dict [] _ _ _ Od) as (-> & D). destruct (option_load read_dict [] _ _ _ Od') as (-> & D'). rewrite <- D' in D. clear D'.
  apply attempt_ext; [reflexivity|]. intros nodes _.
  assert (O : match nth_error options' 1 with Some _ => report_line (str "dict ? ") (str (if null nodes then "false" else "true")%string) | None => [] end =
              match nth_error options 1 with Some _ => report_line (str "dict ? ") (str (if null nodes then "false" else "true")%string) | None => [] end).
  { destruct (nth_error options 1), (nth_error options' 1); try discriminate D; reflexivity. }
  cbv zeta. rewrite O. apply attempt_ext; [reflexivity|]. intros cols _. apply attempt_ext; [reflexivity|]. intros g Hg.
  destruct (negb (vsize (gt_views g) =? datas_size cols)); [reflexivity|]. cbn [attempt].
  rewrite (infos_told rt gs g file file' ls ls' es es' HL HT Hg Hl Hl' T T' Q). reflexivity.
Qed.
