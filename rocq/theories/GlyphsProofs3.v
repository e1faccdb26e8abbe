(** Loading a glyph table; the lines of words. *)
From Verif Require Import Base BaseProofs ProofTools SortModel SortProofs DatasModel ImageModel ImageSpec StreamModel StreamProofs
  GlyphIoModel GlyphIoSpec GlyphIoProofs TrieModel TrieSpec TrieProofs FlatTrieProofs DictionaryProofs
  IndexModel IndexProofs GlyphsModel GlyphsSpec GlyphsProofs GlyphsProofs2.
From Coq Require Import Sorted Permutation.

Lemma map_res_ok {A B} (f : A -> res B) g l : (forall a, In a l -> f a = Ok (g a)) -> map_res f l = Ok (map g l).
Proof.
  induction l as [|a l IH]; intros H; [reflexivity|]. cbn [map_res map]. rewrite (H a) by (left; reflexivity). cbn [bind].
  rewrite IH by (intros x Hx; apply H; right; exact Hx). reflexivity.
Qed.
Lemma sorted_NoDup l : StronglySorted lex_lt l -> NoDup l.
Proof.
  induction 1 as [|a l S IH F]; constructor; [|exact IH]. intros H. rewrite Forall_forall in F. exact (lex_irrefl a (F a H)).
Qed.
Lemma block_total (m : names) ws : NoDup (keys m) -> (forall w, In w (keys m) <-> In w ws) -> block ws = total m.
Proof.
  intros N H. unfold block.
  assert (P : Permutation (nodup (list_eq_dec Z.eq_dec) ws) (keys m)).
  { apply NoDup_Permutation; [apply NoDup_nodup|exact N|]. intros x. rewrite nodup_In. symmetry. apply H. }
  assert (E : forall l l' : list (list Z), Permutation l l' ->
    fold_right (fun w n => (vsize w + 3) / 4 + 1 + n) 0 l = fold_right (fun w n => (vsize w + 3) / 4 + 1 + n) 0 l').
  { induction 1; cbn [fold_right]; lia. }
  rewrite (E _ _ P). clear. induction m as [|[w i] m IH]; [reflexivity|]. rewrite total_cons, <- IH. reflexivity.
Qed.

(** The words of a file in order. *)
Record index_of_file (gs : list fglyph) (m : names) : Prop := {
  if_sorted : StronglySorted lex_lt (keys m);
  if_words : forall w, In w (keys m) <-> In w (words_of gs);
  if_total : total m < 4294967296;
  if_sizes : forall w, In w (keys m) -> vsize w < 4294967296;
  if_bytes : forall w, In w (keys m) -> bytes w }.

Lemma load_file_ok gs : good_file gs -> exists m views s, index_of_file gs m /\ is_eof s = true /\
  load_glyphs (open_stream (file_text gs)) = (if good_end m then Ok (mkgt views (image_of m) (total m), s) else UB) /\
  (good_end m = true -> exists fid, holds gs (mkgt views (image_of m) (total m)) (offs m) fid).
Proof.
  intros (G & V & B & W).
  assert (V' : vsize (all_labels gs) < 4294967296) by (rewrite words_of_labels, vsize_map in V; exact V).
  destruct (read_ocr_glyphs_text gs G V') as (m & fonts & s & R & Es & Gm & Gf & Km & Kf).
  destruct Gm as [S N I]. pose proof (sorted_NoDup _ S) as NK.
  assert (BT : total m < 4294967296) by (rewrite <- (block_total m (words_of gs)) by assumption; exact B).
  assert (IF : index_of_file gs m).
  { constructor; try assumption.
    - intros w Hw. apply W, Km, Hw.
    - intros w Hw. apply Km in Hw. unfold words_of in Hw. apply in_flat_map in Hw. destruct Hw as (g & Hg & Hw).
      apply in_map_iff in Hw. destruct Hw as (l & <- & Hl). rewrite Forall_forall in G. destruct (G g Hg) as (_ & _ & GL).
      rewrite Forall_forall in GL. apply (GL l Hl). }
  pose (views := map (fun g => map (fun l => mkov (offs m (fl_word l)) (idf fonts (fl_font l))) (fg_labels g)) gs).
  exists m, views, s. split; [exact IF|]. split; [exact Es|].
  assert (LR : vsize (repeat 0 (List.length m)) = vsize m) by (unfold vsize; rewrite repeat_length; reflexivity).
  destruct (word_offsets_ok m 0 (repeat 0 (List.length m)) NK N) as (R' & RO & RL & RV & _); [|lia|lia|].
  { intros i Hi. rewrite LR. apply I, Hi. }
  split.
  - unfold load_glyphs. rewrite R. cbn [bind]. rewrite RO. cbn [bind]. rewrite Z.add_0_l.
    assert (ER : map_res (map_res (fun v => id <- rd R' (ov_word v) ;; Ok (mkov id (ov_font v))))
        (map (fun g => map (fun l => mkov (idf m (fl_word l)) (idf fonts (fl_font l))) (fg_labels g)) gs) = Ok views).
    { rewrite (map_res_ok _ (map (fun v => mkov (match rd R' (ov_word v) with Ok x => x | _ => 0 end) (ov_font v)))).
      - rewrite map_map. unfold views. f_equal. apply map_ext_in. intros g Hg. rewrite map_map. apply map_ext_in. intros l Hl.
        cbn [ov_word ov_font].
        assert (K : In (fl_word l) (keys m)) by (apply Km; apply in_flat_map; exists g; split; [exact Hg|apply in_map; exact Hl]).
        unfold idf. destruct (names_find (fl_word l) m) as [i|] eqn:E; [|apply find_none in E; contradiction].
        apply find_key in E; [|exact S]. rewrite (RV _ _ E), Z.add_0_l. reflexivity.
      - intros vs Hvs. apply map_res_ok. intros v Hv. apply in_map_iff in Hvs. destruct Hvs as (g & <- & Hg).
        apply in_map_iff in Hv. destruct Hv as (l & <- & Hl). cbn [ov_word ov_font].
        assert (K : In (fl_word l) (keys m)) by (apply Km; apply in_flat_map; exists g; split; [exact Hg|apply in_map; exact Hl]).
        unfold idf. destruct (names_find (fl_word l) m) as [i|] eqn:E; [|apply find_none in E; contradiction].
        apply find_key in E; [|exact S]. rewrite (RV _ _ E). reflexivity. }
    rewrite ER. cbn [bind].
    assert (EM : repeat None (Z.to_nat (4 * total m)) = [] ++ rest_of m None).
    { cbn [app]. destruct m as [|[w i] m']; [reflexivity|]. cbn [rest_of]. set (m := (w, i) :: m') in *.
      assert (1 <= total m) by (unfold m; rewrite total_cons; pose proof (width_pos w); pose proof (total_nonneg m'); lia).
      replace (Z.to_nat (4 * total m)) with (Datatypes.S (Z.to_nat (4 * total m - 1))) by lia. reflexivity. }
    rewrite EM, (fill_words_ok m [] None 0); [|reflexivity|apply IF].
    destruct (good_end m); reflexivity.
  - intros GE. exists (idf fonts). split; [reflexivity|]. split.
    + intros w Hw. apply Km in Hw. pose proof Hw as Hw'. unfold keys in Hw'. apply in_map_iff in Hw'. destruct Hw' as ([k i] & Ek & Hk).
      cbn [fst] in Ek. subst k. apply in_split in Hk. destruct Hk as (m1 & m2 & E).
      destruct (sorted_split m S m1 w i m2 E) as (_ & _ & ->).
      apply (word_text_ok m (mkgt views (image_of m) (total m)) eq_refl ltac:(apply IF) m1 w i m2 E).
    + intros f f' Hf Hf' E. apply Kf in Hf, Hf'. destruct Gf as [Sf Nf If]. unfold idf in E.
      destruct (names_find f fonts) as [i|] eqn:E1; [|apply find_none in E1; contradiction].
      destruct (names_find f' fonts) as [i'|] eqn:E2; [|apply find_none in E2; contradiction].
      subst i'. apply find_key in E1, E2; try exact Sf. clear -Nf E1 E2.
      induction fonts as [|[k j] fonts IH]; [destruct E1|]. cbn [ids map snd] in Nf. inversion Nf as [|? ? N1 N2]; subst.
      destruct E1 as [E1|E1], E2 as [E2|E2].
      * congruence.
      * exfalso. injection E1 as _ ->. apply N1. exact (in_map snd _ _ E2).
      * exfalso. injection E2 as _ ->. apply N1. exact (in_map snd _ _ E1).
      * apply IH; assumption.
Qed.

Lemma last_greatest gs m : index_of_file gs m -> m <> [] ->
  exists m1 w i, m = m1 ++ [(w, i)] /\ greatest (words_of gs) w /\ good_end m = negb (vsize w mod 4 =? 0).
Proof.
  intros IF NE. destruct (snoc_cases m) as [E|(m1 & [w i] & E)]; [contradiction|]. exists m1, w, i. split; [exact E|].
  destruct (sorted_split m (if_sorted _ _ IF) m1 w i [] E) as (P & _ & _). split.
  - split; [apply (if_words _ _ IF); rewrite E; unfold keys; rewrite map_app; apply in_or_app; right; left; reflexivity|].
    intros w' Hw'. apply (if_words _ _ IF) in Hw'. rewrite E in Hw'. unfold keys in Hw'. rewrite map_app in Hw'.
    apply in_app_or in Hw'. destruct Hw' as [Hw'|[<-|[]]]; [right; apply P, Hw'|left; reflexivity].
  - rewrite E. clear. induction m1 as [|p m1 IH]; [reflexivity|]. cbn [app good_end]. rewrite IH. destruct m1; reflexivity.
Qed.
Lemma greatest_unique ws w w' : greatest ws w -> greatest ws w' -> w = w'.
Proof.
  intros [H1 H2] [H3 H4]. destruct (H2 w' H3) as [->|A]; [reflexivity|]. destruct (H4 w H1) as [->|B]; [reflexivity|].
  exfalso. exact (lex_irrefl _ (lex_trans _ _ _ A B)).
Qed.

Lemma good_end_iff gs m : index_of_file gs m ->
  (good_end m = true <-> forall w, greatest (words_of gs) w -> vsize w mod 4 <> 0).
Proof.
  intros IF. destruct m as [|p m0] eqn:E0.
  - split; [|reflexivity]. intros _ w [Hw _]. apply (if_words _ _ IF) in Hw. destruct Hw.
  - rewrite <- E0 in *. destruct (last_greatest gs m IF) as (m1 & w & i & E & Gw & ->); [rewrite E0; discriminate|]. split.
    + intros H w' Gw'. rewrite (greatest_unique _ _ _ Gw' Gw). destruct (Z.eqb_spec (vsize w mod 4) 0); [discriminate|assumption].
    + intros H. specialize (H w Gw). rewrite (proj2 (Z.eqb_neq _ _) H). reflexivity.
Qed.

(** C43. *)
Lemma words_resolve gs : good_file gs -> (forall w, greatest (words_of gs) w -> vsize w mod 4 <> 0) ->
  exists t s wid fid, load_glyphs (open_stream (file_text gs)) = Ok (t, s) /\ is_eof s = true /\ holds gs t wid fid.
Proof.
  intros G H. destruct (load_file_ok gs G) as (m & views & s & IF & Es & L & Ho).
  apply (good_end_iff gs m IF) in H. rewrite H in L. destruct (Ho H) as (fid & Hf).
  exists (mkgt views (image_of m) (total m)), s, (offs m), fid. auto.
Qed.
Lemma load_overflow gs w : good_file gs -> greatest (words_of gs) w -> vsize w mod 4 = 0 ->
  load_glyphs (open_stream (file_text gs)) = UB.
Proof.
  intros G Gw H. destruct (load_file_ok gs G) as (m & views & s & IF & Es & L & Ho). rewrite L.
  destruct (good_end m) eqn:E; [|reflexivity]. exfalso. apply (proj1 (good_end_iff gs m IF) E w Gw H).
Qed.

Lemma load_outcome gs : good_file gs ->
  (load_glyphs (open_stream (file_text gs)) = UB <-> exists w, greatest (words_of gs) w /\ vsize w mod 4 = 0) /\
  (load_glyphs (open_stream (file_text gs)) <> UB -> exists t s, load_glyphs (open_stream (file_text gs)) = Ok (t, s)).
Proof.
  intros G. destruct (load_file_ok gs G) as (m & views & s & IF & Es & L & Ho). destruct (good_end m) eqn:E; rewrite L.
  - split; [|intros _; eauto]. split; [discriminate|]. intros (w & Gw & H). exfalso. exact (proj1 (good_end_iff gs m IF) E w Gw H).
  - split; [|intros H; contradiction H; reflexivity]. split; [intros _|reflexivity].
    destruct m as [|p m0] eqn:E0; [discriminate E|]. rewrite <- E0 in *.
    destruct (last_greatest gs m IF) as (m1 & w & i & _ & Gw & E1); [rewrite E0; discriminate|]. exists w. split; [exact Gw|].
    rewrite E in E1. destruct (Z.eqb_spec (vsize w mod 4) 0) as [E2|]; [exact E2|discriminate E1].
Qed.

(** C44. *)
Lemma index_of_file_ok gs t s' : good_file gs -> load_glyphs (open_stream (file_text gs)) = Ok (t, s') ->
  exists wid fid, holds gs t wid fid /\
    (forall w, In w (words_of gs) -> 0 <= wid w < no_index) /\
    forall s, searchable (words_of gs) s -> exists i, word_index_of t s = Ok i /\ answer (words_of gs) wid s i.
Proof.
  intros G L. destruct (load_file_ok gs G) as (m & views & s2 & IF & Es & L2 & Ho). rewrite L in L2.
  destruct (good_end m) eqn:GE; [|discriminate]. injection L2 as -> _. destruct (Ho eq_refl) as (fid & Hf).
  exists (offs m), fid. split; [exact Hf|]. split.
  { intros w Hw. apply (if_words _ _ IF) in Hw. unfold keys in Hw. apply in_map_iff in Hw. destruct Hw as ([k i] & Ek & Hk).
    cbn [fst] in Ek. subst k. apply in_split in Hk. destruct Hk as (m1 & m2 & E).
    destruct (sorted_split m (if_sorted _ _ IF) m1 w i m2 E) as (_ & _ & ->).
    pose proof (if_total _ _ IF) as T. rewrite E, total_app, total_cons in T. unfold no_index.
    pose proof (width_pos w). pose proof (total_nonneg m1). pose proof (total_nonneg m2). lia. }
  intros s [S0 SB].
  destruct (index_of_ok m (mkgt views (image_of m) (total m)) eq_refl (if_sizes _ _ IF) (if_sorted _ _ IF) (if_bytes _ _ IF)
    eq_refl (if_total _ _ IF) GE s) as (i & Hi & A).
  - split; [exact S0|]. intros w c Hw. apply SB. apply (if_words _ _ IF), Hw.
  - exists i. split; [exact Hi|]. destruct A as [(w & (A1 & A2 & A3) & A4)|[A1 A2]].
    + left. exists w. split; [|exact A4]. split; [apply (if_words _ _ IF), A1|]. split; [exact A2|].
      intros w' Hw'. apply A3. apply (if_words _ _ IF), Hw'.
    + right. split; [|exact A2]. intros w Hw. apply A1. apply (if_words _ _ IF), Hw.
Qed.
Lemma answer_present ws wid s i : In s ws -> answer ws wid s i -> i = wid s.
Proof.
  intros H [(w & (A1 & A2 & A3) & ->)|[A _]].
  - destruct (A3 s H) as [->|L]; [exists []; rewrite app_nil_r; reflexivity|reflexivity|].
    exfalso. destruct A2 as (r & ->). destruct (lex_prefix s r) as [X|X];
      [rewrite <- X in L; exact (lex_irrefl _ L)|exact (lex_irrefl _ (lex_trans _ _ _ X L))].
  - exfalso. apply (A s H). exists []. rewrite app_nil_r. reflexivity.
Qed.

(** C45. *)
Lemma terminators gs t s' : good_file gs -> load_glyphs (open_stream (file_text gs)) = Ok (t, s') ->
  exists wid fid, holds gs t wid fid /\
    (forall w, In w (words_of gs) -> vsize w mod 4 <> 0 -> byte (gt_mem t) (4 * (wid w + 1) + vsize w) = Ok 0) /\
    (forall w w', follows (words_of gs) w w' -> vsize w mod 4 = 0 ->
       byte (gt_mem t) (4 * (wid w + 1) + vsize w) = Ok (vsize w' mod 256)).
Proof.
  intros G L. destruct (load_file_ok gs G) as (m & views & s2 & IF & Es & L2 & Ho). rewrite L in L2.
  destruct (good_end m) eqn:GE; [|discriminate]. injection L2 as -> _. destruct (Ho eq_refl) as (fid & Hf).
  exists (offs m), fid. split; [exact Hf|]. set (t := mkgt views (image_of m) (total m)).
  assert (Sp : forall w, In w (words_of gs) -> exists m1 i m2, m = m1 ++ (w, i) :: m2).
  { intros w Hw. apply (if_words _ _ IF) in Hw. unfold keys in Hw. apply in_map_iff in Hw. destruct Hw as ([k i] & Ek & Hk).
    cbn [fst] in Ek. subst k. apply in_split in Hk. destruct Hk as (m1 & m2 & E). eauto. }
  split.
  - intros w Hw D. destruct (Sp w Hw) as (m1 & i & m2 & E). destruct (sorted_split m (if_sorted _ _ IF) m1 w i m2 E) as (_ & _ & ->).
    apply (byte_after m t eq_refl (if_sizes _ _ IF) m1 w i m2 0 E). unfold after. rewrite (proj2 (Z.eqb_neq _ _) D). reflexivity.
  - intros w w' (Hw & Hw' & Lt & Nb) D. destruct (Sp w Hw) as (m1 & i & m2 & E).
    destruct (sorted_split m (if_sorted _ _ IF) m1 w i m2 E) as (P1 & P2 & ->).
    apply (byte_after m t eq_refl (if_sizes _ _ IF) m1 w i m2 _ E). unfold after. rewrite (proj2 (Z.eqb_eq _ _) D).
    apply (if_words _ _ IF) in Hw'. rewrite E in Hw'. unfold keys in Hw'. rewrite map_app in Hw'. apply in_app_or in Hw'.
    destruct Hw' as [Hw'|[Hw'|Hw']].
    + exfalso. exact (lex_irrefl _ (lex_trans _ _ _ (P1 w' Hw') Lt)).
    + cbn [fst] in Hw'. subst w'. exfalso. exact (lex_irrefl _ Lt).
    + destruct m2 as [|[k j] m2]; [destruct Hw'|]. f_equal. f_equal. f_equal.
      destruct Hw' as [Hw'|Hw']; [exact Hw'|].
      assert (E2 : m = (m1 ++ [(w, i)]) ++ (k, j) :: m2) by (rewrite <- app_assoc; exact E).
      destruct (sorted_split m (if_sorted _ _ IF) _ k j m2 E2) as (Q1 & Q2 & _).
      exfalso. apply (Nb k).
      * apply (if_words _ _ IF). rewrite E2. unfold keys. rewrite map_app. apply in_or_app. right. left. reflexivity.
      * split; [apply P2; left; reflexivity|apply Q2, Hw'].
Qed.

(** The files of the glyph writer. *)
Definition label_of (v : view) : flabel := mkfl (vw_word v) (vw_font v) ([32] ++ print_uint (vw_line v)).
Definition fglyph_of (g : glyph) : fglyph := mkfg (write_img (gl_img g)) (map label_of (gl_views g)).
Lemma written_text gs : write_glyphs gs = file_text (map fglyph_of gs).
Proof.
  unfold write_glyphs, file_text. induction gs as [|g gs IH]; [reflexivity|]. cbn [flat_map map]. rewrite IH. f_equal.
  unfold write_glyph, fglyph_text, write_views, fglyph_of. cbn [fg_head fg_labels]. rewrite vsize_map. do 4 f_equal.
  clear. induction (gl_views g) as [|v vs IH]; [reflexivity|]. cbn [flat_map map]. rewrite IH. f_equal.
  unfold write_view, label_text, label_of. cbn [fl_word fl_font fl_rest]. rewrite <- !app_assoc. reflexivity.
Qed.
Lemma print_uint_no_10 n : 0 <= n -> ~ In 10 (print_uint n).
Proof. intros H I. pose proof (print_uint_digits n H) as D. rewrite Forall_forall in D. specialize (D 10 I). discriminate. Qed.
Lemma written_good g : storable g -> gl_views g <> [] -> ~ In 10 (idata (gl_img g)) ->
  (forall v, In v (gl_views g) -> bytes (vw_word v)) -> good_glyph (fglyph_of g).
Proof.
  intros (Wf & _ & SV) NE N B. split; [|split].
  - destruct Wf as ((? & _) & (? & _) & _). cbn [fg_head fglyph_of]. unfold write_img. rewrite !in_app_iff. cbn [In].
    pose proof (print_uint_no_10 (iw (gl_img g)) ltac:(lia)). pose proof (print_uint_no_10 (ih (gl_img g)) ltac:(lia)). intuition discriminate.
  - cbn [fg_labels fglyph_of]. destruct (gl_views g); [congruence|discriminate].
  - cbn [fg_labels fglyph_of]. rewrite Forall_forall in *. intros l Hl. apply in_map_iff in Hl. destruct Hl as (v & <- & Hv).
    destruct (SV v Hv) as (P & Q & R). unfold good_label, label_of. cbn [fl_word fl_font fl_rest].
    split; [exact P|]. split; [apply B, Hv|]. split; [exact Q|]. split; [|reflexivity].
    rewrite in_app_iff. cbn [In]. pose proof (print_uint_no_10 (vw_line v) ltac:(lia)). intuition discriminate.
Qed.

(** Lines of words. *)
Lemma read_lines_text old l r : good_fline l ->
  read_lines old (good ([32] ++ print_uint (fn_a l) ++ [32] ++ print_uint (fn_c l) ++ [32] ++
    print_uint (fn_m l) ++ [32] ++ print_uint (fn_b l) ++ [10] ++ r)) = (snd (fline_entry l), good ([10] ++ r)).
Proof.
  intros (_ & A & C & M & B). unfold read_lines.
  rewrite (get_unsigned_print 0 [32] (fn_a l)) by (try apply spaces_1; (reflexivity || assumption)).
  rewrite (get_unsigned_print 0 [32] (fn_c l)) by (try apply spaces_1; (reflexivity || assumption)).
  rewrite (get_unsigned_print 0 [32] (fn_m l)) by (try apply spaces_1; (reflexivity || assumption)).
  rewrite (get_unsigned_print 0 [32] (fn_b l)) by (try apply spaces_1; (reflexivity || assumption)).
  reflexivity.
Qed.
Lemma flines_length ls : (List.length ls <= List.length (flat_map fline_text ls))%nat.
Proof.
  induction ls as [|l ls IH]; [apply le_n|]. cbn [flat_map List.length]. rewrite app_length. unfold fline_text at 1.
  rewrite !app_length. cbn [List.length]. lia.
Qed.
Lemma words_lines_text ls : Forall good_fline ls ->
  exists s, read_words_lines (open_stream (flat_map fline_text ls)) =
    Ok (filter (fun p => vsize (fst p) <=? 8) (map fline_entry ls), s) /\ is_eof s = true.
Proof.
  intros G. unfold read_words_lines, open_stream. match goal with |- context [loop ?n ?b _] => set (fuel := n); set (body := b) end.
  assert (Hf : (List.length ls < fuel)%nat) by (unfold fuel; cbn [is_rest]; pose proof (flines_length ls); lia).
  clearbody fuel.
  assert (M : forall ls2 fuel p wl out, Forall good_fline ls2 -> (List.length ls2 < fuel)%nat -> spaces p ->
    exists s, loop fuel body (wl, out, good (p ++ flat_map fline_text ls2)) =
      Ok (out ++ filter (fun p => vsize (fst p) <=? 8) (map fline_entry ls2), s) /\ is_eof s = true).
  { clear. induction ls2 as [|l ls2 IH]; intros fuel p wl out G Hf Sp; (destruct fuel as [|fuel]; [inversion Hf|]); cbn [loop]; unfold body at 1.
    - cbn [flat_map map filter]. rewrite !app_nil_r.
      assert (E : get_word [] (good p) = ([], mkis [] true true true)).
      { unfold get_word, sentry. cbn [is_eof is_fail is_rest is_skipws orb negb andb].
        assert (D : drop_spaces p = []) by (rewrite <- (app_nil_r p); apply drop_spaces_app; [exact Sp|exact I]). rewrite D. reflexivity. }
      rewrite E. eexists. split; [reflexivity|reflexivity].
    - inversion G as [|? ? Gl G']; subst. cbn [flat_map]. unfold fline_text at 1. rewrite <- !app_assoc.
      rewrite get_word_text; [|exact Sp|apply Gl|reflexivity]. rewrite read_lines_text by exact Gl.
      cbn [is_ok is_fail negb bind]. cbn [List.length] in Hf.
      destruct (IH fuel [10] (snd (fline_entry l)) (if vsize (fn_word l) <=? 8 then out ++ [(fn_word l, snd (fline_entry l))] else out) G')
        as (s & L & Es); [lia|apply spaces_1; reflexivity|].
      exists s. split; [|exact Es]. rewrite L. cbn [map filter]. f_equal. f_equal.
      change (fst (fline_entry l)) with (fn_word l). destruct (vsize (fn_word l) <=? 8); [rewrite <- app_assoc; reflexivity|reflexivity]. }
  destruct (M ls fuel [] (mkwl 0 0 0 0) [] G Hf ltac:(constructor)) as (s & L & Es). exists s. split; [exact L|exact Es].
Qed.

(** C46. *)
Lemma index_lines_ok g ls r : index_lines g ls = Ok r ->
  forall wi, In wi r <-> wi_word wi <> no_index /\ registered g ls (wi_word wi) (wi_lines wi).
Proof.
  revert r. induction ls as [|[w wl] ls IH]; intros r E; cbn [index_lines] in E.
  - injection E as <-. intros wi. split; [intros []|]. intros (_ & s & [] & _).
  - apply bind_Ok in E. destruct E as (i & Ei & E). apply bind_Ok in E. destruct E as (r' & Er & E). injection E as <-.
    specialize (IH r' Er). intros wi.
    assert (H : In wi (if i =? no_index then r' else mkwi i wl :: r') <-> (i <> no_index /\ wi = mkwi i wl) \/ In wi r').
    { destruct (Z.eqb_spec i no_index); [tauto|]. cbn [In]. intuition. }
    rewrite H, IH. unfold registered. split.
    + intros [(N & ->)|(N & s & Hs & Es)].
      * cbn [wi_word wi_lines]. split; [exact N|]. exists w. split; [left; reflexivity|exact Ei].
      * split; [exact N|]. exists s. split; [right; exact Hs|exact Es].
    + intros (N & s & [Hs|Hs] & Es).
      * left. injection Hs as -> ->. rewrite Ei in Es. injection Es as ->. split; [exact N|]. destruct wi; reflexivity.
      * right. split; [exact N|]. exists s. auto.
Qed.
Lemma wi_lt_strict_weak l : strict_weak wi_lt l.
Proof.
  unfold wi_lt. split; [|split]; intros; rewrite ?Z.ltb_lt, ?Z.ltb_ge in *; lia.
Qed.
Lemma infos_ok sort g ls infos word : is_std_sort wi_lt sort -> words_infos sort g ls = Ok infos -> word <> no_index ->
  exists r, infos_get infos word = Ok r /\
    match r with
    | Some wi => wi_word wi = word /\ registered g ls word (wi_lines wi)
    | None => forall wl, ~ registered g ls word wl
    end.
Proof.
  intros Hs E NW. unfold words_infos in E. apply bind_Ok in E. destruct E as (r & Er & E). injection E as <-.
  pose proof (index_lines_ok g ls r Er) as IL. destruct (Hs r (wi_lt_strict_weak r)) as (P & S). set (infos := sort r) in *.
  assert (HR : forall i, 0 <= i < vsize infos -> exists x, rd infos i = Ok x /\ nth_error infos (Z.to_nat i) = Some x).
  { intros i Hi. destruct (nth_error infos (Z.to_nat i)) as [x|] eqn:E; [exists x; split; [apply rd_ok; [lia|exact E]|reflexivity]|].
    apply nth_error_None in E. unfold vsize in Hi. lia. }
  pose (q := fun i => match nth_error infos (Z.to_nat i) with Some x => wi_word x <? word | None => false end).
  assert (Mono : forall i j x y, nth_error infos i = Some x -> nth_error infos j = Some y -> (i <= j)%nat -> wi_word x <= wi_word y).
  { unfold sorted_by in S. clear -S. induction S as [|a l S IH F]; intros i j x y Hi Hj L; [destruct i; discriminate|].
    destruct i as [|i], j as [|j]; cbn in Hi, Hj.
    - injection Hi as ->. injection Hj as ->. lia.
    - injection Hi as ->. rewrite Forall_forall in F. specialize (F y (nth_error_In _ _ Hj)). unfold wi_lt in F. apply Z.ltb_ge in F. exact F.
    - lia.
    - apply (IH i j); try assumption. lia. }
  unfold infos_get. destruct (partition_point_ok (fun i => x <- rd infos i ;; Ok (wi_word x <? word)) q 0 (vsize infos)) as (i & -> & Hi & B & A).
  - apply vsize_nonneg.
  - intros i Hi. destruct (HR i Hi) as (x & R & N). rewrite R. cbn [bind]. unfold q. rewrite N. reflexivity.
  - intros i j Hi Hij Hj. unfold q. destruct (HR i ltac:(lia)) as (x & _ & Nx). destruct (HR j ltac:(lia)) as (y & _ & Ny). rewrite Nx, Ny.
    rewrite !Z.ltb_lt. pose proof (Mono (Z.to_nat i) (Z.to_nat j) x y Nx Ny ltac:(lia)). lia.
  - cbn [bind].
    assert (None_ok : (forall x, nth_error infos (Z.to_nat i) = Some x -> i < vsize infos -> wi_word x <> word) -> forall wl, ~ registered g ls word wl).
    { intros H wl Rg. assert (In (mkwi word wl) r) by (apply IL; split; assumption).
      apply (Permutation_in _ P) in H0. apply In_nth_error in H0. destruct H0 as (k & Hk).
      assert (Lk : (k < List.length infos)%nat) by (apply nth_error_Some; congruence).
      assert (Kz : Z.to_nat (Z.of_nat k) = k) by lia.
      destruct (Z_lt_le_dec (Z.of_nat k) i) as [L|L].
      - specialize (B (Z.of_nat k) ltac:(lia)). unfold q in B. rewrite Kz, Hk in B. cbn [wi_word] in B. lia.
      - unfold vsize in *. destruct (HR i ltac:(unfold vsize; lia)) as (x & _ & Nx).
        pose proof (Mono _ _ _ _ Nx Hk ltac:(lia)) as Le. cbn [wi_word] in Le.
        assert (~ wi_word x < word). { intros X. pose proof (A i ltac:(lia)) as Q. unfold q in Q. rewrite Nx in Q. lia. }
        apply (H x Nx); lia. }
    destruct (Z.ltb_spec i (vsize infos)) as [L|L].
    + destruct (HR i ltac:(lia)) as (x & R & N). rewrite R. cbn [bind]. destruct (Z.eqb_spec (wi_word x) word) as [W|W].
      * exists (Some x). split; [reflexivity|]. split; [exact W|].
        assert (In x r) by (apply (Permutation_in _ (Permutation_sym P)); apply nth_error_In in N; exact N).
        apply IL in H. rewrite <- W. apply H.
      * exists None. split; [reflexivity|]. apply None_ok. intros y Ny _. rewrite N in Ny. injection Ny as <-. exact W.
    + exists None. split; [reflexivity|]. apply None_ok. intros y _ Ly. lia.
Qed.

Lemma designated_unique ws s w w' : designates ws s w -> designates ws s w' -> w = w'.
Proof.
  intros (A1 & A2 & A3) (B1 & B2 & B3). destruct (A3 w' B1 B2) as [->|A]; [reflexivity|]. destruct (B3 w A1 A2) as [->|B]; [reflexivity|].
  exfalso. exact (lex_irrefl _ (lex_trans _ _ _ A B)).
Qed.
Lemma lines_of_words gs t s' sort ls : good_file gs -> load_glyphs (open_stream (file_text gs)) = Ok (t, s') ->
  is_std_sort wi_lt sort -> (forall s wl, In (s, wl) ls -> searchable (words_of gs) s) ->
  exists wid fid infos, holds gs t wid fid /\ words_infos sort t ls = Ok infos /\
    forall w, In w (words_of gs) -> exists r, infos_get infos (wid w) = Ok r /\
      match r with
      | Some wi => exists s, In (s, wi_lines wi) ls /\ designates (words_of gs) s w
      | None => forall s wl, In (s, wl) ls -> ~ designates (words_of gs) s w
      end.
Proof.
  intros G L Hs Sr. destruct (index_of_file_ok gs t s' G L) as (wid & fid & Ho & Wb & Ix). exists wid, fid.
  assert (Inj : forall w w', In w (words_of gs) -> In w' (words_of gs) -> wid w = wid w' -> w = w').
  { intros w w' Hw Hw' E. destruct Ho as (_ & T & _). pose proof (T w Hw) as A. rewrite E, (T w' Hw') in A. congruence. }
  assert (D : exists r, index_lines t ls = Ok r).
  { clear -Ix Sr. induction ls as [|[s wl] ls IH]; [exists []; reflexivity|]. cbn [index_lines].
    destruct (Ix s (Sr s wl (or_introl eq_refl))) as (i & -> & _). cbn [bind].
    destruct IH as (r & ->); [intros s0 wl0 H; apply (Sr s0 wl0); right; exact H|]. cbn [bind]. eauto. }
  destruct D as (r & D). exists (sort r). split; [exact Ho|].
  assert (E : words_infos sort t ls = Ok (sort r)) by (unfold words_infos; rewrite D; reflexivity). split; [exact E|].
  assert (Rg : forall w wl, In w (words_of gs) -> (registered t ls (wid w) wl <-> exists s, In (s, wl) ls /\ designates (words_of gs) s w)).
  { intros w wl Hw. unfold registered. split.
    - intros (s & H & E2). exists s. split; [exact H|]. destruct (Ix s (Sr s wl H)) as (i & Ei & [(w' & A1 & A2)|[_ A2]]); rewrite Ei in E2; injection E2 as ->.
      + rewrite (Inj w w' Hw (proj1 A1) A2). exact A1.
      + pose proof (Wb w Hw). lia.
    - intros (s & H & A). exists s. split; [exact H|]. destruct (Ix s (Sr s wl H)) as (i & Ei & [(w' & A1 & A2)|[A1 A2]]).
      + rewrite (designated_unique _ _ _ _ A A1), <- A2. exact Ei.
      + exfalso. apply (A1 w Hw). apply A. }
  intros w Hw. destruct (infos_ok sort t ls (sort r) (wid w) Hs E) as (o & O & P); [pose proof (Wb w Hw); lia|].
  exists o. split; [exact O|]. destruct o as [wi|].
  - destruct P as [_ P]. apply (Rg w _ Hw), P.
  - intros s wl H A. apply (P wl). apply (Rg w _ Hw). exists s. auto.
Qed.
Lemma written_files gs :
  (forall g, In g gs -> storable g /\ gl_views g <> [] /\ ~ In 10 (idata (gl_img g)) /\
     forall v, In v (gl_views g) -> bytes (vw_word v)) ->
  write_glyphs gs = file_text (map fglyph_of gs) /\ Forall good_glyph (map fglyph_of gs).
Proof.
  intros H. split; [apply written_text|]. apply Forall_forall. intros f Hf. apply in_map_iff in Hf. destruct Hf as (g & <- & Hg).
  destruct (H g Hg) as (A & B & C & D). apply written_good; assumption.
Qed.
