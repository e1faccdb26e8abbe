(** The search of any text in the table of a glyph file of any bytes. *)
From Verif Require Import Base BaseProofs SortModel SortProofs DatasModel StreamModel TrieModel TrieSpec TrieProofs FlatTrieProofs DictionaryProofs IndexModel
  GlyphIoModel GlyphIoSpec GlyphsModel GlyphsSpec GlyphsProofs GlyphsProofs2 GlyphsProofs3 SearchSpec SearchProofs GlyphFileSpec GlyphFileProofs.
From Coq Require Import Sorted Permutation.

(** * A file of less than 2^32 bytes fits *)
Definition cost (ls : list (list Z * list Z)) : Z := fold_right (fun p n => vsize (fst p) + 2 + n) 0 ls.
Lemma cost_app a b : cost (a ++ b) = cost a + cost b.
Proof. induction a as [|p a IH]; [reflexivity|]. cbn [app cost fold_right]. fold (cost (a ++ b)) (cost a). lia. Qed.
Lemma label_cost t w f r : starts_label t w f r -> vsize w + 2 + vsize r <= vsize t.
Proof.
  intros (p & q & c & x & _ & _ & Hq & _ & Hf & _ & -> & Hn). apply next_line_length in Hn. destruct Hf as (Hf & _). unfold vsize. rewrite !app_length. destruct q; [congruence|]. destruct f; [congruence|].
  cbn [List.length] in *. lia.
Qed.
Lemma labels_cost n t ls o : labels_in n t ls o -> cost ls + (match o with Some r => vsize r | None => 0 end) <= vsize t.
Proof.
  induction 1 as [t|n t w f r ls o Hn Hl H IH|n t Hn N]; cbn [cost fold_right fst]; [lia| |unfold vsize; lia]. fold (cost ls). apply label_cost in Hl. lia.
Qed.
Lemma glyphs_cost t es b : glyphs_in t es b -> cost (found es) <= vsize t.
Proof.
  induction 1 as [t r b Hn N K|t r n r' ls Hn Hs Hl|t r n r' ls r'' es b Hn Hs Hl H IH]; [cbn; unfold vsize; lia| |]; apply next_line_length in Hn; apply number_length in Hs; apply labels_cost in Hl;
    unfold found in *; cbn [flat_map en_labels]; rewrite cost_app; [cbn [cost fold_right flat_map]|]; unfold vsize in *; lia.
Qed.
Lemma cost_size ls : 0 <= vsize ls <= cost ls.
Proof. induction ls as [|p ls IH]; [cbn; lia|]. cbn [cost fold_right]. fold (cost ls). unfold vsize in *. cbn [List.length]. lia. Qed.
Lemma cost_word ls w : In w (map fst ls) -> vsize w <= cost ls.
Proof.
  induction ls as [|p ls IH]; [intros []|]. cbn [cost fold_right map]. fold (cost ls). pose proof (cost_size ls). intros [<-|H1]; [unfold vsize in *; lia|]. specialize (IH H1). unfold vsize in *. lia.
Qed.
Lemma cost_block ls : block (map fst ls) <= cost ls.
Proof.
  unfold block. induction ls as [|p ls IH]; [cbn; lia|]. cbn [map nodup cost fold_right]. fold (cost ls). assert (0 <= vsize (fst p)) by (unfold vsize; lia).
  destruct (in_dec _ _ _); [lia|]. cbn [fold_right]. pose proof (Z.div_le_upper_bound (vsize (fst p) + 3) 4 (vsize (fst p) + 1) ltac:(lia) ltac:(lia)). lia.
Qed.
Theorem file_fits text es b : glyphs_in text es b -> vsize text < 4294967296 -> fits es.
Proof.
  intros H V. apply glyphs_cost in H. pose proof (cost_size (found es)). pose proof (cost_block (found es)). split; [lia|]. split; [lia|]. intros w Hw. apply cost_word in Hw. lia.
Qed.

(** * The table of a file *)
Lemma block_in_order ls t m ws : blocked ls t m -> in_order ls ws -> keys m = ws.
Proof. intros (_ & _ & S & _ & _ & K) (O1 & O2). apply ordered_unique; [exact S|exact O1|]. intros w. rewrite K, O2. reflexivity. Qed.
Lemma in_order_exists text es b : glyphs_in text es b -> fits es -> exists ws, in_order (found es) ws.
Proof.
  intros HG (V & _). destruct (glyphs_run text es b HG V) as (m & fonts & s & R & Es & G). exists (keys m). destruct (gr_w _ _ _ _ _ G) as [S _ _]. split; [exact S|].
  intros x. rewrite (gr_kw _ _ _ _ _ G). cbn. tauto.
Qed.
Lemma offs_range m w : StronglySorted lex_lt (keys m) -> total m < 4294967296 -> In w (keys m) -> 0 <= offs m w < no_index.
Proof.
  intros S T Hw. unfold keys in Hw. apply in_map_iff in Hw. destruct Hw as ([k i] & Ek' & Hk). cbn [fst] in Ek'. subst k. apply in_split in Hk. destruct Hk as (m1 & m2 & E).
  destruct (sorted_split m S m1 w i m2 E) as (_ & _ & ->). rewrite E, total_app, total_cons in T. unfold no_index. pose proof (width_pos w). pose proof (total_nonneg m1). pose proof (total_nonneg m2). lia.
Qed.
Theorem search_any text es b ws t s' : vsize text < 4294967296 -> glyphs_in text es b -> in_order (found es) ws -> load_glyphs (open_stream text) = Ok (t, s') ->
  exists views wid fid, completed es = Some views /\ resolved_by (found es) views t wid fid /\ (forall w, In w (map fst (found es)) -> 0 <= wid w < no_index) /\
    forall s, word_index_of t s = match scan_words s ws with Found w => Ok (wid w) | Absent => Ok no_index | Unreadable => UB end.
Proof.
  intros V HG O L. pose proof (load_block text es b HG (file_fits _ _ _ HG V)) as H. destruct (completed es) as [views|]; [|congruence].
  destruct H as [(_ & H)|(_ & t2 & s2 & L2 & _ & m & fid & B & R)]; [congruence|]. rewrite L in L2. injection L2 as <- <-. exists views, (offs m), fid. split; [reflexivity|]. split; [exact R|].
  pose proof (block_in_order _ _ _ _ B O) as <-. destruct B as (HM & HT & HS & HW & HL & K). split; [intros w Hw; apply offs_range; [exact HS|exact HL|now apply K]|].
  intros s. now apply index_of_scan.
Qed.
Lemma index_lines_scan t ws wid ls : (forall s, word_index_of t s = match scan_words s ws with Found w => Ok (wid w) | Absent => Ok no_index | Unreadable => UB end) ->
  (exists s wl, In (s, wl) ls /\ scan_words s ws = Unreadable) /\ index_lines t ls = UB \/
  (forall s wl, In (s, wl) ls -> scan_words s ws <> Unreadable) /\ exists r, index_lines t ls = Ok r.
Proof.
  intros Ix. induction ls as [|[s wl] ls IH]; [right; split; [intros s wl []|exists []; reflexivity]|]. cbn [index_lines]. rewrite (Ix s).
  destruct (scan_words s ws) as [w| |] eqn:Es.
  3: { left. split; [exists s, wl; split; [left; reflexivity|exact Es]|reflexivity]. }
  all: cbn [bind]; destruct IH as [((s0 & wl0 & H & U) & ->)|(N & r & ->)];
    [left; split; [exists s0, wl0; split; [right; exact H|exact U]|reflexivity]|right; split; [|cbn [bind]; eauto]];
    intros s0 wl0 [H|H]; [injection H as <- <-; rewrite Es; discriminate|exact (N s0 wl0 H)].
Qed.
Theorem lines_any text es b ws t s' sort ls : vsize text < 4294967296 -> glyphs_in text es b -> in_order (found es) ws -> load_glyphs (open_stream text) = Ok (t, s') -> is_std_sort wi_lt sort ->
  exists views wid fid, completed es = Some views /\ resolved_by (found es) views t wid fid /\
    ((exists s wl, In (s, wl) ls /\ scan_words s ws = Unreadable) /\ words_infos sort t ls = UB \/
     (forall s wl, In (s, wl) ls -> scan_words s ws <> Unreadable) /\ exists infos, words_infos sort t ls = Ok infos /\
       forall w, In w (map fst (found es)) -> exists r, infos_get infos (wid w) = Ok r /\
         match r with
         | Some wi => exists s, In (s, wi_lines wi) ls /\ scan_words s ws = Found w
         | None => forall s wl, In (s, wl) ls -> scan_words s ws <> Found w
         end).
Proof.
  intros V HG O L Hs. destruct (search_any text es b ws t s' V HG O L) as (views & wid & fid & C & Ho & Wb & Ix). exists views, wid, fid. split; [exact C|]. split; [exact Ho|].
  assert (Inj : forall w w', In w (map fst (found es)) -> In w' (map fst (found es)) -> wid w = wid w' -> w = w').
  { intros w w' Hw Hw' E. destruct Ho as (_ & T & _). pose proof (T w Hw) as A. rewrite E, (T w' Hw') in A. congruence. }
  destruct (index_lines_scan t ws wid ls Ix) as [(U & D)|(N & r & D)]; [left; split; [exact U|unfold words_infos; rewrite D; reflexivity]|right; split; [exact N|]].
  exists (sort r). assert (E : words_infos sort t ls = Ok (sort r)) by (unfold words_infos; rewrite D; reflexivity). split; [exact E|].
  assert (Rg : forall w wl, In w (map fst (found es)) -> (registered t ls (wid w) wl <-> exists s, In (s, wl) ls /\ scan_words s ws = Found w)).
  { intros w wl Hw. unfold registered. split; intros (s & H & E2); exists s; (split; [exact H|]); rewrite (Ix s) in *.
    - destruct (scan_words s ws) as [w'| |] eqn:Es; [|pose proof (Wb w Hw); injection E2 as E2; lia|discriminate].
      injection E2 as E2. f_equal. apply Inj; [apply (proj2 O); apply (scan_in s); exact Es|exact Hw|exact E2].
    - rewrite E2. reflexivity. }
  intros w Hw. destruct (infos_ok sort t ls (sort r) (wid w) Hs E) as (o & Eo & P); [pose proof (Wb w Hw); lia|].
  exists o. split; [exact Eo|]. destruct o as [wi|].
  - destruct P as [_ P]. apply (Rg w _ Hw), P.
  - intros s wl H A. apply (P wl). apply (Rg w _ Hw). exists s. auto.
Qed.
(** The table of a file is loaded or is undefined. *)
Theorem load_small text : vsize text < 4294967296 -> exists es b, glyphs_in text es b /\
  match completed es with
  | None => load_glyphs (open_stream text) = UB
  | Some views =>
    ((exists w, greatest (map fst (found es)) w /\ vsize w mod 4 = 0) /\ load_glyphs (open_stream text) = UB) \/
    ((forall w, greatest (map fst (found es)) w -> vsize w mod 4 <> 0) /\
     exists t s, load_glyphs (open_stream text) = Ok (t, s) /\ is_eof s = b /\ resolved (found es) views t)
  end.
Proof. intros V. destruct (load_described text) as (es & b & H). exists es, b. split; [exact H|]. exact (load_any _ _ _ H (file_fits _ _ _ H V)). Qed.

(** The variable is kept when a line is not read. *)
Lemma lines_kept old s wl s' : read_lines old s = (wl, s') -> is_ok s' = false -> wl = old.
Proof.
  unfold read_lines. destruct (get_unsigned 0 s) as (a & s1). destruct (get_unsigned 0 s1) as (c & s2). destruct (get_unsigned 0 s2) as (m & s3). destruct (get_unsigned 0 s3) as (b & s4).
  intros E H. injection E as <- <-. now rewrite H.
Qed.
