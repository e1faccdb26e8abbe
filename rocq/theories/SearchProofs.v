From Verif Require Import Base BaseProofs SortModel SortProofs DatasModel StreamModel TrieModel TrieSpec TrieProofs FlatTrieProofs DictionaryProofs IndexModel
  GlyphIoModel GlyphIoSpec GlyphsModel GlyphsSpec GlyphsProofs GlyphsProofs2 GlyphsProofs3 SearchSpec.
From Coq Require Import Sorted Permutation.

Lemma padding_pad w : padding w = pad w.
Proof.
  unfold padding, pad. pose proof (Z.mod_pos_bound (vsize w) 4 ltac:(lia)) as H. set (k := vsize w mod 4) in *. clearbody k.
  assert (C : k = 0 \/ k = 1 \/ k = 2 \/ k = 3) by lia. destruct C as [-> | [-> | [-> | ->]]]; reflexivity.
Qed.
Lemma stored_image (m : names) : stored (keys m) = image_of m.
Proof.
  induction m as [|[w i] m IH]; [reflexivity|]. unfold keys in *. cbn [map fst stored]. unfold image_of. cbn [flat_map fst]. fold (image_of m).
  unfold slot. rewrite padding_pad, IH, <- !app_assoc. reflexivity.
Qed.

Lemma mem_compare_against s : forall pre l, mem_compare s (pre ++ l) (vsize pre) = match against s l with Some r => Ok r | None => UB end.
Proof.
  induction s as [|c s IH]; intros pre l; [reflexivity|]. cbn [mem_compare against]. destruct l as [|[x|] l].
  - unfold byte. rewrite rd_UB; [reflexivity|]. rewrite app_nil_r. right. unfold vsize. lia.
  - rewrite byte_mid by reflexivity. cbn [bind]. specialize (IH (pre ++ [Some x]) l). rewrite <- app_assoc, vsize_app in IH. cbn [app] in IH. change (vsize [Some x]) with 1 in IH.
    destruct (Z.compare_spec c x) as [E|E|E].
    + subst. rewrite Z.ltb_irrefl. exact IH.
    + rewrite (proj2 (Z.ltb_lt _ _) E). reflexivity.
    + rewrite (proj2 (Z.ltb_ge _ _)) by lia. rewrite (proj2 (Z.ltb_lt _ _) E). reflexivity.
  - unfold byte. rewrite rd_mid by reflexivity. reflexivity.
Qed.

Section Block.
Context (m : names) (t : glyphs_table).
Hypothesis (HM : gt_mem t = image_of m).
Hypothesis (HW : forall w, In w (keys m) -> vsize w < 4294967296).
Hypothesis (HS : StronglySorted lex_lt (keys m)).
Hypothesis (HT : gt_sz t = total m).
Hypothesis (HL : total m < 4294967296).

Lemma index_of_scan s : word_index_of t s = match scan_words s (keys m) with Found w => Ok (offs m w) | Absent => Ok no_index | Unreadable => UB end.
Proof.
  unfold word_index_of. match goal with |- context [loop ?n ?b _] => set (fuel := n); set (body := b) end.
  assert (Hf : (List.length m < fuel)%nat).
  { unfold fuel. rewrite HM. pose proof (image_size m) as V. unfold vsize in V.
    assert (Z.of_nat (List.length m) <= total m).
    { clear. induction m as [|[w i] l IH]; [apply Z.le_refl|]. rewrite total_cons. pose proof (width_pos w). cbn [List.length]. lia. }
    pose proof (total_nonneg m). lia. }
  clearbody fuel.
  assert (M : forall m2 m1 fuel, m = m1 ++ m2 -> (List.length m2 < fuel)%nat ->
    loop fuel body (total m1) = match scan_words s (keys m2) with Found w => Ok (offs m w) | Absent => Ok no_index | Unreadable => UB end).
  { clear fuel Hf. induction m2 as [|[w j] m2 IH]; intros m1 fuel E Hf; (destruct fuel as [|fuel]; [inversion Hf|]); cbn [loop]; unfold body at 1; rewrite HT.
    - rewrite app_nil_r in E. subst m1. rewrite Z.ltb_irrefl. reflexivity.
    - assert (L : total m1 < total m) by (rewrite E, total_app, total_cons; pose proof (width_pos w); pose proof (total_nonneg m2); lia).
      rewrite (proj2 (Z.ltb_lt _ _) L). destruct (sorted_split m HS _ _ _ _ E) as (_ & _ & P3).
      pose proof (split_mem m t HM _ _ _ _ E) as SM. rewrite app_assoc in SM.
      pose proof (mem_compare_against s (image_of m1 ++ map Some (le_bytes (vsize w))) (map Some w ++ pad w ++ image_of m2)) as R.
      rewrite <- SM, vsize_app, image_size, vsize_map in R. change (vsize (le_bytes (vsize w))) with 4 in R.
      replace (4 * (total m1 + 1)) with (4 * total m1 + 4) by lia. rewrite R.
      change (keys ((w, j) :: m2)) with (w :: keys m2). cbn [scan_words]. rewrite padding_pad, stored_image.
      destruct (against s (map Some w ++ pad w ++ image_of m2)) as [[| |]|]; cbn [bind]; [rewrite P3; reflexivity|reflexivity| |reflexivity].
      rewrite (word_size_ok m t HM HW _ _ _ _ E). cbn [bind].
      assert (EN : u32 (total m1 + (vsize w + 7) / 4) = total (m1 ++ [(w, j)])).
      { rewrite total_app, total_cons. change (total []) with 0.
        assert (total m1 + total [(w, j)] + total m2 = total m) by (rewrite E, total_app, !total_cons; change (total []) with 0; lia).
        rewrite total_cons in *. change (total []) with 0 in *.
        pose proof (total_nonneg m1). pose proof (total_nonneg m2). pose proof (width_pos w).
        assert (EW : (vsize w + 7) / 4 = width w) by (unfold width, cells; lia).
        rewrite EW, u32_small by lia. lia. }
      rewrite EN. apply IH; [rewrite <- app_assoc; exact E|cbn [List.length] in Hf; lia]. }
  apply (M m [] fuel eq_refl Hf).
Qed.
End Block.

Lemma ordered_unique l : forall l', StronglySorted lex_lt l -> StronglySorted lex_lt l' -> (forall w, In w l <-> In w l') -> l = l'.
Proof.
  induction l as [|a l IH]; intros l' H H' E.
  { destruct l' as [|b l']; [reflexivity|]. destruct (proj2 (E b) (or_introl eq_refl)). }
  destruct l' as [|b l']; [destruct (proj1 (E a) (or_introl eq_refl))|].
  inversion H as [|? ? Hl F]; subst. inversion H' as [|? ? Hl' F']; subst. rewrite Forall_forall in F, F'.
  assert (Eab : a = b).
  { destruct (proj1 (E a) (or_introl eq_refl)) as [X|X]; [symmetry; exact X|]. destruct (proj2 (E b) (or_introl eq_refl)) as [Y|Y]; [exact Y|].
    exfalso. exact (lex_irrefl a (lex_trans _ _ _ (F b Y) (F' a X))). }
  subst b. f_equal. apply IH; [assumption|assumption|]. intros w. split; intros Hw.
  - destruct (proj1 (E w) (or_intror Hw)) as [<-|X]; [destruct (lex_irrefl a (F a Hw))|exact X].
  - destruct (proj2 (E w) (or_intror Hw)) as [<-|X]; [destruct (lex_irrefl a (F' a Hw))|exact X].
Qed.

Theorem search_exact gs t s' ws : good_file gs -> load_glyphs (open_stream (file_text gs)) = Ok (t, s') -> ordered_words gs ws ->
  exists wid fid, holds gs t wid fid /\ (forall w, In w (words_of gs) -> 0 <= wid w < no_index) /\
    forall s, word_index_of t s = match scan_words s ws with Found w => Ok (wid w) | Absent => Ok no_index | Unreadable => UB end.
Proof.
  intros G L (Os & Ow). destruct (load_file_ok gs G) as (m & views & s2 & IF & Es & L2 & Ho). rewrite L in L2.
  destruct (good_end m) eqn:GE; [|discriminate]. injection L2 as -> _. destruct (Ho eq_refl) as (fid & Hf).
  assert (Ek : keys m = ws).
  { apply ordered_unique; [exact (if_sorted _ _ IF)|exact Os|]. intros w. rewrite Ow. apply (if_words _ _ IF). }
  exists (offs m), fid. split; [exact Hf|]. split.
  { intros w Hw. apply (if_words _ _ IF) in Hw. unfold keys in Hw. apply in_map_iff in Hw. destruct Hw as ([k i] & Ek' & Hk).
    cbn [fst] in Ek'. subst k. apply in_split in Hk. destruct Hk as (m1 & m2 & E).
    destruct (sorted_split m (if_sorted _ _ IF) m1 w i m2 E) as (_ & _ & ->).
    pose proof (if_total _ _ IF) as T. rewrite E, total_app, total_cons in T. unfold no_index.
    pose proof (width_pos w). pose proof (total_nonneg m1). pose proof (total_nonneg m2). lia. }
  intros s. rewrite <- Ek. apply index_of_scan; [reflexivity|exact (if_sizes _ _ IF)|exact (if_sorted _ _ IF)|reflexivity|exact (if_total _ _ IF)].
Qed.

Lemma ordered_words_exist gs : good_file gs -> exists ws, ordered_words gs ws.
Proof.
  intros G. destruct (load_file_ok gs G) as (m & _ & _ & IF & _). exists (keys m). split; [exact (if_sorted _ _ IF)|exact (if_words _ _ IF)].
Qed.

Lemma scan_in s ws w : scan_words s ws = Found w -> In w ws.
Proof.
  induction ws as [|x ws IH]; [discriminate|]. cbn [scan_words]. destruct (against _ _) as [[| |]|]; try discriminate; intros E; [injection E as <-; left; reflexivity|right; apply IH; exact E].
Qed.

Theorem lines_exact gs t s' ws sort ls : good_file gs -> load_glyphs (open_stream (file_text gs)) = Ok (t, s') -> ordered_words gs ws -> is_std_sort wi_lt sort ->
  exists wid fid, holds gs t wid fid /\
    ((exists s wl, In (s, wl) ls /\ scan_words s ws = Unreadable) /\ words_infos sort t ls = UB \/
     (forall s wl, In (s, wl) ls -> scan_words s ws <> Unreadable) /\ exists infos, words_infos sort t ls = Ok infos /\
       forall w, In w (words_of gs) -> exists r, infos_get infos (wid w) = Ok r /\
         match r with
         | Some wi => exists s, In (s, wi_lines wi) ls /\ scan_words s ws = Found w
         | None => forall s wl, In (s, wl) ls -> scan_words s ws <> Found w
         end).
Proof.
  intros G L O Hs. destruct (search_exact gs t s' ws G L O) as (wid & fid & Ho & Wb & Ix). exists wid, fid. split; [exact Ho|].
  assert (Inj : forall w w', In w (words_of gs) -> In w' (words_of gs) -> wid w = wid w' -> w = w').
  { intros w w' Hw Hw' E. destruct Ho as (_ & T & _). pose proof (T w Hw) as A. rewrite E, (T w' Hw') in A. congruence. }
  assert (D : (exists s wl, In (s, wl) ls /\ scan_words s ws = Unreadable) /\ index_lines t ls = UB \/
    (forall s wl, In (s, wl) ls -> scan_words s ws <> Unreadable) /\ exists r, index_lines t ls = Ok r).
  { clear -Ix. induction ls as [|[s wl] ls IH]; [right; split; [intros s wl []|exists []; reflexivity]|]. cbn [index_lines]. rewrite (Ix s).
    destruct (scan_words s ws) as [w| |] eqn:Es.
    3: { left. split; [exists s, wl; split; [left; reflexivity|exact Es]|reflexivity]. }
    all: cbn [bind]; destruct IH as [((s0 & wl0 & H & U) & ->)|(N & r & ->)];
      [left; split; [exists s0, wl0; split; [right; exact H|exact U]|reflexivity]|right; split; [|cbn [bind]; eauto]];
      intros s0 wl0 [H|H]; [injection H as <- <-; rewrite Es; discriminate|exact (N s0 wl0 H)]. }
  destruct D as [(U & D)|(N & r & D)]; [left; split; [exact U|unfold words_infos; rewrite D; reflexivity]|right; split; [exact N|]].
  exists (sort r). assert (E : words_infos sort t ls = Ok (sort r)) by (unfold words_infos; rewrite D; reflexivity). split; [exact E|].
  assert (Rg : forall w wl, In w (words_of gs) -> (registered t ls (wid w) wl <-> exists s, In (s, wl) ls /\ scan_words s ws = Found w)).
  { intros w wl Hw. unfold registered. split; intros (s & H & E2); exists s; (split; [exact H|]); rewrite (Ix s) in *.
    - destruct (scan_words s ws) as [w'| |] eqn:Es; [|pose proof (Wb w Hw); injection E2 as E2; lia|discriminate].
      injection E2 as E2. f_equal. apply Inj; [apply (proj2 O); apply (scan_in s); exact Es|exact Hw|exact E2].
    - rewrite E2. reflexivity. }
  intros w Hw. destruct (infos_ok sort t ls (sort r) (wid w) Hs E) as (o & Eo & P); [pose proof (Wb w Hw); lia|].
  exists o. split; [exact Eo|]. destruct o as [wi|].
  - destruct P as [_ P]. apply (Rg w _ Hw), P.
  - intros s wl H A. apply (P wl). apply (Rg w _ Hw). exists s. auto.
Qed.
