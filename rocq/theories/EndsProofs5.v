(** Every run ends: the training programs. *)
From Verif Require Import Base BaseProofs SortModel SortProofs ImageModel BoxModel StratModel ZoneModel DatasModel StreamModel StreamProofs GlyphIoModel DatasIoModel DictIoModel GlyphIoSpec RefuseSpec
  IndexModel GlyphsModel GlyphsSpec GlyphFileSpec GlyphTextSpec GlyphTextProofs TrieModel NormModel LearnModel LearnSpec LearnProofs LearnProofs2 DecodeSpec DecodeProofs2 ShowModel ProgModel
  EndsSpec EndsProofs EndsProofs2 EndsProofs3.

(** * normalize_glyphs *)
Lemma ends_adjacent fuel : forall gs i, 0 <= i <= vsize gs -> vsize gs - i < Z.of_nat fuel -> ends (adjacent fuel gs i).
Proof.
  induction fuel as [|f IH]; intros gs i Hi Hf; [lia|]. cbn [adjacent]. destruct (Z.eqb_spec i (vsize gs)); [discriminate|]. destruct (Z.eqb_spec (i + 1) (vsize gs)); [discriminate|].
  ends_auto; [apply ends_image_eq|]. apply IH; lia.
Qed.
Lemma adjacent_range fuel : forall gs i r, 0 <= i <= vsize gs -> adjacent fuel gs i = Ok r -> 0 <= r <= vsize gs.
Proof.
  induction fuel as [|f IH]; intros gs i r Hi; [discriminate|]. cbn [adjacent]. destruct (Z.eqb_spec i (vsize gs)); [intros E; injection E as <-; lia|].
  destruct (Z.eqb_spec (i + 1) (vsize gs)); [intros E; injection E as <-; lia|]. intros H. apply bind_Ok in H as (a & _ & H). apply bind_Ok in H as (b & _ & H). apply bind_Ok in H as (e & _ & H).
  destruct e; [injection H as <-; lia|]. apply IH in H; lia.
Qed.
Lemma ends_gather fuel : forall gs i pos views, 0 < Z.of_nat fuel -> pos - i < Z.of_nat fuel -> ends (gather fuel gs i pos views).
Proof.
  induction fuel as [|f IH]; intros gs i pos views H0 Hf; cbn [gather]; [lia|]. destruct (Z.ltb_spec i pos); [|discriminate]. ends_auto. apply IH; lia.
Qed.
Lemma halving_range p fuel : forall lo len r, halving fuel p lo len = Ok r -> 0 <= len -> lo <= r <= lo + len.
Proof.
  induction fuel as [|f IH]; intros lo len r; cbn [halving]; [discriminate|]. destruct (Z.leb_spec len 0) as [L|L]; [intros E; injection E as <-; lia|]. cbv zeta.
  intros H Hl. apply bind_Ok in H as (b & _ & H). pose proof (Z.div_lt len 2 ltac:(lia) ltac:(lia)). pose proof (Z.div_pos len 2 ltac:(lia) ltac:(lia)). destruct b; apply IH in H; lia.
Qed.
Lemma partition_range p lo hi r : partition_point p lo hi = Ok r -> lo <= hi -> lo <= r <= hi.
Proof. unfold partition_point. intros H Hl. apply halving_range in H; lia. Qed.
Lemma ends_normalize sort sort_views glyphs : ends (normalize sort sort_views glyphs).
Proof.
  unfold normalize. cbv zeta. set (gs0 := sort glyphs). clearbody gs0. pose proof (Zle_0_nat (List.length gs0)) as H0. fold (@vsize glyph gs0) in H0.
  apply ends_bind; [apply ends_adjacent; unfold vsize in *; lia|]. intros first Ef. apply adjacent_range in Ef; [|lia].
  apply (ends_loop (fun '(gs, i, _) => vsize gs = vsize gs0 /\ 0 <= i <= vsize gs0) (fun '(gs, i, _) => Z.to_nat (vsize gs0 - i))).
  - intros ((gs & i) & j) (E & Hi). ends_auto; try apply ends_image_compare. apply ends_gather; [lia|].
    apply Z.eqb_neq in Heqb. repeat match goal with
    | H : partition_point _ _ _ = Ok _ |- _ => apply partition_range in H; [|lia]
    | H : wr _ _ _ = Ok _ |- _ => apply wr_Ok in H as (_ & H & _) end. unfold vsize in *. lia.
  - intros ((gs & i) & j) ((gs2 & i2) & j2) (E & Hi). destruct (Z.eqb_spec i (vsize gs0)); [discriminate|]. intros H. apply bind_Ok in H as (g & _ & H). apply bind_Ok in H as (pos & Ep & H).
    apply partition_range in Ep; [|lia]. apply bind_Ok in H as (g1 & W1 & H). apply bind_Ok in H as (g2 & W2 & H). apply bind_Ok in H as (vs & _ & H). apply bind_Ok in H as (g3 & W3 & H). injection H as <- <- _.
    apply wr_Ok in W1 as (_ & W1 & _). apply wr_Ok in W2 as (_ & W2 & _). apply wr_Ok in W3 as (_ & W3 & _). lia.
  - lia.
  - unfold vsize in *. lia.
Qed.
Lemma ends_normalize_main sort sort_views disk av : ends (normalize_main sort sort_views disk av).
Proof.
  destruct av as [|prog [|name names]]; try discriminate. destruct (normalize_texts disk name names) as ((r & Hr) & H). rewrite (H r Hr).
  destruct r as [gs|code]; [|discriminate]. apply ends_bind; [apply ends_normalize|discriminate].
Qed.

(** * write_datas *)
Lemma digits_nonneg ds : (forall c, In c ds -> is_digit c = true) -> 0 <= digits_value ds.
Proof.
  induction ds as [|d ds IH] using rev_ind; intros H; [cbn; lia|]. rewrite digits_value_app. assert (is_digit d = true) as D by (apply H, in_or_app; right; now left).
  unfold is_digit in D. assert (0 <= digits_value ds) by (apply IH; intros c Hc; apply H, in_or_app; now left). lia.
Qed.
Lemma starts_number_range t n r : starts_number t n r -> 0 <= n < 4294967296.
Proof.
  intros (p & f & _ & (sign & ds & _ & (Hs & Hd) & _ & L & ->) & _). pose proof (Z.mod_pos_bound (- digits_value ds) 4294967296 ltac:(lia)).
  apply digits_nonneg in Hd. destruct Hs as [-> |[-> | ->]]; lia.
Qed.
Lemma pictures_sane text imgs b : pictures_text text imgs b -> Forall sane imgs.
Proof.
  induction 1 as [| |t img r n r1 r2 imgs b (r0 & c & H1 & H2 & H3) _ _ _ IH]; constructor; [|exact IH].
  apply starts_number_range in H1. apply starts_number_range in H2. unfold sane, vsize, area, u32. lia.
Qed.
Lemma ends_features junk zsort cx bytes : ends (features_of_file junk zsort cx bytes).
Proof.
  destruct (write_datas_texts bytes) as ((imgs & b & Hi) & H). specialize (H junk zsort cx imgs b Hi). intros E.
  assert (N : write_datas_file junk zsort cx bytes = NoFuel). { change (write_datas_file junk zsort cx bytes) with ('(d, s) <- features_of_file junk zsort cx bytes ;; Ok (if is_eof s then Some (write_datas (d_cols d)) else None)). rewrite E. reflexivity. }
  rewrite N in H. symmetry in H. revert H. apply ends_bind; [|discriminate]. apply ends_datas_load_all. eapply pictures_sane; eauto.
Qed.
Lemma ends_write_datas_main junk zsort cx disk av : ends (write_datas_main junk zsort cx disk av).
Proof. unfold write_datas_main. ends_auto. apply ends_features. Qed.

(** * make_trie_dictionary *)
Lemma ends_dictionary_of_files sort files : is_std_sort (list_ltb Z.ltb) sort -> (forall f text, In f files -> f = Some text -> octets text /\ vsize text < 4294967296) ->
  ends (dictionary_of_files sort files).
Proof.
  intros Hs Hf.
  assert (S : (forall f, In f files -> f = None) \/ exists before text after, (forall f, In f before -> f = None) /\ files = before ++ Some text :: after).
  { clear Hf. induction files as [|f files IH]; [left; intros f []|]. destruct f as [text|].
    - right. exists [], text, files. split; [intros f []|reflexivity].
    - destruct IH as [IH|(b & t & a & H1 & ->)]; [left; intros f [<- |H]; [reflexivity|now apply IH]|]. right. exists (None :: b), t, a. split; [|reflexivity]. intros f [<- |H]; [reflexivity|now apply H1]. }
  assert (G : forall before text after, (forall f, In f before -> f = None) -> octets text -> vsize text < 4294967296 -> ends (dictionary_of_files sort (before ++ Some text :: after))).
  { intros before text after Hb Ho Hv. destruct (text_lines_total text) as (ls & Hl).
    destruct (dictionary_file_outcome sort before text ls after Hs Hb Hl Ho Hv) as [(_ & E)|(gss & out & nodes & _ & _ & E & _)]; rewrite E; discriminate. }
  destruct S as [S|(b & t & a & H1 & ->)].
  - rewrite (dictionary_none sort files S). apply (G [] [] []); [intros f []|constructor|reflexivity].
  - destruct (Hf (Some t) t) as (Ho & Hv); [apply in_or_app; right; now left|reflexivity|]. now apply G.
Qed.
Lemma ends_dictionary_main sort disk av : is_std_sort (list_ltb Z.ltb) sort -> plain_disk disk -> ends (dictionary_main sort disk av).
Proof.
  intros Hs Hd. unfold dictionary_main. destruct av as [|p [|name names]]; try discriminate. apply ends_bind; [|discriminate]. apply ends_dictionary_of_files; [exact Hs|].
  intros f text Hf E. apply in_map_iff in Hf as (n & En & _). rewrite E in En. exact (Hd n text En).
Qed.
