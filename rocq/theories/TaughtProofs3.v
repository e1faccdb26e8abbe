(** The names of the fonts do not matter. *)
From Verif Require Import Base BaseProofs ProofTools SortModel SortProofs ImageModel DatasModel StreamModel StreamProofs GlyphIoModel GlyphIoSpec GlyphIoProofs TrieModel TrieSpec TrieProofs
  FlatTrieProofs DictionaryProofs IndexModel IndexProofs GlyphsModel GlyphsSpec GlyphsProofs GlyphsProofs3 PipelineModel PrintModel TaughtSpec TaughtProofs2.

Lemma insert_find w id m k : names_find w m = None -> names_find k (names_insert w id m) = if list_eqb w k then Some id else names_find k m.
Proof.
  induction m as [|[a i] m IH]; intros N; cbn [names_find names_insert] in *; [reflexivity|]. destruct (list_eqb a w) eqn:Ea; [discriminate|].
  destruct (list_ltb Z.ltb w a); cbn [names_find]; [reflexivity|]. rewrite (IH N). destruct (list_eqb a k) eqn:Ek; [|reflexivity].
  apply list_eqb_eq in Ek. subst k. destruct (list_eqb w a) eqn:E; [|reflexivity]. apply list_eqb_eq in E. subst w. rewrite (proj2 (list_eqb_eq a a) eq_refl) in Ea. discriminate.
Qed.
Lemma insert_size w id m : vsize (names_insert w id m) = vsize m + 1.
Proof. induction m as [|[a i] m IH]; [reflexivity|]. cbn [names_insert]. destruct (list_ltb Z.ltb w a); rewrite !vsize_cons in *; lia. Qed.

Section Fonts.
Context (f : list Z -> list Z) (dom : list Z -> Prop).
Hypothesis (J : forall a b, dom a -> dom b -> f a = f b -> a = b).
Definition like (m m' : names) : Prop := vsize m = vsize m' /\ forall k, dom k -> names_find (f k) m' = names_find k m.
Lemma get_like k m m' : dom k -> like m m' -> fst (names_get k m) = fst (names_get (f k) m') /\ like (snd (names_get k m)) (snd (names_get (f k) m')).
Proof.
  intros Dk (V & F). unfold names_get. rewrite (F k Dk). destruct (names_find k m) as [id|] eqn:E; [now repeat split|]. cbn [fst snd]. rewrite V. split; [reflexivity|].
  split; [rewrite !insert_size; lia|]. intros j Dj. rewrite !insert_find by (rewrite ?(F k Dk); exact E).
  rewrite (F j Dj). destruct (list_eqb k j) eqn:E1.
  - apply list_eqb_eq in E1. subst j. now rewrite (proj2 (list_eqb_eq _ _) eq_refl).
  - destruct (list_eqb (f k) (f j)) eqn:E2; [|reflexivity]. apply list_eqb_eq in E2. rewrite (J k j Dk Dj E2), (proj2 (list_eqb_eq _ _) eq_refl) in E1. discriminate.
Qed.
Definition other (p : list Z * list Z) : list Z * list Z := (fst p, f (snd p)).
Lemma number_like ps words m m' : (forall p, In p ps -> dom (snd p)) -> like m m' ->
  fst (number ps words m) = fst (number (map other ps) words m') /\ like (snd (number ps words m)) (snd (number (map other ps) words m')).
Proof.
  revert words m m'. induction ps as [|[w k] ps IH]; intros words m m' D L; [now split|]. cbn [map other number fst snd].
  destruct (names_get w words) as [wid words1]. destruct (get_like k m m' (D (w, k) (or_introl eq_refl)) L) as (E & L1).
  destruct (names_get k m) as [id m1]. destruct (names_get (f k) m') as [id' m1']. cbn [fst snd] in E, L1. subst id'.
  destruct (IH words1 m1 m1' (fun p Hp => D p (or_intror Hp)) L1) as (E2 & L2). destruct (number ps words1 m1) as [[vs w2] m2]. destruct (number (map other ps) words1 m1') as [[vs' w2'] m2'].
  cbn [fst snd] in *. split; [congruence|exact L2].
Qed.
Lemma number_all_like gs words m m' : (forall ps p, In ps gs -> In p ps -> dom (snd p)) -> like m m' -> number_all gs words m = number_all (map (map other) gs) words m'.
Proof.
  revert words m m'. induction gs as [|ps gs IH]; intros words m m' D L; [reflexivity|]. cbn [map number_all].
  destruct (number_like ps words m m' (fun p Hp => D ps p (or_introl eq_refl) Hp) L) as (E & L1).
  destruct (number ps words m) as [[vs w1] m1]. destruct (number (map other ps) words m') as [[vs' w1'] m1']. cbn [fst snd] in E, L1.
  assert (vs' = vs /\ w1' = w1) as (-> & ->) by (split; congruence). now rewrite (IH w1 m1 m1' (fun ps' p Hps Hp => D ps' p (or_intror Hps) Hp) L1).
Qed.
End Fonts.

Lemma told_like f gs gs' : told_alike (map (refont f) gs) gs' -> map named_glyph (map fglyph_of gs') = map (map (other f)) (map named_glyph (map fglyph_of gs)).
Proof.
  rewrite !map_map. revert gs'. induction gs as [|g gs IH]; intros gs' A; inversion A as [|? g' ? gs2 E A']; subst; [reflexivity|]. cbn [map]. rewrite (IH gs2 A'). f_equal.
  unfold same_views, refont in E. cbn [gl_views] in E. unfold named_glyph. cbn [fg_labels fglyph_of]. rewrite !map_map in *. symmetry. exact E.
Qed.
Lemma renamed_same f gs gs' : Forall tellable gs -> Forall tellable gs' -> keeps_apart f gs -> told_alike (map (refont f) gs) gs' ->
  load_file load_glyphs (write_glyphs gs) = load_file load_glyphs (write_glyphs gs').
Proof.
  intros T T' K A. rewrite Forall_forall in T, T'. destruct (written_files gs T) as (-> & G). destruct (written_files gs' T') as (-> & G').
  assert (Sz : forall gs, (forall g, In g gs -> tellable g) -> Forall (fun g => vsize (fg_labels g) < 4294967296) (map fglyph_of gs)).
  { intros l Tl. apply Forall_forall. intros x Hx. apply in_map_iff in Hx as (g & <- & Hg). cbn [fg_labels fglyph_of]. rewrite vsize_map. apply (Tl g Hg). }
  unfold load_file, load_glyphs. rewrite !glyphs_number by auto. rewrite (told_like f gs gs' A).
  rewrite (number_all_like f (fun k => exists g v, In g gs /\ In v (gl_views g) /\ vw_font v = k)) with (m' := []); [reflexivity| | |now split].
  - intros a b (g & v & Hg & Hv & <-) (h & w & Hh & Hw & <-). exact (K g h v w Hg Hh Hv Hw).
  - intros ps p Hps Hp. rewrite map_map in Hps. apply in_map_iff in Hps as (g & <- & Hg). unfold named_glyph in Hp. cbn [fg_labels fglyph_of] in Hp. rewrite map_map in Hp.
    apply in_map_iff in Hp as (v & <- & Hv). exists g, v. now repeat split.
Qed.
Lemma renamed_text f rt cx gs gs' datas image lines dict : Forall tellable gs -> Forall tellable gs' -> keeps_apart f gs -> told_alike (map (refont f) gs) gs' ->
  extract_text rt cx (write_glyphs gs) datas image lines dict = extract_text rt cx (write_glyphs gs') datas image lines dict.
Proof. intros T T' K A. unfold extract_text, load_all. now rewrite (renamed_same f gs gs' T T' K A). Qed.
Lemma renamed_main f rt nan cx disk prog prog' name name' rest gs gs' : Forall tellable gs -> Forall tellable gs' -> keeps_apart f gs -> told_alike (map (refont f) gs) gs' ->
  disk name = Some (write_glyphs gs) -> disk name' = Some (write_glyphs gs') ->
  ocr2_main rt nan cx disk (prog :: name :: rest) = ocr2_main rt nan cx disk (prog' :: name' :: rest).
Proof.
  intros T T' K A D D'. assert (E : load_disk disk load_glyphs name = load_disk disk load_glyphs name') by (unfold load_disk; rewrite D, D'; now apply (renamed_same f)).
  destruct rest as [|datas [|image options]]; [reflexivity..|]. cbn [ocr2_main]. now rewrite E.
Qed.
