From Verif Require Import Base BaseProofs SortModel SortProofs ImageModel ImageSpec ImageProofs PnmModel BoxModel BoxSpec BoxProofs StratModel ZoneModel DatasModel DatasSpec DatasProofs
  UtfSpec StreamModel GlyphIoModel GlyphIoSpec DatasIoModel DatasIoSpec DatasIoProofs DictIoModel DictIoProofs TrieModel TrieSpec TrieProofs SpellModel SpellSpec
  IndexModel IndexSpec FloatModel RecogModel RecogSpec RankProofs RecogProofs RecogProofs2 RecogWitness GlyphsModel GlyphsSpec GlyphsProofs3 GlyphsProofs4 FilterModel FilterSpec FilterProofs ExtractModel ExtractSpec ExtractProofs
  AssembleModel AssembleSpec AssembleProofs LearnModel LearnSpec LearnProofs LearnProofs2 LearnProofs3 LearnProofs4 PipelineModel PipelineSpec PipelineProofs PipelineProofs2 PipelineProofs3 PipelineProofs4 ReadSpec.

(** * The candidates of a picture *)
Section Candidates.
Context (rt : runtime) (HL : legal rt) (z : list Z -> list Z) (Hz : is_std_sort Z.ltb z) (gs : list glyph) (wid fid : list Z -> Z) (t : table).
Hypothesis (HR : Forall recognisable (map gl_img gs)).
Hypothesis (HT : sound_table t).
Hypothesis (EC : t_cols t = feature_table z (map gl_img gs)).
Hypothesis (EV : t_glyphs t = map (fun g => map (fun v => mkov (wid (vw_word v)) (fid (vw_font v))) (gl_views g)) gs).
Notation e := (mkrec t (rt_views rt) (rt_probs rt) (rt_zones rt) (rt_junk rt)).

Section Picture.
Context (junk : Z -> Z) (im im90 : image) (RI : recognisable im) (E90 : rotate90 im = Ok im90).
Notation inp := (mkin junk (rt_zones rt) im im90).
Let HI : sound_input inp := inp_sound rt HL junk im im90 RI E90.
Let HRows : rows t = Z.of_nat (List.length gs) := rows_gs gs wid fid t EV.

Lemma row_glyph i : 0 <= i < rows t -> exists g, nth_error gs (Z.to_nat i) = Some g /\ In g gs /\ recognisable (gl_img g).
Proof.
  intros Hi. rewrite HRows in Hi. destruct (nth_error gs (Z.to_nat i)) as [g|] eqn:E; [|apply nth_error_None in E; lia].
  exists g. pose proof (nth_error_In _ _ E) as Ig. split; [reflexivity|]. split; [exact Ig|]. rewrite Forall_forall in HR. apply HR, in_map, Ig.
Qed.
Lemma row_cell s i g : 0 <= i -> In s all_strategies -> nth_error gs (Z.to_nat i) = Some g -> forall v, cell t s i v <-> v = fval_of z (gl_img g) s.
Proof.
  intros H0 Hs Ei v.
  assert (Em : nth_error (map gl_img gs) (Z.to_nat i) = Some (gl_img g)) by (rewrite nth_error_map, Ei; reflexivity).
  pose proof (table_cell z (map gl_img gs) t s (Z.to_nat i) (gl_img g) HT EC Hs Em) as C. rewrite Z2Nat.id in C by exact H0. split.
  - intros H. rewrite <- (cell_cv t HT _ _ _ H). exact C.
  - intros ->. split; [exact H0|]. exists (map (fun img => fval_of z img s) (map gl_img gs)). split.
    + rewrite (st_strategies t HT), EC. unfold feature_table. clear - Hs. induction all_strategies as [|a l IH]; [destruct Hs|]. cbn [map combine].
      destruct Hs as [->|Hs]; [left; reflexivity|right; exact (IH Hs)].
    + rewrite nth_error_map, Em. reflexivity.
Qed.
Lemma candidate_near i : candidate inp t i -> exists g, nth_error gs (Z.to_nat i) = Some g /\ near im (gl_img g).
Proof.
  intros (Hi & C). destruct (row_glyph i Hi) as (g & Eg & Ig & Rg). exists g. split; [exact Eg|].
  intros s x y Hs (r & Er & Vx) Vy. assert (r = im90) by congruence. subst r.
  destruct (simple_value_of z (gl_img g) s Hz Rg Hs) as (_ & U & E).
  apply (C s x y Hs).
  - unfold feature. cbn [in_zsort in_img in_img90]. rewrite (simple_any_sort s _ (fun l => l)) by exact Hs. exact Vx.
  - apply (row_cell s i g ltac:(lia) (simple_in_all s Hs) Eg). rewrite (U y Vy). symmetry. exact E.
Qed.
Lemma pz_in_all : In (mkst ProportionalityZone false) all_strategies.
Proof. unfold all_strategies, complex_strategies, exclusive_strategies. rewrite !in_app_iff. right; right; right. left. reflexivity. Qed.
Lemma apart_comparable : zones_apart gs im -> comparable inp t.
Proof.
  intros HA j a b Fa Cb. pose proof Cb as (Hj0 & c & Hc & En).
  assert (Hj : 0 <= j < rows t).
  { split; [exact Hj0|]. rewrite (st_strategies t HT) in Hc. destruct (st_rows t HT _ _ Hc) as (Lc & _).
    rewrite <- Lc. assert (Z.to_nat j < List.length c)%nat by (apply nth_error_Some; congruence). lia. }
  destruct (row_glyph j Hj) as (g & Eg & Ig & Rg). pose proof (proj1 (row_cell _ _ _ Hj0 pz_in_all Eg _) Cb) as Eb.
  destruct (rotate90_law (gl_img g) (proj1 Rg)) as (r & Er & _).
  pose proof (fval_of_feature z Hz (gl_img g) r Rg Er _ pz_in_all) as Ff. rewrite <- Eb in Ff.
  split.
  - destruct (pz_feature (mkin (fun _ => 0) z (gl_img g) r) (some_sound z Hz (gl_img g) r Rg Er)) as (_ & l & El & Hl & _).
    unfold fv in El. cbn [in_zsort in_img in_img90] in El. rewrite Ff in El. injection El as ->. exact Hl.
  - intros x y Hxy. apply (HA g a b x y Ig); [|exists z, r; split; [exact Hz|split; [exact Er|exact Ff]]|exact Hxy].
    pose proof HL as (_ & _ & _ & _ & _ & Sz). exists (rt_zones rt), im90. split; [exact Sz|]. split; [exact E90|exact Fa].
Qed.

Lemma any_candidates cx : zones_apart gs im \/ (exists g, In g gs /\ resembles im (gl_img g)) -> exists l cx',
  compute_image (rt_views rt) (rt_probs rt) simple_strategies complex_strategies exclusive_strategies t inp dhalf cx = Ok (l, cx') /\
  (forall v, In v l -> exists g vw, In g gs /\ near im (gl_img g) /\ In vw (gl_views g) /\ v = mkov (wid (vw_word vw)) (fid (vw_font vw))) /\
  ((exists g, In g gs /\ resembles im (gl_img g)) -> l <> []).
Proof.
  intros H. assert (CE : (exists g, In g gs /\ resembles im (gl_img g)) -> exists i, certain inp t i).
  { intros (g0 & Hg0 & R0). destruct (In_nth_error _ _ Hg0) as (i0 & E0).
    exists (Z.of_nat i0). exact (proj2 (certain_resembles rt HL z Hz gs wid fid t HR HT EC EV junk im im90 RI E90 _ _ E0) R0). }
  destruct (rt_sound rt HL t HT) as (_ & Sv & Sp & _). cbn [r_sortv r_sortp r_table] in *.
  destruct (compute_image_outcome inp t HI HT (rt_views rt) (rt_probs rt) Sv Sp cx) as (O & T).
  destruct T as (l & cx' & E); [destruct H as [A|A]; [left; exact (apart_comparable A)|right; exact (CE A)]|]. exists l, cx'. split; [exact E|].
  destruct (O l cx' E) as (ranked & -> & D).
  assert (K : forall p, In p ranked -> candidate inp t (pr_i p)).
  { intros p Hp. destruct D as [(_ & RK)|(_ & RK)]; destruct (rk_kept _ _ _ _ RK p Hp) as (Cp & _); apply Cp. }
  split.
  - intros v Hv. unfold labels_of in Hv. apply in_flat_map in Hv as (p & Hp & Hv). destruct (candidate_near _ (K p Hp)) as (g & Eg & Ng).
    rewrite EV in Hv. rewrite (nth_error_nth _ _ _ (map_nth_error (fun g => map (fun v => mkov (wid (vw_word v)) (fid (vw_font v))) (gl_views g)) _ _ Eg)) in Hv.
    apply in_map_iff in Hv as (vw & <- & Hvw). exists g, vw. split; [exact (nth_error_In _ _ Eg)|]. split; [exact Ng|]. split; [exact Hvw|reflexivity].
  - intros R. destruct (CE R) as (i0 & C0). destruct D as [(_ & RK)|(C & _)]; [|exfalso; exact (C _ C0)].
    destruct ranked as [|p ranked]; [exfalso; exact (rk_nonempty _ _ _ _ RK eq_refl _ C0)|].
    destruct (K p ltac:(now left)) as (Hi & _). unfold labels_of. cbn [flat_map]. intros N. apply app_eq_nil in N as [N _].
    refine (st_labels t HT _ _ N). apply nth_In. unfold rows in Hi. lia.
Qed.
End Picture.

Lemma any_recognised im : recognisable im -> zones_apart gs im \/ (exists g, In g gs /\ resembles im (gl_img g)) ->
  (exists l, recognised e im l) /\ forall l, recognised e im l ->
    (forall v, In v l -> exists g vw, In g gs /\ near im (gl_img g) /\ In vw (gl_views g) /\ v = mkov (wid (vw_word vw)) (fid (vw_font vw))) /\
    ((exists g, In g gs /\ resembles im (gl_img g)) -> l <> []).
Proof.
  intros RI HW. destruct (rotate90_law im (proj1 RI)) as (im90 & E90 & _). split.
  - destruct (any_candidates (fun _ => 0) im im90 RI E90 new_ctxs HW) as (l & cx' & E & _).
    exists l. exact (recognised_any e im _ _ _ _ _ RI (proj2 (proj2 (proj2 (rt_sound rt HL t HT)))) E90 E).
  - intros l HLl. destruct (HLl (fun _ => 0) new_ctxs) as (i90 & cx' & Ei & E).
    assert (i90 = im90) by congruence. subst i90.
    destruct (any_candidates (fun _ => 0) im im90 RI E90 new_ctxs HW) as (l' & cx2 & E' & A).
    cbn [r_sortv r_sortp r_table r_zsort] in E. rewrite E' in E. injection E as <- _. exact A.
Qed.
End Candidates.

(** * The filters *)
Lemma subsequence_incl a b : subsequence a b -> incl a b.
Proof. induction 1 as [|v a b S IH|v a b S IH]; intros x Hx; [exact Hx|destruct Hx as [<-|Hx]; [left; reflexivity|right; exact (IH x Hx)]|right; exact (IH x Hx)]. Qed.
Lemma lines_any infos st amb boxes : valid st amb -> List.length boxes = List.length amb -> small_boxes boxes -> steady_line boxes ->
  exists st', filter_by_lines infos st amb boxes = Ok st' /\ FilterProofs.below st st'.
Proof.
  intros V L Sm St. destruct boxes as [|b boxes]; [exists st; split; [reflexivity|apply below_refl]|].
  destruct St as (A & B). now apply lines_in_bounds.
Qed.
Lemma filter_line_none pred vec : (forall v, pred v = Ok false) -> exists n, filter_line pred vec = Ok (vec, n) /\ (n = 1 -> vec <> []).
Proof.
  intros Hp. destruct (filter_line_sub pred (fun _ => false) Hp vec) as (l & n & E & _ & N).
  assert (El : l = vec).
  { destruct (filter_line_cases pred (fun _ => false) Hp vec) as [[_ E']|(x1 & x2 & r1 & r2 & rest & Ev & F' & S' & _)]; [congruence|].
    rewrite (filter_line_exact pred (fun _ => false) Hp vec x1 x2 F' S' (or_intror eq_refl)) in E. injection E as <- _.
    unfold FilterSpec.coherent. clear. induction vec as [|v l IH]; [reflexivity|]. cbn [filter negb]. f_equal. exact IH. }
  subst l. exists n. split; assumption.
Qed.
Lemma baseline_none baseline mt st : forall amb boxes ys, valid st amb -> List.length boxes = List.length amb ->
  filter_baseline [] baseline mt st amb boxes ys false = Ok (st, ys, false).
Proof.
  induction amb as [|r amb IH]; intros boxes ys V L; [reflexivity|]. destruct boxes as [|b boxes]; [discriminate|].
  assert (Hr : 0 <= r < vsize st) by (apply V; left; reflexivity). cbn [filter_baseline]. rewrite list_at_rd by exact Hr. cbn [bind].
  destruct (filter_line_none (contradicts [] wl_base (box_bottom b) baseline) (list_at st r)) as (n & -> & N); [intros v; reflexivity|]. cbn [bind].
  rewrite rewrite_same by exact Hr. cbn [bind].
  assert (IH' : filter_baseline [] baseline mt st amb boxes ys false = Ok (st, ys, false)).
  { apply IH; [intros q Hq; apply V; right; exact Hq|cbn [List.length] in L; lia]. }
  destruct (Z.eqb_spec n 1) as [En|En]; [|exact IH']. destruct (list_at st r) as [|v l]; [destruct (N En eq_refl)|]. exact IH'.
Qed.
Lemma lines_none st amb boxes st' : valid st amb -> List.length boxes = List.length amb -> filter_by_lines [] st amb boxes = Ok st' -> st' = st.
Proof.
  intros V L. destruct boxes as [|b boxes]; [cbn; congruence|]. unfold filter_by_lines. destruct (min_max_box b boxes) as [[[mt xt] mb] xb].
  cbv zeta. destruct (count_bottoms _ _ _) as [ys| | |]; try discriminate. cbn [bind]. rewrite baseline_none by assumption. cbn [bind]. congruence.
Qed.
Lemma chosen_incl f l l' : chosen f l l' -> incl l' l /\ (l <> [] -> l' <> []).
Proof.
  destruct l as [|a [|b l]]; cbn; [intros ->; split; [apply incl_refl|auto]|intros ->; split; [apply incl_refl|auto]|].
  intros (x & -> & Hx & _). split; [intros y [<-|[]]; exact Hx|discriminate].
Qed.
Lemma fonts_any st amb : valid st amb -> vsize amb < 4294967296 -> exists st' f, filter_by_font st amb = Ok (st', f) /\ vsize st' = vsize st /\
  forall r, In r amb -> incl (list_at st' r) (list_at st r) /\ (list_at st r <> [] -> list_at st' r <> []).
Proof.
  intros V B. destruct (filter_by_font_ok st amb V B) as (st' & f & E & S & C). exists st', f. split; [exact E|]. split; [exact S|]. intros r Hr.
  destruct C as [(_ & _ & ->)|(_ & [(_ & C)|(_ & ->)])]; try (split; [apply incl_refl|auto]).
  destruct (C r) as [C1 _]; [apply V in Hr; lia|]. exact (chosen_incl f _ _ (C1 Hr)).
Qed.

(** * The line *)
Lemma other_words_in w l : forall p, In w (other_words p l) -> exists v, In v l /\ ov_word v = w.
Proof.
  induction l as [|v l IH]; intros p H; [destruct H|]. cbn [other_words] in H. destruct (ov_word v =? p).
  - destruct (IH _ H) as (u & Hu & E). exists u. split; [right; exact Hu|exact E].
  - destruct H as [H|H]; [exists v; split; [left; reflexivity|exact H]|]. destruct (IH _ H) as (u & Hu & E). exists u. split; [right; exact Hu|exact E].
Qed.
Lemma group_words_in w l : In w (group_words l) -> exists v, In v l /\ ov_word v = w.
Proof.
  destruct l as [|v l]; [intros []|]. cbn [group_words]. intros [H|H]; [exists v; split; [left; reflexivity|exact H]|].
  destruct (other_words_in _ _ _ H) as (u & Hu & E). exists u. split; [right; exact Hu|exact E].
Qed.
Lemma character_in g w l : In w (character_of g l) -> exists v, In v l /\ text_of_word g (ov_word v) = w.
Proof. unfold character_of. rewrite <- group_distinct. intros H. apply in_map_iff in H as (n & <- & Hn). destruct (group_words_in _ _ Hn) as (v & Hv & <-). eauto. Qed.
Lemma character_none g l : character_of g l = [] -> l = [].
Proof. unfold character_of. rewrite <- group_distinct. destruct l as [|v l]; [reflexivity|discriminate]. Qed.

Lemma line_marked_from g st all : forall amb boxes x n, List.length boxes = List.length amb ->
  (forall i, n <= i -> existsb (Z.eqb i) all = existsb (Z.eqb i) (breaks x n boxes)) ->
  map (fun '(i, r) => (existsb (Z.eqb i) all, character_of g (list_at st r))) (combine (upto (List.length amb) n) amb) =
  marked x boxes (map (fun r => character_of g (list_at st r)) amb).
Proof.
  induction amb as [|r amb IH]; intros boxes x n L H.
  - destruct boxes; [reflexivity|discriminate].
  - destruct boxes as [|b boxes]; [discriminate|]. cbn [List.length upto combine map marked]. f_equal.
    + f_equal. rewrite H by lia. cbn [breaks]. rewrite existsb_app.
      assert (K : existsb (Z.eqb n) (breaks (bx b + bw b) (n + 1) boxes) = false).
      { apply not_true_is_false. rewrite existsb_exists. intros (i & Hi & E). apply Z.eqb_eq in E. subst i. apply breaks_bounds in Hi. lia. }
      rewrite K, orb_false_r. destruct (x + 4 <? bx b); cbn [existsb]; [rewrite Z.eqb_refl|]; reflexivity.
    + apply IH; [cbn [List.length] in L; lia|]. intros i Hi. rewrite H by lia. cbn [breaks]. rewrite existsb_app.
      assert (K : existsb (Z.eqb i) (if x + 4 <? bx b then [n] else []) = false).
      { destruct (x + 4 <? bx b); [|reflexivity]. cbn [existsb]. rewrite orb_false_r. apply Z.eqb_neq. lia. }
      rewrite K. reflexivity.
Qed.
Lemma line_marked g st amb boxes : List.length boxes = List.length amb ->
  line_of g st amb (breaks 0 0 boxes) = marked 0 boxes (map (fun r => character_of g (list_at st r)) amb).
Proof. intros L. unfold line_of, vsize. rewrite zrange_upto. apply line_marked_from; [exact L|]. intros i _. reflexivity. Qed.
Lemma marked_snd boxes : forall x cs p, In p (marked x boxes cs) -> In (snd p) cs.
Proof.
  induction boxes as [|b boxes IH]; intros x [|c cs] p H; try destruct H; [subst p; left; reflexivity|]. right. exact (IH _ _ _ H).
Qed.

(** * The whole program *)
Lemma spell_file ws dict spell : dict_spell ws dict spell -> dict_file ws dict.
Proof. intros [(-> & _)|(sort & words & nodes & -> & H1 & H2 & H3 & H4 & H5 & H6 & _)]; [left; reflexivity|right; exists sort, words, nodes; auto 10]. Qed.
Lemma load_all_dict rt glyphs datas lines dict nodes g infos t : load_all rt glyphs datas lines dict = Ok (nodes, g, infos, t) ->
  load_optional read_dict [] dict = Ok nodes /\ (legal rt -> lines = None -> infos = []).
Proof.
  unfold load_all. intros H. destruct (load_optional read_dict [] dict) as [n0| | |]; try discriminate H. cbn [bind] in H.
  destruct (load_file (read_datas all_strategies) datas) as [cols| | |]; try discriminate H. cbn [bind] in H.
  destruct (load_file load_glyphs glyphs) as [g0| | |]; try discriminate H. cbn [bind] in H.
  destruct (negb _); [discriminate H|].
  destruct (load_optional read_words_lines [] lines) as [ls| | |] eqn:El; try discriminate H. cbn [bind] in H.
  destruct (words_infos (rt_lines rt) g0 ls) as [i0| | |] eqn:Ei; try discriminate H. cbn [bind] in H.
  destruct (make_table rt cols (gt_views g0)) as [t0| | |]; try discriminate H. cbn [bind] in H. injection H as -> _ <- _. split; [reflexivity|].
  intros HL ->. cbn in El. injection El as <-. cbn in Ei. injection Ei as <-. destruct HL as (_ & _ & L3 & _).
  assert (W : strict_weak wi_lt []) by (split; [|split]; intros; contradiction). pose proof (proj1 (L3 [] W)) as P. apply Permutation.Permutation_nil in P. exact P.
Qed.

Lemma assemble_named g nodes st amb boxes ws dict spell : resolvable g st amb -> List.length boxes = List.length amb -> vsize amb < 4294967296 ->
  load_optional read_dict [] dict = Ok nodes -> dict_spell ws dict spell -> (forall r w, In r amb -> In w (character_of g (list_at st r)) -> In w ws) ->
  let line := marked 0 boxes (map (fun r => character_of g (list_at st r)) amb) in
  assemble g nodes st amb (breaks 0 0 boxes ++ [vsize amb]) = Ok (text_of_line spell line, unknown_of_line line).
Proof.
  intros Res Ln Ba En Hd HW. cbv zeta.
  assert (I : increasing_breaks (vsize amb) (breaks 0 0 boxes)) by (apply breaks_increasing; unfold vsize; lia).
  unfold text_of_line, unknown_of_line. rewrite <- (line_marked g st amb boxes Ln). apply assemble_exact; [exact Res|exact I|exact Ba|].
  destruct Hd as [(-> & ->)|(sort & words & nodes' & -> & D1 & D2 & D3 & D4 & D5 & D6 & ->)].
  - cbn in En. injection En as <-. intros ps out N _. destruct ps; [congruence|reflexivity].
  - assert (nodes' = nodes).
    { cbn [load_optional] in En. pose proof (dict_file_round_trip nodes' (dictionary_storable sort words nodes' D1 D2 D3 D4 D5)) as Rt. congruence. }
    subst nodes'. intros ps out N P. destruct (SpellProofs.disambiguous_first_single sort words ps out D1 D2 D3 D4) as (n' & X1 & X2); [|congruence].
    apply Forall_forall. intros p Hp. specialize (P p Hp). apply in_map_iff in P as (q & <- & Hq). rewrite line_marked in Hq by exact Ln.
    apply marked_snd in Hq. apply in_map_iff in Hq as (r & <- & Hr). apply Forall_forall. intros w Hw.
    rewrite Forall_forall in D6. exact (D6 w (HW r w Hr Hw)).
Qed.

Lemma read_any rt gs junk z cx0 datas cx bytes img boxes lines dict spell : legal rt -> trainable gs -> is_std_sort Z.ltb z ->
  write_datas_file junk z cx0 (write_glyphs gs) = Ok (Some datas) -> image_of_bytes bytes 128 = Ok img -> box_searchable img -> segment img = Ok boxes ->
  Forall (readable_box gs img) boxes -> steady_line boxes -> lines_file (labels gs) lines -> dict_spell (labels gs) dict spell ->
  exists cs, Forall2 (fun b c => forall im, char_image img b im -> named gs im c /\ (lines = None -> not_missed gs im c)) boxes cs /\
    let line := marked 0 boxes cs in
    extract_text rt cx (write_glyphs gs) datas bytes lines dict = Ok (text_of_line spell line, unknown_of_line line, vsize boxes).
Proof.
  intros HL HT Hz ED EI Hs Eb F St Hl Hd.
  destruct (load_all_ok rt HL gs HT junk z Hz cx0 datas ED (labels gs) lines dict Hl (spell_file _ _ _ Hd)) as (nodes & g & infos & t & wid & fid & EL & LD & TS & TC & TG & TW).
  destruct (load_all_dict _ _ _ _ _ _ _ _ _ EL) as (En & EI0).
  destruct (trainable_images gs HT) as (_ & _ & HR).
  set (e := mkrec t (rt_views rt) (rt_probs rt) (rt_zones rt) (rt_junk rt)).
  pose proof (any_recognised rt HL z Hz gs wid fid t HR TS TC TG) as Rec. fold e in Rec.
  assert (HE : sound_recogniser e) by exact (rt_sound rt HL t TS).
  assert (HRb : Forall (fun b => forall im, char_image img b im -> recognisable im) boxes).
  { eapply Forall_impl; [|exact F]. intros b H im Him. apply (H im Him). }
  assert (HCr : Forall (can_read e img) boxes).
  { eapply Forall_impl; [|exact F]. intros b H im Him. destruct (H im Him) as (R & T). split; [exact R|]. exact (proj1 (Rec im R T)). }
  destruct (read_line_ok e img HE Hs boxes cx Eb HRb) as (RL1 & RL2). destruct (RL1 HCr) as (s & Es). destruct (RL2 s Es) as (Bx & Sp & Hli).
  destruct (boxes_small img boxes Hs Eb) as (SmB & Bn).
  pose proof (Forall2_length' _ _ _ Hli) as Ln.
  assert (V : valid (l_store s) (l_amb s)).
  { clear - Hli. intros r Hr. induction Hli as [|b a boxes amb (H & _) Hli IH]; [destruct Hr|]. destruct Hr as [<-|Hr]; [exact H|exact (IH Hr)]. }
  destruct (lines_any infos (l_store s) (l_amb s) boxes V Ln SmB St) as (st1 & E1 & B1).
  assert (V1 : valid st1 (l_amb s)) by (intros r Hr; destruct B1 as [-> _]; exact (V r Hr)).
  assert (Ba : vsize (l_amb s) < 4294967296) by (unfold vsize in *; lia).
  destruct (fonts_any st1 (l_amb s) V1 Ba) as (st2 & f & E2 & S2 & C2).
  set (cs := map (fun r => character_of g (list_at st2 r)) (l_amb s)).
  (* each candidate comes from the recognition *)
  assert (In2 : forall r v, In r (l_amb s) -> In v (list_at st2 r) -> In v (list_at (l_store s) r)).
  { intros r v Hr Hv. apply (proj1 (C2 r Hr)) in Hv. destruct B1 as [_ B1]. apply (subsequence_incl _ _ (B1 r ltac:(apply V in Hr; lia))). exact Hv. }
  assert (Views : forall b r, In (b, r) (combine boxes (l_amb s)) -> In r (l_amb s) /\ exists im, char_image img b im /\
            (forall v, In v (list_at (l_store s) r) -> exists g vw, In g gs /\ near im (gl_img g) /\ In vw (gl_views g) /\ v = mkov (wid (vw_word vw)) (fid (vw_font vw))) /\
            ((exists g, In g gs /\ resembles im (gl_img g)) -> list_at (l_store s) r <> [])).
  { intros b r Hbr. split; [exact (in_combine_r _ _ _ _ Hbr)|].
    assert (HL' : has_list e img (l_store s) b r). { clear - Hli Hbr. induction Hli as [|b' a boxes amb H Hli IH]; [destruct Hbr|]. destruct Hbr as [Ee|Hbr]; [injection Ee as <- <-; exact H|exact (IH Hbr)]. }
    destruct HL' as (_ & im & Him & Rl). exists im. split; [exact Him|].
    rewrite Forall_forall in F. destruct (F b (in_combine_l _ _ _ _ Hbr) im Him) as (Ri & Hy). exact (proj2 (Rec im Ri Hy) _ Rl). }
  assert (Tx : forall g0 vw, In g0 gs -> In vw (gl_views g0) -> word_text g (wid (vw_word vw)) = Ok (vw_word vw)) by (intros g0 vw Hg Hv; apply TW; exact (label_in gs g0 vw Hg Hv)).
  assert (Res : resolvable g st2 (l_amb s)).
  { intros r Hr. split; [rewrite S2; exact (V1 r Hr)|]. intros v Hv. pose proof (In2 r v Hr Hv) as Hv0.
    assert (Hb : exists b, In (b, r) (combine boxes (l_amb s))).
    { clear - Ln Hr. revert boxes Ln. induction (l_amb s) as [|a amb IH]; intros boxes Ln; [destruct Hr|]. destruct boxes as [|b boxes]; [discriminate|].
      destruct Hr as [->|Hr]; [exists b; left; reflexivity|]. destruct (IH Hr boxes ltac:(cbn in Ln; lia)) as (b' & Hb'). exists b'. right. exact Hb'. }
    destruct Hb as (b & Hb). destruct (Views b r Hb) as (_ & im & _ & Vw & _). destruct (Vw v Hv0) as (g0 & vw & Ig & _ & Iv & ->). exists (vw_word vw). exact (Tx g0 vw Ig Iv). }
  assert (NM : forall b r im, In (b, r) (combine boxes (l_amb s)) -> char_image img b im -> named gs im (character_of g (list_at st2 r)) /\ (lines = None -> not_missed gs im (character_of g (list_at st2 r)))).
  { intros b r im Hb Him. destruct (Views b r Hb) as (Hr & im' & Him' & Vw & Ne).
    assert (im' = im) by exact (char_image_unique img b im' im Him' Him). subst im'. split.
    - intros w Hw. destruct (character_in g w _ Hw) as (v & Hv & Ev). destruct (Vw v (In2 r v Hr Hv)) as (g0 & vw & Ig & Ng & Iv & ->).
      exists g0, vw. split; [exact Ig|]. split; [exact Ng|]. split; [exact Iv|]. cbn [ov_word] in Ev. unfold text_of_word in Ev. rewrite (Tx g0 vw Ig Iv) in Ev. exact Ev.
    - intros En0 Rs Hc. apply character_none in Hc. pose proof (EI0 HL En0) as ->. rewrite (lines_none _ _ _ _ V Ln E1) in C2.
      exact (proj2 (C2 r Hr) (Ne Rs) Hc). }
  exists cs. split.
  - unfold cs. clear - NM Ln. revert boxes Ln NM. induction (l_amb s) as [|r amb IH]; intros boxes Ln NM; destruct boxes as [|b boxes]; try discriminate; constructor.
    + intros im Him. exact (NM b r im (or_introl eq_refl) Him).
    + apply IH; [cbn in Ln; lia|]. intros b' r' im Hb. apply NM. right. exact Hb.
  - cbv zeta. unfold extract_text. rewrite EL. cbn [bind]. rewrite EI. cbn [bind]. fold e. rewrite Es. cbn [bind]. rewrite Bx, Sp, E1. cbn [bind]. rewrite E2. cbn [bind].
    rewrite u32_small by (unfold vsize in *; lia).
    pose proof (assemble_named g nodes st2 (l_amb s) boxes (labels gs) dict spell Res Ln Ba En Hd) as Ea. cbv zeta in Ea. rewrite Ea.
    + cbn [bind]. unfold vsize. rewrite Ln. reflexivity.
    + intros r w Hr Hw.
      assert (Hb : exists b, In (b, r) (combine boxes (l_amb s))).
      { clear - Ln Hr. revert boxes Ln. induction (l_amb s) as [|a amb IH]; intros boxes Ln; [destruct Hr|]. destruct boxes as [|b boxes]; [discriminate|].
        destruct Hr as [->|Hr]; [exists b; left; reflexivity|]. destruct (IH Hr boxes ltac:(cbn in Ln; lia)) as (b' & Hb'). exists b'. right. exact Hb'. }
      destruct Hb as (b & Hb). destruct (Views b r Hb) as (_ & im & Him & _). destruct (proj1 (NM b r im Hb Him) w Hw) as (g0 & vw & Ig & _ & Iv & <-). exact (label_in gs g0 vw Ig Iv).
Qed.

(** * Features of other glyphs *)
Lemma load_other rt gs gs' junk z cx0 datas ws lines dict : legal rt -> trainable gs -> trainable gs' -> is_std_sort Z.ltb z ->
  write_datas_file junk z cx0 (write_glyphs gs') = Ok (Some datas) -> dict_file ws dict -> List.length gs <> List.length gs' ->
  load_all rt (write_glyphs gs) datas lines dict = Throw ExBadLength.
Proof.
  intros HL HT HT' Hz ED Hd Ne. destruct (load_dict ws dict Hd) as (nodes & En & _). destruct (trainable_images gs' HT') as (HS & HR & HR').
  pose proof HT' as (_ & N & _). unfold vsize in N.
  destruct (write_datas_table z Hz junk cx0 gs' HS HR ltac:(lia)) as (E1 & E2). rewrite ED in E1. injection E1 as ->.
  pose proof HT as (_ & _ & _ & _ & _ & Gr).
  destruct (words_resolve (map fglyph_of gs) (trainable_file gs HT)) as (g & s & wid & fid & Eg & Es & Ho).
  { intros w. rewrite words_labels. apply Gr. }
  assert (Eg' : load_glyphs (open_stream (write_glyphs gs)) = Ok (g, s)) by (rewrite written_text; exact Eg).
  unfold load_all. rewrite En. cbn [bind]. rewrite E2. cbn [bind]. unfold load_file at 1. rewrite Eg'. cbn [bind]. rewrite Es. cbn [bind].
  destruct (Z.eqb_spec (vsize (gt_views g)) (datas_size (feature_table z (map gl_img gs')))) as [E|E]; [|reflexivity]. exfalso. apply Ne.
  rewrite (holds_views gs g wid fid Ho) in E. unfold vsize, table_views, feature_table in E.
  assert (A : exists a l, all_strategies = a :: l) by (eexists; eexists; reflexivity). destruct A as (a & l & Ea). rewrite Ea in E. cbn [map datas_size] in E.
  rewrite !map_length in E. lia.
Qed.

(** The program uses the labels of the glyphs only. *)
Lemma load_same_labels rt gs gs' datas lines dict : trainable gs -> trainable gs' -> map gl_views gs = map gl_views gs' ->
  load_all rt (write_glyphs gs) datas lines dict = load_all rt (write_glyphs gs') datas lines dict.
Proof.
  intros HT HT' E. pose proof (trainable_file gs HT) as (G & _). pose proof (trainable_file gs' HT') as (G' & _).
  unfold load_all. assert (EL : load_glyphs (open_stream (write_glyphs gs)) = load_glyphs (open_stream (write_glyphs gs'))).
  { rewrite !written_text. apply load_labels; [exact G|exact G'| |].
    - intros f Hf. apply in_map_iff in Hf. destruct Hf as (g & <- & Hg). destruct HT as (A & _). destruct (A g Hg) as ((_ & B & _) & _).
      unfold fglyph_of. cbn [fg_labels]. unfold vsize. rewrite map_length. exact B.
    - rewrite !map_map. unfold fglyph_of. cbn [fg_labels]. rewrite <- (map_map gl_views (map label_of)), <- (map_map gl_views (map label_of) gs'), E. reflexivity. }
  destruct (load_optional read_dict [] dict); [|reflexivity..]. cbn [bind].
  destruct (load_file (read_datas all_strategies) datas); [|reflexivity..]. cbn [bind].
  unfold load_file. rewrite EL. reflexivity.
Qed.
Lemma relabelled_views gs gs' : List.length gs = List.length gs' -> map gl_views (relabelled gs gs') = map gl_views gs.
Proof.
  unfold relabelled. revert gs'. induction gs as [|g gs IH]; intros [|g' gs'] E; try discriminate; [reflexivity|]. cbn [combine map]. f_equal.
  apply IH. injection E as E. exact E.
Qed.
Lemma relabelled_images gs gs' : List.length gs = List.length gs' -> map gl_img (relabelled gs gs') = map gl_img gs'.
Proof.
  unfold relabelled. revert gs'. induction gs as [|g gs IH]; intros [|g' gs'] E; try discriminate; [reflexivity|]. cbn [combine map]. f_equal.
  apply IH. injection E as E. exact E.
Qed.
Lemma relabelled_trainable gs gs' : trainable gs -> trainable gs' -> List.length gs = List.length gs' -> trainable (relabelled gs gs').
Proof.
  intros (A & N & B) (A' & _ & _) E. split; [|split].
  - intros g Hg. unfold relabelled in Hg. apply in_map_iff in Hg. destruct Hg as ((a & b) & <- & Hab).
    destruct (A a (in_combine_l _ _ _ _ Hab)) as ((_ & S1 & S2) & _ & V & _). destruct (A' b (in_combine_r _ _ _ _ Hab)) as ((W & _) & R & _ & X).
    refine (conj (conj W (conj S1 S2)) (conj R (conj V X))).
  - unfold relabelled, vsize in *. rewrite map_length, combine_length, <- E, Nat.min_id. exact N.
  - replace (labels (relabelled gs gs')) with (labels gs); [exact B|]. unfold labels. rewrite !flat_map_concat_map.
    rewrite <- (map_map gl_views (map vw_word)), <- (map_map gl_views (map vw_word) (relabelled gs gs')), relabelled_views by exact E. reflexivity.
Qed.
Lemma read_other gs gs' junk z cx0 datas : trainable gs -> trainable gs' -> is_std_sort Z.ltb z ->
  write_datas_file junk z cx0 (write_glyphs gs') = Ok (Some datas) -> List.length gs = List.length gs' ->
  trainable (relabelled gs gs') /\ write_datas_file junk z cx0 (write_glyphs (relabelled gs gs')) = Ok (Some datas) /\
  forall rt cx image lines dict,
    extract_text rt cx (write_glyphs gs) datas image lines dict = extract_text rt cx (write_glyphs (relabelled gs gs')) datas image lines dict.
Proof.
  intros HT HT' Hz ED E. pose proof (relabelled_trainable gs gs' HT HT' E) as HM. split; [exact HM|]. split.
  - destruct (trainable_images gs' HT') as (HS & HR & _). destruct (trainable_images _ HM) as (HS2 & HR2 & _).
    pose proof HT' as (_ & N & _). pose proof HM as (_ & N2 & _). unfold vsize in N, N2.
    destruct (write_datas_table z Hz junk cx0 gs' HS HR ltac:(lia)) as (E1 & _). destruct (write_datas_table z Hz junk cx0 _ HS2 HR2 ltac:(lia)) as (-> & _).
    rewrite relabelled_images by exact E. rewrite <- ED. symmetry. exact E1.
  - intros rt cx image lines dict. unfold extract_text.
    rewrite (load_same_labels rt gs (relabelled gs gs') datas lines dict HT HM) by (symmetry; apply relabelled_views; exact E). reflexivity.
Qed.
