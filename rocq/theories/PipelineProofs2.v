(** The table that is loaded, and the candidates of a picture. *)
From Verif Require Import Base BaseProofs SortModel SortProofs ImageModel ImageSpec ImageProofs StratModel ZoneModel DatasModel DatasSpec DatasProofs
  StreamModel GlyphIoModel GlyphIoSpec DatasIoModel DatasIoSpec DatasIoProofs TrieModel TrieProofs
  IndexModel IndexSpec IndexProofs FloatModel FloatSpec FloatProofs RecogModel RecogSpec RankProofs RecogProofs RecogProofs2 RecogWitness
  GlyphsModel GlyphsSpec GlyphsProofs3 FilterModel FilterSpec ExtractModel ExtractSpec ExtractProofs LearnModel LearnSpec LearnProofs3 FlatTrieProofs PipelineModel PipelineSpec PipelineProofs.

(** * The simple features *)
Lemma simple_any_sort s z z' img img90 : In s simple_strategies -> feature_alone z s img img90 = feature_alone z' s img img90.
Proof. intros Hs. cbn in Hs. repeat (destruct Hs as [<-|Hs]; [reflexivity|]). destruct Hs. Qed.
Lemma simple_value_of z img s : is_std_sort Z.ltb z -> recognisable img -> In s simple_strategies ->
  simple_value img s (num (fval_of z img s)) /\ (forall v, simple_value img s v -> v = num (fval_of z img s)) /\ fval_of z img s = VNum (num (fval_of z img s)).
Proof.
  intros Hz HR Hs. destruct (rotate90_law img (proj1 HR)) as (r & Er & _).
  pose proof (fval_of_feature z Hz img r HR Er s (simple_in_all s Hs)) as F.
  destruct (simple_feature (mkin (fun _ => 0) z img r) (some_sound z Hz img r HR Er) s Hs) as (_ & E & _).
  assert (Ef : fv (mkin (fun _ => 0) z img r) s = fval_of z img s). { unfold fv. cbn [in_zsort in_img in_img90]. rewrite F. reflexivity. }
  rewrite Ef in E. split; [|split; [|exact E]].
  - exists r. split; [exact Er|]. rewrite (simple_any_sort s _ z) by exact Hs. rewrite F, <- E. reflexivity.
  - intros v (r' & Er' & V). assert (r' = r) by congruence. subst r'. rewrite (simple_any_sort s _ z) in V by exact Hs.
    rewrite F in V. injection V as V. rewrite V. reflexivity.
Qed.
Lemma resembles_iff z a b : is_std_sort Z.ltb z -> recognisable a -> recognisable b ->
  (resembles a b <-> forall s, In s simple_strategies -> 100 * Z.abs (num (fval_of z a s) - num (fval_of z b s)) < range s).
Proof.
  intros Hz Ha Hb. split.
  - intros H s Hs. destruct (simple_value_of z a s Hz Ha Hs) as (Va & _). destruct (simple_value_of z b s Hz Hb Hs) as (Vb & _). exact (H s _ _ Hs Va Vb).
  - intros H s x y Hs Vx Vy. destruct (simple_value_of z a s Hz Ha Hs) as (_ & Ua & _). destruct (simple_value_of z b s Hz Hb Hs) as (_ & Ub & _).
    rewrite (Ua x Vx), (Ub y Vy). exact (H s Hs).
Qed.

(** * The table *)
Section Table.
Context (rt : runtime) (HL : legal rt) (z : list Z -> list Z) (Hz : is_std_sort Z.ltb z) (imgs : list image) (views : list (list oview)).
Hypothesis (HR : Forall recognisable imgs).
Hypothesis (HV : List.length views = List.length imgs).
Hypothesis (HN : forall g, In g views -> g <> []).
Hypothesis (HS : Z.of_nat (List.length views) < 4294967296).

Lemma in_feature_table s c : In (s, c) (combine all_strategies (feature_table z imgs)) -> In s all_strategies /\ c = map (fun img => fval_of z img s) imgs.
Proof.
  unfold feature_table. induction all_strategies as [|a l IH]; [intros []|]. cbn [map combine].
  intros [E|H]; [injection E as -> <-; split; [left; reflexivity|reflexivity]|destruct (IH H) as [? ?]; split; [right; assumption|assumption]].
Qed.
Lemma make_table_sound : exists t, make_table rt (feature_table z imgs) views = Ok t /\ sound_table t /\ t_glyphs t = views /\ t_cols t = feature_table z imgs.
Proof.
  destruct HL as (L1 & L2 & _). destruct (by_words_exact views HS HN) as (bw & E & _). unfold make_table. rewrite E. cbn [bind].
  eexists. split; [reflexivity|]. split; [|split; reflexivity]. constructor; cbn [t_strategies t_cols t_first t_by_words t_glyphs t_ids]; try reflexivity; try assumption.
  - intros s c Hc. apply in_feature_table in Hc as [Hs ->]. unfold rows. cbn [t_glyphs]. split; [rewrite map_length; lia|].
    intros v Hv. apply in_map_iff in Hv as (img & <- & Hin). rewrite Forall_forall in HR. pose proof (HR img Hin) as R.
    destruct (rotate90_law img (proj1 R)) as (r & Er & _). exact (proj2 (fval_of_fits z Hz img r R Er s Hs)).
  - eexists. split; [apply L1|reflexivity].
  - eexists. split; [apply L2|reflexivity].
Qed.
End Table.
Lemma table_cell z imgs t s i img : sound_table t -> t_cols t = feature_table z imgs -> In s all_strategies -> nth_error imgs i = Some img -> cv t s (Z.of_nat i) = fval_of z img s.
Proof.
  intros HT EC Hs Hi. apply (cell_cv t HT). split; [lia|]. exists (map (fun img => fval_of z img s) imgs). split.
  - rewrite (st_strategies t HT), EC. unfold feature_table. clear - Hs. induction all_strategies as [|a l IH]; [destruct Hs|]. cbn [map combine].
    destruct Hs as [->|Hs]; [left; reflexivity|right; exact (IH Hs)].
  - rewrite Nat2Z.id, nth_error_map, Hi. reflexivity.
Qed.

(** * The candidates of a picture *)
Section Candidates.
Context (rt : runtime) (HL : legal rt) (z : list Z -> list Z) (Hz : is_std_sort Z.ltb z) (gs : list glyph) (wid fid : list Z -> Z) (t : table).
Hypothesis (HR : Forall recognisable (map gl_img gs)).
Hypothesis (HT : sound_table t).
Hypothesis (EC : t_cols t = feature_table z (map gl_img gs)).
Hypothesis (EV : t_glyphs t = map (fun g => map (fun v => mkov (wid (vw_word v)) (fid (vw_font v))) (gl_views g)) gs).
Notation e := (mkrec t (rt_views rt) (rt_probs rt) (rt_zones rt) (rt_junk rt)).

Lemma rt_sound : sound_recogniser e.
Proof. destruct HL as (_ & _ & _ & A & B & C). split; [exact HT|]. split; [apply A|]. split; [exact B|exact C]. Qed.

Section Picture.
Context (junk : Z -> Z) (im im90 : image) (RI : recognisable im) (E90 : rotate90 im = Ok im90).
Notation inp := (mkin junk (rt_zones rt) im im90).
Lemma inp_sound : sound_input inp.
Proof. destruct HL as (_ & _ & _ & _ & _ & C). split; [exact RI|]. split; [exact E90|exact C]. Qed.
Lemma rows_gs : rows t = Z.of_nat (List.length gs).
Proof. unfold rows. rewrite EV, map_length. reflexivity. Qed.
Lemma certain_resembles i g : nth_error gs i = Some g -> (certain inp t (Z.of_nat i) <-> resembles im (gl_img g)).
Proof.
  intros Hi. assert (Hr : 0 <= Z.of_nat i < rows t) by (rewrite rows_gs; assert (i < List.length gs)%nat by (apply nth_error_Some; congruence); lia).
  assert (Hz' : is_std_sort Z.ltb (rt_zones rt)) by (destruct HL as (_ & _ & _ & _ & _ & C); exact C).
  assert (Rg : recognisable (gl_img g)) by (rewrite Forall_forall in HR; apply HR, in_map, nth_error_In with i; exact Hi).
  rewrite (certain_iff inp t inp_sound HT _ Hr), (resembles_iff z im (gl_img g) Hz RI Rg). unfold hundredth.
  assert (Ei : nth_error (map gl_img gs) i = Some (gl_img g)) by (rewrite nth_error_map, Hi; reflexivity).
  assert (Ef : forall s, In s simple_strategies -> fv inp s = fval_of z im s).
  { intros s Hs. unfold fv, fval_of. cbn [in_zsort in_img in_img90]. rewrite E90, (simple_any_sort s _ z) by exact Hs. reflexivity. }
  split; intros H s Hs; specialize (H s Hs).
  - rewrite Ef, (table_cell z (map gl_img gs) t s i _ HT EC (simple_in_all s Hs) Ei) in H by exact Hs. exact H.
  - rewrite Ef, (table_cell z (map gl_img gs) t s i _ HT EC (simple_in_all s Hs) Ei) by exact Hs. exact H.
Qed.
Lemma certain_row i : certain inp t i -> exists g, nth_error gs (Z.to_nat i) = Some g /\ resembles im (gl_img g).
Proof.
  intros C. pose proof C as ((Hi & _) & _). rewrite rows_gs in Hi. destruct (nth_error gs (Z.to_nat i)) as [g|] eqn:E.
  - exists g. split; [reflexivity|]. apply (certain_resembles _ _ E). rewrite Z2Nat.id by lia. exact C.
  - apply nth_error_None in E. lia.
Qed.
Lemma taught_candidates w cx : taught gs im w -> exists l cx',
  compute_image (rt_views rt) (rt_probs rt) simple_strategies complex_strategies exclusive_strategies t inp dhalf cx = Ok (l, cx') /\
  l <> [] /\ (forall v, In v l -> ov_word v = wid w).
Proof.
  intros ((g0 & Hg0 & R0) & U). destruct (In_nth_error _ _ Hg0) as (i0 & E0). pose proof (proj2 (certain_resembles _ _ E0) R0) as C0.
  destruct (rt_sound) as (_ & Sv & Sp & _). cbn [r_sortv r_sortp r_table] in *.
  destruct (compute_image_outcome inp t inp_sound HT (rt_views rt) (rt_probs rt) Sv Sp cx) as (O & T).
  destruct T as (l & cx' & E); [right; eexists; exact C0|]. exists l, cx'. split; [exact E|].
  destruct (O l cx' E) as (ranked & -> & [(_ & RK)|(C & _)]); [|exfalso; exact (C _ C0)]. split.
  - destruct ranked as [|p ranked]; [exfalso; exact (rk_nonempty _ _ _ _ RK eq_refl _ C0)|].
    destruct (rk_kept _ _ _ _ RK p ltac:(now left)) as (Cp & _). unfold labels_of. cbn [flat_map]. intros N. apply app_eq_nil in N as [N _].
    refine (st_labels t HT _ _ N). apply nth_In. destruct Cp as ((Hi & _) & _). unfold rows in Hi. lia.
  - intros v Hv. unfold labels_of in Hv. apply in_flat_map in Hv as (p & Hp & Hv). destruct (rk_kept _ _ _ _ RK p Hp) as (Cp & _).
    destruct (certain_row _ Cp) as (g & Eg & Rg). rewrite EV in Hv.
    rewrite (nth_error_nth _ _ _ (map_nth_error (fun g => map (fun v => mkov (wid (vw_word v)) (fid (vw_font v))) (gl_views g)) _ _ Eg)) in Hv.
    apply in_map_iff in Hv as (vw & <- & Hvw). cbn [ov_word]. f_equal. exact (U g vw (nth_error_In _ _ Eg) Rg Hvw).
Qed.
End Picture.

Lemma taught_recognised im w : recognisable im -> taught gs im w ->
  (exists l, recognised e im l) /\ forall l, recognised e im l -> l <> [] /\ forall v, In v l -> ov_word v = wid w.
Proof.
  intros RI HW. destruct (rotate90_law im (proj1 RI)) as (im90 & E90 & _). split.
  - destruct (taught_candidates (fun _ => 0) im im90 RI E90 w new_ctxs HW) as (l & cx' & E & _).
    exists l. exact (recognised_any e im _ _ _ _ _ RI (proj2 (proj2 (proj2 rt_sound))) E90 E).
  - intros l HLl. destruct (HLl (fun _ => 0) new_ctxs) as (i90 & cx' & Ei & E).
    assert (i90 = im90) by congruence. subst i90.
    destruct (taught_candidates (fun _ => 0) im im90 RI E90 w new_ctxs HW) as (l' & cx2 & E' & A).
    cbn [r_sortv r_sortp r_table r_zsort] in E. rewrite E' in E. injection E as <- _. exact A.
Qed.
End Candidates.
