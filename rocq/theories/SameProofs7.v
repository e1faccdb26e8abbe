(** What extract_text8 prints does not depend on what the standard leaves open. *)
From Verif Require Import Base BaseProofs SortModel ImageModel ImageSpec ImageProofs PnmModel BoxModel BoxSpec BoxProofs StratModel StratSpec ZoneModel DatasModel DatasSpec DatasProofs StreamModel GlyphIoModel GlyphIoSpec GlyphIoProofs DatasIoModel DictIoModel
  TrieModel UtilModel IndexModel FloatModel FloatSpec FloatProofs
  FormatModel RecogModel RecogSpec RecogProofs ExtractModel ExtractSpec ExtractProofs LearnModel PipelineModel PipelineSpec LearnProofs3 PipelineProofs2 ReadSpec ReadProofs Ocr6Model Ocr6Spec Ocr6Proofs Ocr6Proofs2 OcrProofs Ocr6Proofs3 Ocr6Proofs4 Ocr6Proofs5
  Ocr8Model Ocr8Spec Ocr8Proofs Ocr8Proofs2 Ocr8Proofs3 Ocr8Proofs4 OcrOutcome OcrOutcome2 Ocr8Outcome
  ShowModel PrintModel PrintSpec PrintProofs OcrOutModel OcrOutSpec OcrOutProofs OcrOutProofs2 OcrOutProofs3 SameProofs Same6Spec SameProofs4 SameProofs5 SameProofs6 Same8Spec.
From Coq Require Import Sorted SpecFloat Permutation FinFun.

(** * The rows *)
(** built8 as built6, for the rows alone. *)
Lemma built_moves8 z gs e e' : built8 z gs e -> built8 z gs e' ->
  exists f, moves f (Z.of_nat (List.length gs)) (e8_cols e) (e8_words e) (e8_cols e') (e8_words e').
Proof.
  intros (_ & l & P & L & H) (_ & l' & P' & L' & H'). assert (Pl : Permutation l l') by (now rewrite <- P). pose proof (Permutation_length P) as N. pose proof (Permutation_length P') as N'.
  apply Permutation_nth_error_bis in Pl as (f & If & Bf & Ef). exists (fun i => Z.of_nat (f (Z.to_nat i))).
  assert (Sf : bSurjective (List.length l) f) by (apply (bInjective_bSurjective Bf); intros x y _ _; apply If).
  assert (Row : forall i, 0 <= i < Z.of_nat (List.length gs) -> exists g, nth_error l' (Z.to_nat i) = Some g /\ nth_error l (f (Z.to_nat i)) = Some g).
  { intros i Hi. destruct (nth_error l' (Z.to_nat i)) as [g|] eqn:Eg; [|apply nth_error_None in Eg; lia]. exists g. split; [reflexivity|]. now rewrite <- Ef. }
  constructor.
  - lia.
  - intros i Hi. specialize (Bf (Z.to_nat i) ltac:(lia)). lia.
  - intros i j Hi Hj E. assert (E2 : Z.to_nat i = Z.to_nat j) by (apply If; lia). lia.
  - intros k Hk. destruct (Sf (Z.to_nat k) ltac:(lia)) as (i & Hi & Ei). exists (Z.of_nat i). rewrite Nat2Z.id, Ei. lia.
  - intros i Hi. destruct (Row i Hi) as (g & G1 & G2). destruct (H' _ _ G1) as (W1 & _). destruct (H _ _ G2) as (W2 & _). rewrite Z2Nat.id in W1 by lia. congruence.
  - intros i s v Hi Hs. destruct (Row i Hi) as (g & G1 & G2). destruct (H' _ _ G1) as (_ & W1). destruct (H _ _ G2) as (_ & W2). specialize (W1 s v Hs). specialize (W2 s v Hs). rewrite Z2Nat.id in W1 by lia. tauto.
Qed.
Lemma built_size8 z gs e : built8 z gs e -> Z.of_nat (List.length (e8_words e)) = Z.of_nat (List.length gs).
Proof. intros (_ & gs' & P & L & _). rewrite (Permutation_length P). lia. Qed.
Lemma near_ext cols n v v' i : (forall s, In s simple_strategies -> v s = v' s) -> (near8 cols n v i <-> near8 cols n v' i).
Proof. intros Ev. unfold near8. split; intros (A & B); (split; [exact A|]); intros s a Hs Ca; [rewrite <- (Ev s Hs)|rewrite (Ev s Hs)]; exact (B s a Hs Ca). Qed.
Lemma product_ext row v v' : (forall s, In s simple_strategies -> v s = v' s) -> product8 row v = product8 row v'.
Proof.
  intros Ev. unfold product8. assert (G : forall s, In s feature_order -> v s = v' s) by (intros s Hs; apply Ev; now apply feature_order_simple). revert G. generalize feature_order d1. intros ss.
  induction ss as [|s ss IH]; intros p G; [reflexivity|]. cbn [fold_left]. rewrite (G s (or_introl eq_refl)). apply IH. intros t Ht. apply G. now right.
Qed.
Lemma product_rows row row' v : (forall s, In s simple_strategies -> row s = row' s) -> product8 row v = product8 row' v.
Proof.
  intros Ev. unfold product8. assert (G : forall s, In s feature_order -> row s = row' s) by (intros s Hs; apply Ev; now apply feature_order_simple). revert G. generalize feature_order d1. intros ss.
  induction ss as [|s ss IH]; intros p G; [reflexivity|]. cbn [fold_left]. rewrite (G s (or_introl eq_refl)). apply IH. intros t Ht. apply G. now right.
Qed.
Lemma found8_ext cols n v v' ps : (forall s, In s simple_strategies -> v s = v' s) -> found8 cols n v ps -> found8 cols n v' ps.
Proof.
  intros Ev (A & B & C). split; [exact A|]. split; [intros i; rewrite (B i); now apply near_ext|]. intros p row Hp R. rewrite (C p row Hp R). now apply product_ext.
Qed.
Lemma moved_near f n cols cols' words words' v i : moves f n cols words cols' words' -> 0 <= i < n -> (near8 cols' n v i <-> near8 cols n v (f i)).
Proof.
  intros HM Hi. pose proof (mv_in _ _ _ _ _ _ HM i Hi) as Hf. pose proof (fun s v => mv_cells _ _ _ _ _ _ HM i s v Hi) as C. unfold near8.
  split; intros (_ & A); (split; [assumption|]); intros s a Hs Ca; apply (A s a Hs); apply C; try exact Ca; now apply simple_in_all.
Qed.
Lemma moved_row f n cols cols' words words' i row : moves f n cols words cols' words' -> 0 <= i < n -> (row_of cols' i row <-> row_of cols (f i) row).
Proof.
  intros HM Hi. pose proof (fun s v => mv_cells _ _ _ _ _ _ HM i s v Hi) as C. unfold row_of. split; intros H s Hs; apply C; try (now apply simple_in_all); now apply H.
Qed.
Lemma some_row e i : sound_env8 e -> 0 <= i < Z.of_nat (List.length (e8_words e)) -> exists row, row_of (e8_cols e) i row.
Proof. intros HE Hi. exists (rowv (e8_cols e) i). intros s Hs. destruct (row_cell _ _ _ _ HE s i Hs Hi) as (_ & _ & _ & _ & U). now apply U. Qed.
Lemma found8_moved f n cols cols' words words' v ps ps' : moves f n cols words cols' words' -> (forall i, 0 <= i < n -> exists row, row_of cols i row) -> found8 cols n v ps -> found8 cols' n v ps' ->
  (forall p, In p ps' -> In (mkpr (f (pr_i p)) (pr_p p)) ps) /\ (forall p, In p ps -> exists i, 0 <= i < n /\ f i = pr_i p /\ In (mkpr i (pr_p p)) ps').
Proof.
  intros HM Rw F F'. pose proof F as (_ & Mem & Sc). pose proof F' as (_ & Mem' & Sc').
  assert (In1 : forall p, In p ps -> 0 <= pr_i p < n) by (intros p Hp; apply (Mem (pr_i p)); now apply in_map).
  assert (In2 : forall p, In p ps' -> 0 <= pr_i p < n) by (intros p Hp; apply (Mem' (pr_i p)); now apply in_map).
  assert (Sm : forall p q, In p ps -> In q ps' -> f (pr_i q) = pr_i p -> pr_p q = pr_p p).
  { intros p q Hp Hq E. destruct (Rw (pr_i p) (In1 p Hp)) as (row & R). rewrite (Sc p row Hp R). apply (Sc' q row Hq). apply (moved_row f n cols cols' words words' _ _ HM (In2 q Hq)). now rewrite E. }
  split.
  - intros q Hq. assert (C : near8 cols n v (f (pr_i q))).
    { apply (moved_near f n cols cols' words words' v _ HM (In2 q Hq)). apply Mem'. now apply in_map. }
    apply Mem in C. apply in_map_iff in C as (p & Ep & Hp). rewrite (Sm p q Hp Hq (eq_sym Ep)), <- Ep. now destruct p.
  - intros p Hp. destruct (mv_all _ _ _ _ _ _ HM _ (In1 p Hp)) as (i & Hi2 & Ei). exists i. split; [exact Hi2|]. split; [exact Ei|].
    assert (C : near8 cols' n v i). { apply (moved_near f n cols cols' words words' v _ HM Hi2). rewrite Ei. apply Mem. now apply in_map. }
    apply Mem' in C. apply in_map_iff in C as (q & Eq & Hq). rewrite <- (Sm p q Hp Hq) by congruence. subst i. now destruct q.
Qed.
Lemma comparable_rows8 z gs e im : is_std_sort Z.ltb z -> trainable6 gs -> built8 z gs e -> comparable_glyphs z gs im -> comparable6 (r6_zones (e8_rt e)) im (e8_cols e).
Proof.
  intros Hz HT HB D. pose proof HB as (HE & _). intros j a b0 Sa Cb. assert (Hj : 0 <= j < Z.of_nat (List.length (e8_words e))).
  { destruct Cb as (Hj & c & Hc & En). split; [exact Hj|]. destruct (b6_rows _ _ _ _ HE _ _ Hc) as (L & _). assert (Z.to_nat j < List.length c)%nat by (apply nth_error_Some; congruence). lia. }
  destruct (row_glyph8 z gs e HB j Hj) as (g & Hg & _ & Cg). apply Cg in Cb; [|cbv; tauto]. split.
  - assert (Rg : recognisable (gl_img g)) by (destruct HT as (HT' & _); apply (HT' g Hg)). destruct (rotate90_law (gl_img g) (proj1 Rg)) as (r & Er & _).
    destruct (pz_feature (mkin (fun _ => 0) z (gl_img g) r) (some_sound z Hz (gl_img g) r Rg Er)) as (F & l & El & Bl & _). destruct Cb as (r' & Er' & Eb). assert (r' = r) by congruence. subst r'.
    unfold feature in F. cbn [in_zsort in_img in_img90] in F. rewrite El in F. rewrite F in Eb. injection Eb as ->. exact Bl.
  - apply (D g a b0 Hg); [now apply (seen_any8 z Hz gs e HB)|exact Cb].
Qed.

(** * A picture *)
Theorem recognise_out8_same nan z gs e e' n n' im : is_std_sort Z.ltb z -> trainable6 gs -> built8 z gs e -> built8 z gs e' -> recognisable im ->
  comparable_glyphs z gs im \/ (exists g, In g gs /\ same8 z im g) -> untied8 z gs im -> recognise_out8 nan e n im = recognise_out8 nan e' n' im.
Proof.
  intros Hz HT HB HB' R D (U1 & U2). pose proof HB as (HE & _). pose proof HB' as (HE' & _). unfold sound_env8 in HE, HE'. destruct (recognisable_turn im R) as (im90 & H90).
  destruct (built_moves8 z gs e e' HB HB') as (f & HM). pose proof (built_size8 z gs e HB) as S1. pose proof (built_size8 z gs e' HB') as S2.
  unfold recognise_out8. rewrite H90. cbn [bind]. cbv zeta. set (junk := r6_junk (e8_rt e) n). set (junk' := r6_junk (e8_rt e') n').
  rewrite (candidates8_ok _ _ _ _ HE im im90 R H90 junk), (candidates8_ok _ _ _ _ HE' im im90 R H90 junk'). cbn [bind].
  pose proof (cands_found _ _ _ _ HE im im90 junk) as F. pose proof (cands_found _ _ _ _ HE' im im90 junk') as F'. pose proof (cands_unit (e8_rt e) (e8_cols e) (e8_words e) im im90 junk) as Un. pose proof (cands_unit (e8_rt e') (e8_cols e') (e8_words e') im im90 junk') as Un'.
  pose proof (seen_value _ _ _ _ HE im im90 R H90 junk) as Sv. pose proof (seen_value _ _ _ _ HE' im im90 R H90 junk') as Sv'. pose proof (cands_one (e8_rt e) (e8_cols e) (e8_words e) im im90 junk) as On.
  set (v := value (e8_rt e) im im90 junk) in *. set (v' := value (e8_rt e') im im90 junk') in *.
  set (ps := cands (e8_rt e) (e8_cols e) (e8_words e) im im90 junk) in *. set (ps' := cands (e8_rt e') (e8_cols e') (e8_words e') im im90 junk') in *.
  rewrite S1 in F, Un. rewrite S2 in F', Un'.
  assert (Ev : forall s, In s simple_strategies -> v' s = v s).
  { intros s Hs. pose proof (proj1 (seen_any8 z Hz gs e HB im s _) (Sv s Hs)) as A. pose proof (proj1 (seen_any8 z Hz gs e' HB' im s _) (Sv' s Hs)) as B. pose proof (seen6_unique _ _ _ _ _ B A). congruence. }
  apply (found8_ext _ _ _ v _ Ev) in F'.
  assert (Rw : forall i, 0 <= i < Z.of_nat (List.length gs) -> exists row, row_of (e8_cols e) i row) by (rewrite <- S1; intros i; now apply some_row).
  destruct (found8_moved f _ _ _ _ _ v ps ps' HM Rw F F') as (M1 & M2).
  assert (Gl : forall p, In p ps -> exists g, In g gs /\ labels6 (e8_words e) (pr_i p) = words_of6 g /\ near_glyph8 z im g /\ score8 z im g (pr_p p) /\ (forall s w, In s all_strategies -> (cell6 (e8_cols e) s (pr_i p) w <-> true6 z (gl_img g) s w))).
  { intros p Hp. assert (C : near8 (e8_cols e) (Z.of_nat (List.length gs)) v (pr_i p)) by (apply F; now apply in_map). pose proof C as (Hi & Hc). rewrite <- S1 in Hi.
    destruct (row_glyph8 z gs e HB (pr_i p) Hi) as (g & Hg & Lb & Cg). exists g. split; [exact Hg|]. split; [exact Lb|]. split.
    - intros s a b Hs Sa Tb. pose proof (seen6_unique _ _ _ _ _ Sa (proj1 (seen_any8 z Hz gs e HB im s _) (Sv s Hs))) as Q. injection Q as ->. apply Hc; [exact Hs|]. apply Cg; [now apply simple_in_all|exact Tb].
    - split; [|exact Cg]. rewrite S1 in Hi. destruct (Rw (pr_i p) Hi) as (row & Hr). exists row, v. split; [intros s Hs; apply Cg; [now apply simple_in_all|now apply Hr]|]. split; [intros s Hs; apply (seen_any8 z Hz gs e HB); now apply Sv|].
      destruct F as (_ & _ & Sc). exact (Sc p row Hp Hr). }
  assert (Uw : forall p q, In p ps -> In q ps -> pr_p p = pr_p q -> labels6 (e8_words e) (pr_i p) = labels6 (e8_words e) (pr_i q)).
  { intros p q Hp Hq E. destruct (Gl p Hp) as (g & Hg & -> & Ng & Kg & _). destruct (Gl q Hq) as (h & Hh & -> & Nh & Kh & _). rewrite <- E in Kh. exact (U1 g h _ Hg Hh Ng Nh Kg Kh). }
  apply (decide_out_same _ _ _ _ _ _ _ _ HE HE' im im90 R H90 _ _ f _ HM nan ps ps' Un Un' M1 M2 Uw).
  assert (Ds : (exists p, In p ps /\ dle d1 (pr_p p) = true) \/ forall p, In p ps -> dle d1 (pr_p p) = false).
  { clear. induction ps as [|p l IH]; [right; intros ? []|]. destruct (dle d1 (pr_p p)) eqn:E; [left; exists p; split; [now left|exact E]|].
    destruct IH as [(q & Hq & Eq)|H]; [left; exists q; split; [now right|exact Eq]|right]. intros q [<-|Hq]; [exact E|now apply H]. }
  destruct Ds as [Ds|Z0]; [left; exact Ds|]. right.
  assert (Ns : forall g, In g gs -> ~ same8 z im g).
  { intros g Hg Sg. destruct (glyph_row8 z gs e HB g Hg) as (i & Hi & _ & Cg). destruct (some_row e i HE Hi) as (row & Hr).
    assert (Rv : forall s, In s simple_strategies -> row s = v s).
    { intros s Hs. pose proof (Sg s _ Hs (proj1 (Cg s _ (simple_in_all s Hs)) (Hr s Hs))) as A. pose proof (seen6_unique _ _ _ _ _ A (proj1 (seen_any8 z Hz gs e HB im s _) (Sv s Hs))). congruence. }
    assert (C : near8 (e8_cols e) (Z.of_nat (List.length gs)) v i).
    { split; [rewrite <- S1; exact Hi|]. intros s a Hs Ca. destruct (row_cell _ _ _ _ HE s i Hs Hi) as (_ & _ & _ & _ & U). apply U in Ca. assert (row s = rowv (e8_cols e) i s) by (apply U; now apply Hr).
      replace a with (v s) by (rewrite <- (Rv s Hs); congruence). rewrite Z.sub_diag. cbn [Z.abs]. assert (In s all_strategies) by now apply simple_in_all. clear - Hs. apply Z.div_pos; [|lia]. vm_compute in Hs. repeat (destruct Hs as [<-|Hs]; [vm_compute; congruence|]). destruct Hs. }
    apply F in C. apply in_map_iff in C as (p & Ep & Hp). specialize (Z0 p Hp). assert (O : dle d1 (pr_p p) = true); [|congruence]. apply (On p Hp). intros s Hs. rewrite Ep. rewrite <- (Rv s Hs). symmetry.
    destruct (row_cell _ _ _ _ HE s i Hs Hi) as (_ & _ & _ & _ & U). apply U. now apply Hr. }
  destruct D as [D|(g & Hg & Sg)]; [|elim (Ns g Hg Sg)].
  split; [exact (comparable_rows8 z gs e im Hz HT HB D)|]. split; [exact (comparable_rows8 z gs e' im Hz HT HB' D)|]. intros p q x Hp Hq _ _ Fp Fq.
  destruct (Gl p Hp) as (g & Hg & -> & Ng & Kg & Cg). destruct (Gl q Hq) as (h & Hh & -> & Nh & Kh & Ch).
  assert (Alt : In (mkst Alternations false) all_strategies) by (cbv; tauto).
  assert (Ls : forall p g, In p ps -> score8 z im g (pr_p p) -> (forall s w, In s all_strategies -> (cell6 (e8_cols e) s (pr_i p) w <-> true6 z (gl_img g) s w)) -> final_score (r6_zones (e8_rt e)) im (e8_cols e) p x -> last_score8 z im g x).
  { intros p0 g0 Hp0 K0 C0 F0. assert (Hi : 0 <= pr_i p0 < Z.of_nat (List.length (e8_words e))) by (rewrite S1; now apply Un). destruct (cellv_ok _ _ _ _ HE (mkst Alternations false) (pr_i p0) Alt Hi) as (c & E1 & E2 & T & Uc).
    assert (Cb : cell6 (e8_cols e) (mkst Alternations false) (pr_i p0) (cellv (e8_cols e) (mkst Alternations false) (pr_i p0))) by now apply Uc.
    pose proof (proj2 (seen_sv _ _ _ _ HE im im90 R H90 junk (mkst Alternations false) _ Alt) eq_refl) as Sa.
    eexists (pr_p p0), _, (cellv (e8_cols e) (mkst Alternations false) (pr_i p0)). split; [exact K0|].
    split; [apply (seen_any8 z Hz gs e HB); exact Sa|]. split; [now apply C0|]. exact (F0 _ _ Sa Cb). }
  exact (U2 Ns g h x Hg Hh Ng Nh (Ls p g Hp Kg Cg Fp) (Ls q h Hq Kh Ch Fq)).
Qed.
Theorem recognise8_same z gs e e' n n' im : is_std_sort Z.ltb z -> trainable6 gs -> built8 z gs e -> built8 z gs e' -> recognisable im ->
  comparable_glyphs z gs im \/ (exists g, In g gs /\ same8 z im g) -> untied8 z gs im -> recognise8 e n im = recognise8 e' n' im.
Proof. intros Hz HT HB HB' R D U. rewrite (recognise_forget8 [] e), (recognise_forget8 [] e'), (recognise_out8_same [] z gs e e' n n' im Hz HT HB HB' R D U). reflexivity. Qed.

(** * The program *)
Theorem extract_text8_same rt rt' gs junk z cx0 datas bytes img ws dict : legal8 rt -> legal8 rt' -> trainable6 gs -> is_std_sort Z.ltb z -> write_datas_file junk z cx0 (write_glyphs gs) = Ok (Some datas) ->
  dict_file ws dict -> (forall g h, In g gs -> In h gs -> ~ differ_glyphs z g h) -> image_of_bytes bytes 128 = Ok img -> line_pictures8 z gs (untied8 z gs) img ->
  extract_text8 rt (write_glyphs gs) datas bytes dict = extract_text8 rt' (write_glyphs gs) datas bytes dict.
Proof.
  intros HL HL' HT Hz ED Hd HA EI (Hs & HP). destruct (load8_alike rt HL gs HT junk z Hz cx0 datas ED ws dict Hd HA) as (nodes & e & EL & En & HB & _).
  destruct (load8_alike rt' HL' gs HT junk z Hz cx0 datas ED ws dict Hd HA) as (nodes' & e' & EL' & En' & HB' & _). rewrite En in En'. injection En' as <-.
  unfold extract_text8. rewrite EL, EL'. cbn [bind]. rewrite EI. cbn [bind]. destruct (segment_some img Hs) as (boxes & Eb).
  rewrite (read_line6_same img Hs boxes Eb (recognise8 e) (recognise8 e')); [reflexivity|].
  intros b im n Hb Ci. destruct (HP boxes b Eb Hb) as (Rd & Dc). destruct (Rd im Ci) as (R & D). exact (recognise8_same z gs e e' n n im Hz HT HB HB' R D (Dc im Ci)).
Qed.
(** The number of repetitions that is printed. *)
Lemma main_alike8 rt gs junk z cx0 datas ws dict nan disk prog args image : legal8 rt -> trainable6 gs -> is_std_sort Z.ltb z -> write_datas_file junk z cx0 (write_glyphs gs) = Ok (Some datas) ->
  dict_file ws dict -> (forall g h, In g gs -> In h gs -> ~ differ_glyphs z g h) -> disk_files6 disk args (Some (write_glyphs gs)) (Some datas) image dict ->
  exists nodes e, load_optional read_dict [] dict = Ok nodes /\ built8 z gs e /\ main8 rt nan disk (prog :: args) = image_out (recognise_out8 nan e) nodes image (head8 (dict_shown dict nodes) (vsize gs) 0).
Proof.
  intros HL HT Hz ED Hd HA F. destruct (load8_alike rt HL gs HT junk z Hz cx0 datas ED ws dict Hd HA) as (nodes & e & EL & En & HB & _). exists nodes, e. split; [exact En|]. split; [exact HB|].
  assert (HS : Forall storable gs) by (destruct HT as (Hg & _); apply Forall_forall; intros g H; apply (Hg g H)).
  destruct (main_loaded8 rt nan disk prog args (write_glyphs gs) datas image dict nodes e F EL) as (gs0 & k & Eg & Em & K). rewrite (glyph_file_round_trip gs HS) in Eg. apply Ok_inj in Eg. subst gs0. rewrite Em. f_equal.
  unfold head8. destruct (Z.ltb_spec 1 (vsize gs)) as [L|L]; [|reflexivity]. destruct (K L) as (cols & col & dup & w1 & Ec & Ecol & Ef & ->).
  assert (HR : Forall (fun g => recognisable (gl_img g)) gs) by (destruct HT as (Hg & _); apply Forall_forall; intros g H; apply (Hg g H)).
  assert (Hn' : vsize gs < 4294967296) by (destruct HT as (_ & Hn'); unfold vsize in *; lia). unfold vsize in Hn', L. destruct (write_datas_table z Hz junk cx0 gs HS HR ltac:(lia)) as (E1 & E2). rewrite ED in E1. injection E1 as ->.
  rewrite E2 in Ec. apply Ok_inj in Ec. subst cols.
  pose proof (rows8_glyphs gs HT z Hz) as R8. fold (words6 gs) in Ef. rewrite (size8 _ _ R8) in Ef.
  assert (Ei : r6_first (r8_base rt) (map Ocr6Model.num col) (zrange (Z.of_nat (List.length gs))) = idx8 rt (feature_table z (map gl_img gs)) (Z.of_nat (List.length gs))) by (unfold idx8; rewrite Ecol; reflexivity). rewrite Ei in Ef.
  rewrite (find_duplicates_ok _ _ R8 (r8_moved rt) _ (idx8_perm rt HL _ _ R8) (words6 gs) (words6_length gs) ltac:(lia)) in Ef. apply Ok_inj in Ef. injection Ef as <- _.
  destruct (load8_counted rt HL gs HT junk z Hz cx0 _ ED ws dict Hd) as (gs' & ds & P & _ & _ & HO & HC & _). specialize (HC L). destruct ds as [|j ds].
  - unfold dup8 in HC. cbn [List.length] in HC. unfold vsize. rewrite <- HC. reflexivity.
  - exfalso. destruct (proj1 (HO j) (or_introl eq_refl)) as (g & h & G1 & G2 & Df). apply (HA g h); [| |exact Df]; (eapply Permutation_in; [apply Permutation_sym; exact P|]); eapply nth_error_In; eassumption.
Qed.
Theorem main8_same rt rt' gs junk z cx0 datas bytes img ws dict nan disk prog args : legal8 rt -> legal8 rt' -> trainable6 gs -> is_std_sort Z.ltb z -> write_datas_file junk z cx0 (write_glyphs gs) = Ok (Some datas) ->
  dict_file ws dict -> (forall g h, In g gs -> In h gs -> ~ differ_glyphs z g h) -> image_of_bytes bytes 128 = Ok img -> line_pictures8 z gs (untied8 z gs) img -> files_are6 disk args (write_glyphs gs) datas bytes dict ->
  main8 rt nan disk (prog :: args) = main8 rt' nan disk (prog :: args).
Proof.
  intros HL HL' HT Hz ED Hd HA EI (Hs & HP) HF. destruct (main_alike8 rt gs junk z cx0 datas ws dict nan disk prog args _ HL HT Hz ED Hd HA HF) as (nodes & e & En & HB & ->).
  destruct (main_alike8 rt' gs junk z cx0 datas ws dict nan disk prog args _ HL' HT Hz ED Hd HA HF) as (nodes' & e' & En' & HB' & ->). rewrite En in En'. injection En' as <-.
  unfold image_out. cbn [load_image]. rewrite EI. cbn [attempt]. destruct (segment_some img Hs) as (boxes & Eb).
  rewrite (read_line_out_same img Hs boxes Eb (recognise_out8 nan e) (recognise_out8 nan e')); [reflexivity|].
  intros b im n Hb Ci. destruct (HP boxes b Eb Hb) as (Rd & Dc). destruct (Rd im Ci) as (R & D). exact (recognise_out8_same nan z gs e e' n n im Hz HT HB HB' R D (Dc im Ci)).
Qed.
