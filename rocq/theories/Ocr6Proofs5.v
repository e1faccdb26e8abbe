(** extract_text6: the whole program. *)
From Verif Require Import Base BaseProofs SortModel SortProofs ImageModel ImageSpec ImageProofs PnmModel BoxModel BoxSpec BoxProofs StratModel ZoneModel DatasModel DatasSpec DatasProofs
  UtfSpec StreamModel GlyphIoModel GlyphIoSpec GlyphIoProofs DatasIoModel DatasIoSpec DatasIoProofs DictIoModel DictIoProofs TrieModel TrieSpec TrieProofs FlatTrieProofs SpellModel SpellSpec SpellProofs
  UtilModel UtilProofs IndexModel IndexProofs FloatModel RecogModel RecogSpec RecogProofs GlyphsModel GlyphsProofs3 ExtractModel ExtractSpec ExtractProofs AssembleSpec LearnModel LearnSpec LearnProofs2 LearnProofs3
  PipelineModel PipelineSpec PipelineProofs2 PipelineProofs4 ReadSpec ReadProofs Ocr6Model Ocr6Spec Ocr6Proofs Ocr6Proofs2 Ocr6Proofs3 Ocr6Proofs4.
From Coq Require Import Sorted Permutation.

(** * Sorting integers *)
Lemma sorted_unique l l' : StronglySorted Z.le l -> StronglySorted Z.le l' -> Permutation l l' -> l = l'.
Proof.
  intros H. revert l'. induction H as [|a l S IH F]; intros l' H' P.
  - now apply Permutation_nil in P.
  - destruct l' as [|b l']; [apply Permutation_sym, Permutation_nil in P; discriminate|]. apply StronglySorted_inv in H' as (S' & F').
    rewrite Forall_forall in F, F'.
    assert (a = b).
    { assert (Ha : In a (b :: l')) by (eapply Permutation_in; [exact P|now left]). assert (Hb : In b (a :: l)) by (eapply Permutation_in; [apply Permutation_sym; exact P|now left]).
      destruct Ha as [<-|Ha]; [reflexivity|]. destruct Hb as [<-|Hb]; [reflexivity|]. specialize (F b Hb). specialize (F' a Ha). lia. }
    subst b. f_equal. apply IH; [exact S'|]. eapply Permutation_cons_inv. exact P.
Qed.
Lemma zsort_unique z z' l : is_std_sort Z.ltb z -> is_std_sort Z.ltb z' -> z l = z' l.
Proof.
  intros H H'. assert (W : strict_weak Z.ltb l) by (split; [|split]; intros; lia). destruct (H l W) as (P & S). destruct (H' l W) as (P' & S').
  assert (G : forall l, sorted_by Z.ltb l -> StronglySorted Z.le l).
  { intros k Sk. induction Sk as [|a k _ IH F]; constructor; [exact IH|]. rewrite Forall_forall in *. intros x Hx. specialize (F x Hx). cbn beta in F. lia. }
  apply sorted_unique; [now apply G|now apply G|]. eapply Permutation_trans; [apply Permutation_sym; exact P|exact P'].
Qed.
Lemma feature_any_sort z z' s img img90 : is_std_sort Z.ltb z -> is_std_sort Z.ltb z' -> feature_alone z s img img90 = feature_alone z' s img img90.
Proof.
  intros H H'. unfold feature_alone. destruct (st_algo s); try reflexivity. destruct (count_zone_compute _ _ _); try reflexivity. cbn [bind].
  unfold pz_load. destruct (pz_values _) as [(t, l)| | |]; try reflexivity. cbn [bind]. destruct (pz_percents t l) as [q| | |]; try reflexivity. cbn [bind].
  now rewrite (zsort_unique z z' q H H').
Qed.
Lemma true6_any z z' im s v : is_std_sort Z.ltb z -> is_std_sort Z.ltb z' -> true6 z im s v -> true6 z' im s v.
Proof. intros H H' (r & Er & E). exists r. split; [exact Er|]. rewrite (feature_any_sort z' z) by assumption. exact E. Qed.

(** * Loading *)
Lemma squeeze_unique l : unique_words l = squeeze l.
Proof.
  assert (G : forall l w, w :: unique_words_from w l = squeeze (w :: l)).
  { induction l0 as [|x k IH]; intros w; [reflexivity|]. cbn [unique_words_from]. destruct (TrieModel.list_eqb w x) eqn:E.
    - apply eqb_word in E. subst x. rewrite IH. change (squeeze (w :: w :: k)) with (if list_eq_dec Z.eq_dec w w then squeeze (w :: k) else w :: squeeze (w :: k)).
      destruct (list_eq_dec Z.eq_dec w w); [reflexivity|congruence].
    - rewrite IH. change (squeeze (w :: x :: k)) with (if list_eq_dec Z.eq_dec w x then squeeze (x :: k) else w :: squeeze (x :: k)).
      destruct (list_eq_dec Z.eq_dec w x) as [->|]; [|reflexivity]. assert (T : TrieModel.list_eqb x x = true) by now apply eqb_word. congruence. }
  destruct l as [|w l]; [reflexivity|]. exact (G l w).
Qed.
Lemma squeeze_In w l : In w (squeeze l) <-> In w l.
Proof.
  induction l as [|a l IH]; [reflexivity|]. destruct l as [|b l]; [reflexivity|].
  change (squeeze (a :: b :: l)) with (if list_eq_dec Z.eq_dec a b then squeeze (b :: l) else a :: squeeze (b :: l)).
  destruct (list_eq_dec Z.eq_dec a b) as [<-|]; [rewrite IH; cbn [In]; intuition|]. cbn [In] in *. rewrite IH. reflexivity.
Qed.
Lemma squeeze_nil l : squeeze l = [] -> l = [].
Proof.
  destruct l as [|a l]; [reflexivity|]. intros H. assert (In a (squeeze (a :: l))) by (apply squeeze_In; now left). rewrite H in *. contradiction.
Qed.
Definition no_glyph : glyph := mkglyph (mkimage 0 0 []) [].
Definition pick {A} (d : A) (idx : list Z) (l : list A) : list A := map (fun i => nth (Z.to_nat i) l d) idx.
Lemma pick_zrange {A} (d : A) l : pick d (zrange (Z.of_nat (List.length l))) l = l.
Proof.
  apply nth_error_ext. intros k. unfold pick. rewrite nth_error_map. destruct (Nat.ltb_spec k (List.length l)) as [H|H].
  - rewrite zrange_nth by lia. cbn [option_map]. rewrite Nat2Z.id. symmetry. now apply nth_error_nth'.
  - assert (E : nth_error l k = None) by (apply nth_error_None; lia). rewrite E.
    replace (nth_error (zrange (Z.of_nat (List.length l))) k) with (@None Z); [reflexivity|]. symmetry. apply nth_error_None. rewrite zrange_length. lia.
Qed.
Lemma pick_perm {A} (d : A) idx l : Permutation (zrange (Z.of_nat (List.length l))) idx -> Permutation l (pick d idx l).
Proof. intros P. rewrite <- (pick_zrange d l) at 1. unfold pick. now apply Permutation_map. Qed.
Lemma perm_index n idx : Permutation (zrange n) idx -> NoDup idx /\ (forall i, In i idx -> 0 <= i < n) /\ List.length idx = Z.to_nat n.
Proof.
  intros P. split; [|split].
  - eapply Permutation_NoDup; [exact P|apply zrange_NoDup].
  - intros i Hi. apply Permutation_sym in P. apply (Permutation_in _ P), zrange_In in Hi. exact Hi.
  - rewrite <- (Permutation_length P). apply zrange_length.
Qed.
Lemma reindex_map {A B} (d : B) moved (da : A) (f : A -> B) idx l : Permutation (zrange (Z.of_nat (List.length l))) idx ->
  reindex d moved idx (map f l) = Ok (map f (pick da idx l)).
Proof.
  intros P. destruct (perm_index _ _ P) as (ND & HI & HL). rewrite reindex_ok; [|exact ND| |].
  - f_equal. unfold pick. rewrite map_map. apply map_ext_in. intros i Hi. specialize (HI i Hi).
    rewrite (nth_indep (map f l) d (f da)) by (rewrite map_length; lia). apply map_nth.
  - intros i Hi. specialize (HI i Hi). unfold vsize. rewrite map_length. lia.
  - unfold vsize. rewrite map_length, HL. lia.
Qed.

Section Load.
Context (rt : runtime6) (HL : legal6 rt) (gs : list glyph) (HT : trainable6 gs).
Context (junk : Z -> Z) (z : list Z -> list Z) (Hz : is_std_sort Z.ltb z) (cx0 : ctxs) (datas : list Z).
Hypothesis (ED : write_datas_file junk z cx0 (write_glyphs gs) = Ok (Some datas)).
Definition words6 (gs : list glyph) : list (list (list Z)) := map (fun g => unique_words (map vw_word (gl_views g))) gs.
Definition idx6 : list Z := r6_first rt (map (fun g => Ocr6Model.num (fval_of z (gl_img g) first_feature)) gs) (zrange (Z.of_nat (List.length gs))).
Definition gs6 : list glyph := pick no_glyph idx6 gs.
Lemma idx6_sorted : Permutation (zrange (Z.of_nat (List.length gs))) idx6 /\
  sorted_by (index_lt (map (fun g => Ocr6Model.num (fval_of z (gl_img g) first_feature)) gs)) idx6.
Proof. destruct HL as (L1 & _). apply L1. apply index_lt_strict_weak. Qed.
Lemma gs6_perm : Permutation gs gs6. Proof. apply pick_perm. apply idx6_sorted. Qed.
Lemma feature_col cols s : cols = feature_table z (map gl_img gs) -> In s all_strategies -> get_col all_strategies cols s = Ok (map (fun g => fval_of z (gl_img g) s) gs).
Proof.
  intros -> Hs. apply get_col_unique; [exact all_strategies_NoDup|]. unfold feature_table.
  rewrite <- (map_map gl_img (fun im => fval_of z im s)). clear - Hs. induction all_strategies as [|a l IH]; [destruct Hs|]. cbn [map combine]. destruct Hs as [->|Hs]; [now left|right; exact (IH Hs)].
Qed.
Lemma order6_ok : order6 rt (feature_table z (map gl_img gs)) (words6 gs) = Ok (feature_table z (map gl_img gs6), words6 gs6).
Proof.
  unfold order6. change first6 with first_feature. rewrite (feature_col _ first_feature eq_refl (simple_in_all _ first_simple)). cbn [bind]. cbv zeta. rewrite map_map.
  assert (Sz : datas_size (feature_table z (map gl_img gs)) = Z.of_nat (List.length gs)).
  { unfold feature_table. assert (A : exists a l, all_strategies = a :: l) by (eexists; eexists; reflexivity). destruct A as (a & l & ->). cbn [map datas_size]. rewrite !map_length. reflexivity. }
  rewrite Sz. fold idx6. destruct idx6_sorted as (P & _). unfold words6. rewrite (reindex_map [] _ no_glyph _ idx6 gs P). cbn [bind]. fold gs6.
  assert (M : forall ss, map_res (reindex (VNum 0) moved_value idx6) (map (fun s => map (fun img => fval_of z img s) (map gl_img gs)) ss) = Ok (map (fun s => map (fun img => fval_of z img s) (map gl_img gs6)) ss)).
  { induction ss as [|s ss IH]; [reflexivity|]. cbn [map map_res]. rewrite !map_map, (reindex_map (VNum 0) _ no_glyph (fun g => fval_of z (gl_img g) s) idx6 gs P). cbn [bind]. rewrite IH. reflexivity. }
  unfold feature_table. rewrite M. reflexivity.
Qed.
Lemma gs6_In g : In g gs6 <-> In g gs.
Proof. split; intros H; [eapply Permutation_in; [apply Permutation_sym; apply gs6_perm|exact H]|eapply Permutation_in; [apply gs6_perm|exact H]]. Qed.
Lemma gs6_length : List.length gs6 = List.length gs. Proof. symmetry. apply Permutation_length. exact gs6_perm. Qed.
Lemma gs6_rec i g : nth_error gs6 i = Some g -> recognisable (gl_img g) /\ gl_views g <> [].
Proof. intros H. apply nth_error_In, gs6_In in H. destruct HT as (Hg & _). destruct (Hg g H) as (_ & R & V). auto. Qed.
Local Notation cols := (feature_table z (map gl_img gs6)).
Lemma cell_feature s i v : In s all_strategies -> (cell6 cols s i v <-> 0 <= i /\ exists g, nth_error gs6 (Z.to_nat i) = Some g /\ v = fval_of z (gl_img g) s).
Proof.
  intros Hs. unfold cell6. split.
  - intros (Hi & c & Hc & E). split; [exact Hi|]. apply in_feature_table in Hc as (_ & ->). rewrite map_map, nth_error_map in E. destruct (nth_error gs6 (Z.to_nat i)) as [g|]; [|discriminate].
    cbn [option_map] in E. injection E as <-. eauto.
  - intros (Hi & g & Eg & ->). split; [exact Hi|]. exists (map (fun img => fval_of z img s) (map gl_img gs6)). split.
    + unfold feature_table. clear - Hs. induction all_strategies as [|a l IH]; [destruct Hs|]. cbn [map combine]. destruct Hs as [->|Hs]; [now left|right; exact (IH Hs)].
    + now rewrite map_map, nth_error_map, Eg.
Qed.
Lemma true_fval im s v : recognisable im -> In s all_strategies -> (true6 z im s v <-> v = fval_of z im s).
Proof.
  intros R Hs. destruct (rotate90_law im (proj1 R)) as (r & Er & _). pose proof (fval_of_feature z Hz im r R Er s Hs) as F. split.
  - intros (r' & Er' & E). assert (r' = r) by congruence. subst r'. congruence.
  - intros ->. exists r. auto.
Qed.
Lemma simple_fval im s : recognisable im -> In s simple_strategies -> fval_of z im s = VNum (Ocr6Model.num (fval_of z im s)) /\ 0 <= Ocr6Model.num (fval_of z im s) <= range s.
Proof.
  intros R Hs. destruct (rotate90_law im (proj1 R)) as (r & Er & _). pose proof (fval_of_feature z Hz im r R Er s (simple_in_all s Hs)) as F.
  destruct (simple_feature (mkin (fun _ => 0) z im r) (some_sound z Hz im r R Er) s Hs) as (_ & E & B & _).
  assert (Ef : fv (mkin (fun _ => 0) z im r) s = fval_of z im s). { unfold fv. cbn [in_zsort in_img in_img90]. rewrite F. reflexivity. }
  rewrite Ef in *. destruct (fval_of z im s); try discriminate. cbn [Ocr6Model.num]. split; [reflexivity|]. exact B.
Qed.
Lemma table6_ok : table6 cols (Z.of_nat (List.length (words6 gs6))).
Proof.
  pose proof HT as (_ & Hn). constructor.
  - unfold feature_table. apply map_length.
  - intros s c Hc. apply in_feature_table in Hc as (Hs & ->). unfold words6. rewrite !map_length. split; [reflexivity|].
    intros v Hv. rewrite map_map in Hv. apply in_map_iff in Hv as (g & <- & Hg). apply gs6_In in Hg. destruct HT as (HT' & _). destruct (HT' g Hg) as (_ & R & _).
    destruct (rotate90_law (gl_img g) (proj1 R)) as (r & Er & _). exact (proj2 (fval_of_fits z Hz (gl_img g) r R Er s Hs)).
  - unfold words6. rewrite map_length, gs6_length. exact Hn.
  - intros i a Hc. apply cell_feature in Hc as (Hi & g & Eg & Ea); [|exact (simple_in_all _ first_simple)]. destruct (simple_fval (gl_img g) first_feature (proj1 (gs6_rec _ _ Eg)) first_simple) as (E & B).
    rewrite E in Ea. injection Ea as ->. change (range first_feature) with 200 in B. unfold tenth. apply Z.div_le_upper_bound; lia || (apply Z.div_le_upper_bound; lia).
  - intros i j a b Hij Ha Hb. apply cell_feature in Ha as (Hi & g & Eg & Ea); [|exact (simple_in_all _ first_simple)]. apply cell_feature in Hb as (Hj & h & Eh & Eb); [|exact (simple_in_all _ first_simple)].
    destruct (Z.eq_dec i j) as [->|Hne]; [rewrite Eg in Eh; injection Eh as <-; rewrite <- Ea in Eb; injection Eb as ->; lia|].
    destruct idx6_sorted as (P & S). destruct (perm_index _ _ P) as (_ & HI & _). unfold gs6, pick in Eg, Eh. rewrite nth_error_map in Eg, Eh.
    destruct (nth_error idx6 (Z.to_nat i)) as [p|] eqn:Ep; [|discriminate]. destruct (nth_error idx6 (Z.to_nat j)) as [q|] eqn:Eq'; [|discriminate]. cbn [option_map] in Eg, Eh. injection Eg as <-. injection Eh as <-.
    assert (Lt : index_lt (map (fun g => Ocr6Model.num (fval_of z (gl_img g) first_feature)) gs) q p = false).
    { clear - S Ep Eq' Hij Hne Hi Hj. assert (Hk : (Z.to_nat i < Z.to_nat j)%nat) by lia. revert Ep Eq' Hk. generalize (Z.to_nat i) (Z.to_nat j). clear - S. induction S as [|x l S IH F]; intros a b Ea Eb Hk; [destruct a; discriminate|].
      destruct b as [|b]; [lia|]. cbn [nth_error] in Eb. destruct a as [|a]; [injection Ea as ->; rewrite Forall_forall in F; apply F; exact (nth_error_In _ _ Eb)|]. cbn [nth_error] in Ea. apply (IH a b Ea Eb). lia. }
    unfold index_lt, cell_at in Lt.
    pose proof (HI p (nth_error_In _ _ Ep)) as Hp. pose proof (HI q (nth_error_In _ _ Eq')) as Hq.
    set (h := fun g => Ocr6Model.num (fval_of z (gl_img g) first_feature)) in *.
    assert (Nth : forall k, 0 <= k < Z.of_nat (List.length gs) -> nth (Z.to_nat k) (map h gs) 0 = h (nth (Z.to_nat k) gs no_glyph)).
    { intros k Hk. rewrite (nth_indep (map h gs) 0 (h no_glyph)) by (rewrite map_length; lia). apply map_nth. }
    rewrite !Nth in Lt by assumption. unfold h in Lt. rewrite <- Ea, <- Eb in Lt. cbn [Ocr6Model.num] in Lt. lia.
Qed.
Lemma words6_ok g : In g (words6 gs6) -> g <> [].
Proof.
  intros H E. unfold words6 in H. apply in_map_iff in H as (x & Ex & Hx). rewrite squeeze_unique in Ex. rewrite <- Ex in E. apply squeeze_nil in E. apply map_eq_nil in E.
  apply gs6_In in Hx. destruct HT as (HT' & _). destruct (HT' x Hx) as (_ & _ & V). congruence.
Qed.
Lemma load_all6_ok ws dict : dict_file ws dict -> exists nodes e, load_all6 rt (write_glyphs gs) datas dict = Ok (nodes, e) /\ load_optional read_dict [] dict = Ok nodes /\
  built6 z gs e /\ e6_rt e = rt.
Proof.
  intros Hd. destruct (load_dict ws dict Hd) as (nodes & En & _). pose proof HT as (Hg & Hn).
  assert (HS : Forall storable gs) by (apply Forall_forall; intros g H; apply (Hg g H)). assert (HR : Forall (fun g => recognisable (gl_img g)) gs) by (apply Forall_forall; intros g H; apply (Hg g H)).
  unfold vsize in Hn. destruct (write_datas_table z Hz junk cx0 gs HS HR ltac:(lia)) as (E1 & E2). rewrite ED in E1. injection E1 as ->.
  assert (HW : Z.of_nat (List.length (words6 gs6)) < 4294967296) by (unfold words6; rewrite map_length, gs6_length; lia).
  destruct (data_by_word_exact (words6 gs6) HW words6_ok) as (bw & Ebw & _). destruct (search6_exact cols _ table6_ok) as (sd & Esd & _).
  exists nodes, (mkenv6 rt cols sd (words6 gs6) bw). split; [|split; [exact En|split; [|reflexivity]]].
  - unfold load_all6. rewrite En. cbn [bind]. rewrite E2. cbn [bind]. destruct (read_glyphs_written gs HS) as (s & Eg & Es). unfold load_file. rewrite Eg. cbn [bind]. rewrite Es. cbn [bind].
    assert (Sz : datas_size (feature_table z (map gl_img gs)) = Z.of_nat (List.length gs)).
    { unfold feature_table. assert (A : exists a l, all_strategies = a :: l) by (eexists; eexists; reflexivity). destruct A as (a & l & ->). cbn [map datas_size]. rewrite !map_length. reflexivity. }
    rewrite Sz. unfold vsize at 1. rewrite Z.eqb_refl. cbn [negb]. fold (words6 gs). rewrite order6_ok. cbn [bind]. rewrite Ebw. cbn [bind]. rewrite Esd. reflexivity.
  - destruct HL as (_ & L2 & L3 & L4). split.
    + constructor; cbn [e6_cols e6_words e6_search e6_by_word e6_rt]; try assumption; [exact table6_ok|exact words6_ok].
    + exists gs6. split; [exact gs6_perm|]. cbn [e6_words e6_cols]. split; [unfold words6; apply map_length|]. intros i g Eg. split.
      * unfold labels6. rewrite Nat2Z.id. apply nth_error_nth. unfold words6. rewrite nth_error_map, Eg. cbn [option_map]. f_equal. apply squeeze_unique.
      * intros s v Hs. rewrite (cell_feature s _ v Hs), (true_fval _ s v (proj1 (gs6_rec _ _ Eg)) Hs), Nat2Z.id. split; [intros (_ & h & Eh & ->); congruence|intros ->; split; [lia|eauto]].
Qed.
End Load.

(** * Reading *)
Section Read.
Context (z : list Z -> list Z) (Hz : is_std_sort Z.ltb z) (gs : list glyph) (HT : trainable6 gs) (e : env6) (HB : built6 z gs e).
Local Notation zr := (r6_zones (e6_rt e)).
Local Notation N := (Z.of_nat (List.length (e6_words e))).
Lemma row_glyph i : 0 <= i < N -> exists g, In g gs /\ labels6 (e6_words e) i = squeeze (map vw_word (gl_views g)) /\
  forall s v, In s all_strategies -> (cell6 (e6_cols e) s i v <-> true6 z (gl_img g) s v).
Proof.
  intros Hi. destruct HB as (_ & gs' & P & L & H). destruct (nth_error gs' (Z.to_nat i)) as [g|] eqn:Eg.
  - exists g. split; [eapply Permutation_in; [apply Permutation_sym; exact P|exact (nth_error_In _ _ Eg)]|]. specialize (H _ _ Eg). rewrite Z2Nat.id in H by lia. exact H.
  - apply nth_error_None in Eg. lia.
Qed.
Lemma glyph_row g : In g gs -> exists i, 0 <= i < N /\ labels6 (e6_words e) i = squeeze (map vw_word (gl_views g)) /\
  forall s v, In s all_strategies -> (cell6 (e6_cols e) s i v <-> true6 z (gl_img g) s v).
Proof.
  intros Hg. destruct HB as (_ & gs' & P & L & H). apply (Permutation_in _ P) in Hg. apply In_nth_error in Hg as (k & Ek). exists (Z.of_nat k). split; [|apply H; exact Ek].
  assert (k < List.length gs')%nat by (apply nth_error_Some; congruence). lia.
Qed.
Lemma seen_any im s v : seen6 zr im s v <-> seen6 z im s v.
Proof. destruct HB as (HE & _). pose proof (se_zones e HE) as Z1. split; apply true6_any; assumption. Qed.
Lemma close_near im value i : (forall s, In s simple_strategies -> seen6 zr im s (VNum (value s))) -> close6 (e6_cols e) N value i ->
  exists g, In g gs /\ labels6 (e6_words e) i = squeeze (map vw_word (gl_views g)) /\ near6 z im g.
Proof.
  intros Sv (Hi & C1 & C2). destruct (row_glyph i Hi) as (g & Hg & Lb & Cg). exists g. split; [exact Hg|]. split; [exact Lb|]. intros s a b Hs Sa Tb.
  assert (Ea : a = value s).
  { specialize (Sv s Hs). apply seen_any in Sv. destruct Sa as (r & Er & Ea). destruct Sv as (r' & Er' & Ev). assert (r' = r) by congruence. subst r'. rewrite Ea in Ev. now injection Ev. }
  subst a. apply Cg in Tb; [|now apply simple_in_all]. destruct (strategy_eqb s first_feature) eqn:E.
  - apply strategy_eqb_eq in E. subst s. rewrite <- (Z.abs_opp), Z.opp_sub_distr, Z.add_comm, Z.add_opp_r. exact (C1 b Tb).
  - assert (Ne : s <> first_feature) by (intros Q; apply strategy_eqb_eq in Q; congruence).
    rewrite (C2 s b Hs Ne Tb), Z.sub_diag. cbn. lia.
Qed.
Lemma found_named im f : recognisable im -> recognised6 (recognise6 e) im f -> named6 z gs im (f6_words f).
Proof.
  intros R Rf. pose proof HB as (HE & _). destruct (recognise6_exact e 0 im HE R) as (O & _). destruct (O f (Rf 0)) as (value & Sv & D). cbv zeta in D.
  assert (Lab : forall ks w, (forall k, In k ks -> close6 (e6_cols e) N value k) -> In w (flat_map (labels6 (e6_words e)) ks) -> exists g, In g gs /\ near6 z im g /\ In w (map vw_word (gl_views g))).
  { intros ks w Hk Hw. apply in_flat_map in Hw as (k & Ik & Hw). destruct (close_near im value k Sv (Hk k Ik)) as (g & Hg & Lb & Ng). exists g. rewrite Lb, squeeze_In in Hw. repeat split; assumption. }
  destruct D as [(_ & ->)|[(ks & w & En & H & ->)|(_ & k & w & l & _ & _ & [(_ & ->)|(ks & w2 & En & H & ->)])]]; cbn [f6_words]; intros x Hx.
  - left. destruct Hx as [<-|[]]. reflexivity.
  - right. apply (Lab ks x); [|exact Hx]. intros k Hk. apply (en_kept _ _ _ En) in Hk. apply Hk.
  - left. destruct Hx as [<-|[]]. reflexivity.
  - right. apply (Lab ks x); [|exact Hx]. intros j Hj. apply (en_kept _ _ _ En) in Hj. apply Hj.
Qed.
Lemma same_identified im g : In g gs -> same6 z im g -> exists i, identified6 zr im (e6_cols e) N i /\ labels6 (e6_words e) i = squeeze (map vw_word (gl_views g)).
Proof.
  intros Hg Sg. destruct (glyph_row g Hg) as (i & Hi & Lb & Cg). exists i. split; [|exact Lb]. split; [exact Hi|]. intros s a b Hs Ca Sb. symmetry.
  apply (Sg s b a Hs); [now apply seen_any|]. apply Cg; [now apply simple_in_all|exact Ca].
Qed.
Lemma found_complete im f : recognisable im -> recognised6 (recognise6 e) im f -> complete6 z gs im (f6_words f).
Proof.
  intros R Rf g w Hg Sg Hw. pose proof HB as (HE & _). destruct (same_identified im g Hg Sg) as (i & Hi & Lb).
  destruct (identified6_ok e 0 im i HE R Hi) as (f' & Ef & _ & I). rewrite (Rf 0) in Ef. injection Ef as <-. apply I. rewrite Lb. now apply squeeze_In.
Qed.
Lemma comparable_rows im : comparable_glyphs z gs im -> comparable6 zr im (e6_cols e).
Proof.
  intros D j a b0 Sa Cb. pose proof HB as (HE & _). assert (Hj : 0 <= j < N).
  { destruct Cb as (Hj & c & Hc & En). split; [exact Hj|]. pose proof (se_table e HE) as T. destruct (t6_rows _ _ T _ _ Hc) as (L & _). assert (Z.to_nat j < List.length c)%nat by (apply nth_error_Some; congruence). lia. }
  destruct (row_glyph j Hj) as (g & Hg & _ & Cg). apply Cg in Cb; [|cbv; tauto]. split.
  - assert (Rg : recognisable (gl_img g)) by (destruct HT as (HT' & _); apply (HT' g Hg)). destruct (rotate90_law (gl_img g) (proj1 Rg)) as (r & Er & _).
    destruct (pz_feature (mkin (fun _ => 0) z (gl_img g) r) (some_sound z Hz (gl_img g) r Rg Er)) as (F & l & El & Bl & _). destruct Cb as (r' & Er' & Eb). assert (r' = r) by congruence. subst r'.
    unfold feature in F. cbn [in_zsort in_img in_img90] in F. rewrite El in F. rewrite F in Eb. injection Eb as ->. exact Bl.
  - apply (D g a b0 Hg); [now apply seen_any|exact Cb].
Qed.
Lemma readable_can img b : readable6 z gs img b -> can_read6 (recognise6 e) img b.
Proof.
  intros H im Ci. destruct (H im Ci) as (R & D). pose proof HB as (HE & _). destruct (recognise6_all e 0 im HE R) as (_ & Ex & _).
  destruct Ex as (f & Ef); [|exists f; eapply recognised6_of; [now apply recognise6_steady| |]; eassumption]. destruct D as [D|(g & Hg & Sg)].
  - left. now apply comparable_rows.
  - right. destruct (same_identified im g Hg Sg) as (i & Hi & _). eauto.
Qed.
End Read.

Lemma line6_words rec img x before boxes fs amb : line6 rec img x before boxes fs amb -> forall l, In l amb -> l = [str " "] \/ exists f, In f fs /\ (l = f6_words f \/ l = f6_amb f).
Proof.
  induction 1 as [|x before b boxes f fs l amb im Ci Rf Hl L IH]; intros y Hy; [destruct Hy|]. apply in_app_or in Hy. destruct Hy as [Hy|[<-|Hy]].
  - destruct (_ <? _); [|destruct Hy]. destruct Hy as [<-|[]]. now left.
  - right. exists f. split; [now left|]. destruct Hl as [(_ & ->)|(_ & ->)]; auto.
  - destruct (IH y Hy) as [->|(f' & Hf & E)]; [now left|]. right. exists f'. split; [now right|exact E].
Qed.
Lemma line6_found rec img x before boxes fs amb : line6 rec img x before boxes fs amb -> Forall2 (fun b f => exists im, char_image img b im /\ recognised6 rec im f) boxes fs.
Proof. induction 1; constructor; eauto. Qed.

Theorem read6 rt gs junk z cx0 datas bytes img boxes dict spell : legal6 rt -> trainable6 gs -> is_std_sort Z.ltb z ->
  write_datas_file junk z cx0 (write_glyphs gs) = Ok (Some datas) -> image_of_bytes bytes 128 = Ok img -> box_searchable img -> segment img = Ok boxes ->
  Forall (readable6 z gs img) boxes -> dict_spell (labels gs) dict spell ->
  exists e fs amb, built6 z gs e /\ line6 (recognise6 e) img 0 [] boxes fs amb /\
    Forall2 (fun b f => forall im, char_image img b im -> named6 z gs im (f6_words f) /\ complete6 z gs im (f6_words f)) boxes fs /\
    extract_text6 rt (write_glyphs gs) datas bytes dict = Ok (spaced f6_r1 fs, spaced f6_r2 fs, text6 spell amb).
Proof.
  intros HL HT Hz ED EI Hs Eb F Hd. destruct (load_all6_ok rt HL gs HT junk z Hz cx0 datas ED (labels gs) dict (spell_file _ _ _ Hd)) as (nodes & e & EL & En & HB & _).
  pose proof HB as (HE & _).
  assert (Sm : Forall (small_character img) boxes) by (eapply Forall_impl; [|exact F]; intros b H im Him; apply (H im Him)).
  destruct (read_line6_reads e HE img Hs boxes Eb Sm) as (R1 & R2). destruct R1 as (s & Es); [eapply Forall_impl; [|exact F]; intros b; apply readable_can; assumption|].
  destruct (R2 s Es) as (fs & L & Q1 & Q2). exists e, fs, (q_amb s). split; [exact HB|]. split; [exact L|].
  assert (Fd : Forall2 (fun b f => forall im, char_image img b im -> named6 z gs im (f6_words f) /\ complete6 z gs im (f6_words f)) boxes fs).
  { pose proof (line6_found _ _ _ _ _ _ _ L) as F2. clear - F2 F HB Hz HT. induction F2 as [|b f boxes fs (im & Ci & Rf) F2 IH]; constructor.
    - inversion F as [|? ? Fb _]; subst. intros im' Ci'. rewrite (char_image_unique img b im' im Ci' Ci). assert (R : recognisable im) by apply (Fb im Ci). split; [eapply found_named; eassumption|eapply found_complete; eassumption].
    - inversion F; subst. auto. }
  split; [exact Fd|]. unfold extract_text6. rewrite EL. cbn [bind]. rewrite EI. cbn [bind]. rewrite Es. cbn [bind].
  rewrite (assemble6_exact nodes spell (q_amb s)); [cbn [bind]; rewrite Q1, Q2; reflexivity|].
  destruct Hd as [(-> & ->)|(sort & words & nodes' & -> & D1 & D2 & D3 & D4 & D5 & D6 & ->)].
  - cbn in En. injection En as <-. intros ps out Ne _. destruct ps; [congruence|reflexivity].
  - assert (nodes' = nodes).
    { cbn [load_optional] in En. pose proof (dict_file_round_trip nodes' (LearnProofs2.dictionary_storable sort words nodes' D1 D2 D3 D4 D5)) as Rt. congruence. }
    subst nodes'. intros ps out Ne P. destruct (disambiguous_first_single sort words ps out D1 D2 D3 D4) as (n' & X1 & X2); [|congruence].
    apply Forall_forall. intros l Hl. apply Forall_forall. intros w Hw. apply P in Hl. destruct (line6_words _ _ _ _ _ _ _ L l Hl) as [->|(f & Hf & El)].
    + destruct Hw as [<-|[]]. exists 32. split; [unfold is_char; lia|reflexivity].
    + assert (Hw' : In w (f6_words f) \/ w = unknown).
      { pose proof (line6_found _ _ _ _ _ _ _ L) as F2. clear - F2 F Hf El Hw HE. induction F2 as [|b f' boxes fs (im & Ci & Rf) F2 IH]; [destruct Hf|]. inversion F as [|? ? Fb F']; subst. destruct Hf as [->|Hf]; [|auto].
        destruct (found6_shape e im f HE (proj1 (Fb im Ci)) Rf) as (_ & _ & [A|(A & B)]); destruct El as [->| ->]; rewrite ?A in Hw; auto. destruct Hw. }
      assert (Hn : exists b im, In b boxes /\ char_image img b im /\ recognisable im /\ recognised6 (recognise6 e) im f).
      { pose proof (line6_found _ _ _ _ _ _ _ L) as F2. clear - F2 F Hf. induction F2 as [|b f' boxes fs (im & Ci & Rf) F2 IH]; [destruct Hf|]. inversion F as [|? ? Fb F']; subst. destruct Hf as [->|Hf].
        - exists b, im. split; [now left|]. split; [exact Ci|]. split; [apply (Fb im Ci)|exact Rf].
        - destruct (IH F' Hf) as (b' & im' & H1 & H2). exists b', im'. split; [now right|exact H2]. }
      destruct Hn as (b & im & _ & _ & Ri & Rf).
      assert (D : w = unknown \/ In w (labels gs)).
      { destruct Hw' as [Hw'|Hw']; [|now left]. destruct (found_named z Hz gs e HB im f Ri Rf w Hw') as [->|(g & Hg & _ & Hv)]; [now left|right]. apply in_map_iff in Hv as (v & <- & Hv). exact (label_in gs g v Hg Hv). }
      destruct D as [->|D]; [exists 95; split; [unfold is_char; lia|reflexivity]|]. rewrite Forall_forall in D6. apply D6. exact D.
Qed.
