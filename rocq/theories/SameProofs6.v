(** What extract_text6 prints does not depend on what the standard leaves open: the line
    and the program. *)
From Verif Require Import Base BaseProofs SortModel ImageModel ImageSpec PnmModel BoxModel BoxSpec BoxProofs StratModel StratSpec ZoneModel DatasModel DatasSpec DatasProofs StreamModel GlyphIoModel GlyphIoSpec GlyphIoProofs DatasIoModel DictIoModel
  TrieModel UtilModel IndexModel FloatModel FloatSpec FloatProofs
  FormatModel RecogModel RecogSpec RecogProofs ExtractModel ExtractSpec ExtractProofs LearnModel PipelineModel PipelineSpec ReadSpec ReadProofs Ocr6Model Ocr6Spec Ocr6Proofs Ocr6Proofs2 OcrProofs Ocr6Proofs3 Ocr6Proofs4 Ocr6Proofs5
  ShowModel PrintModel PrintSpec PrintProofs OcrOutModel OcrOutSpec OcrOutProofs OcrOutProofs2 OcrOutProofs3 SameProofs Same6Spec SameProofs4 SameProofs5.
From Coq Require Import Sorted SpecFloat Permutation.

(** * The candidates *)
Lemma close_ext cols n v v' i : (forall s, In s simple_strategies -> v s = v' s) -> (close6 cols n v i <-> close6 cols n v' i).
Proof.
  intros Ev. unfold close6. rewrite (Ev _ first_simple). split; intros (A & B & C); (split; [exact A|split; [exact B|]]); intros s a Hs Ne Ca; [rewrite <- (Ev s Hs)|rewrite (Ev s Hs)]; exact (C s a Hs Ne Ca).
Qed.
Lemma found_ext cols n v v' ps : (forall s, In s simple_strategies -> v s = v' s) -> found_candidates cols n v ps -> found_candidates cols n v' ps.
Proof.
  intros Ev (A & B & C). split; [exact A|]. split; [intros i; rewrite (B i); now apply close_ext|]. intros p Hp a Ca. rewrite <- (Ev _ first_simple). exact (C p Hp a Ca).
Qed.
Lemma found_score cols n v ps p : table6 cols n -> found_candidates cols n v ps -> In p ps -> 0 <= pr_i p < n /\ (pr_p p = d1 <-> certain6 cols n v (pr_i p)) /\ (pr_p p = d0 <-> ~ certain6 cols n v (pr_i p)) /\ (pr_p p = d1 \/ pr_p p = d0).
Proof.
  intros T (_ & Mem & Sc) Hp. assert (Hc : close6 cols n v (pr_i p)) by (apply Mem; now apply in_map). split; [apply Hc|].
  destruct (simple_val cols n T first_feature (pr_i p) first_simple (proj1 Hc)) as (_ & C & U & _). specialize (Sc p Hp _ C).
  assert (K : certain6 cols n v (pr_i p) <-> pr_p p = d1).
  { split.
    - intros (_ & H). rewrite Sc. rewrite (H _ C), Z.eqb_refl. reflexivity.
    - intros E. split; [exact Hc|]. intros a Ha. rewrite (U _ Ha). rewrite Sc in E. destruct (Z.eqb_spec (tenth (val cols first_feature (pr_i p))) (tenth (v first_feature))) as [Q|Q]; [exact Q|discriminate E]. }
  assert (O : pr_p p = d1 \/ pr_p p = d0) by (rewrite Sc; destruct (_ =? _); auto). split; [tauto|]. split; [|exact O].
  split; [intros E H; apply K in H; rewrite H in E; discriminate E|]. intros N. destruct O as [O|O]; [|exact O]. destruct N. now apply K.
Qed.
Lemma found_in cols n v ps p q : table6 cols n -> found_candidates cols n v ps -> In p ps -> In q ps -> pr_i p = pr_i q -> p = q.
Proof.
  intros T F Hp Hq E. destruct F as (_ & Mem & Sc). assert (Hc : close6 cols n v (pr_i p)) by (apply Mem; now apply in_map).
  destruct (simple_val cols n T first_feature (pr_i p) first_simple (proj1 Hc)) as (_ & C & _). pose proof (Sc p Hp _ C) as E1. rewrite E in C. pose proof (Sc q Hq _ C) as E2.
  destruct p as [i x], q as [j y]. cbn [pr_i pr_p] in *. rewrite E in E1. now subst.
Qed.
Lemma found_moved f n cols cols' words words' v ps ps' : moves f n cols words cols' words' -> table6 cols n -> table6 cols' n -> found_candidates cols n v ps -> found_candidates cols' n v ps' ->
  (forall p, In p ps' -> In (mkpr (f (pr_i p)) (pr_p p)) ps) /\ (forall p, In p ps -> exists i, 0 <= i < n /\ f i = pr_i p /\ In (mkpr i (pr_p p)) ps').
Proof.
  intros HM T T' F F'.
  assert (Sc : forall p q, In p ps -> In q ps' -> f (pr_i q) = pr_i p -> pr_p q = pr_p p).
  { intros p q Hp Hq E. destruct (found_score cols n v ps p T F Hp) as (_ & A1 & A0 & _). destruct (found_score cols' n v ps' q T' F' Hq) as (Hi & B1 & B0 & B).
    rewrite (moved_certain f n cols cols' words words' HM v (pr_i q) Hi), E in B1, B0. destruct B as [B|B]; rewrite B; symmetry; tauto. }
  split.
  - intros q Hq. destruct (found_score cols' n v ps' q T' F' Hq) as (Hi & _). assert (C : close6 cols n v (f (pr_i q))).
    { apply (moved_close f n cols cols' words words' HM v _ Hi). apply F'. now apply in_map. }
    apply F in C. apply in_map_iff in C as (p & Ep & Hp). rewrite (Sc p q Hp Hq (eq_sym Ep)), <- Ep. now destruct p.
  - intros p Hp. destruct (found_score cols n v ps p T F Hp) as (Hi & _). destruct (mv_all _ _ _ _ _ _ HM _ Hi) as (i & Hi2 & Ei). exists i. split; [exact Hi2|]. split; [exact Ei|].
    assert (C : close6 cols' n v i). { apply (moved_close f n cols cols' words words' HM v _ Hi2). rewrite Ei. apply F. now apply in_map. }
    apply F' in C. apply in_map_iff in C as (q & Eq & Hq). rewrite <- (Sc p q Hp Hq) by congruence. subst i. now destruct q.
Qed.
Lemma candidates_of e im im90 n : sound_env6 e -> recognisable im -> rotate90 im = Ok im90 ->
  exists vs v ps, map_res (load6 (r6_junk (e6_rt e) n) (r6_zones (e6_rt e)) im im90) algos6 = Ok vs /\
    candidates6 (vsize (e6_words e)) (e6_cols e) (e6_search e) (map Ocr6Model.num vs) = Ok ps /\
    (forall s, In s simple_strategies -> seen6 (r6_zones (e6_rt e)) im s (VNum (v s))) /\ found_candidates (e6_cols e) (Z.of_nat (List.length (e6_words e))) v ps.
Proof.
  intros HE HR H90. pose proof (sound_base e HE) as HB. destruct (load_algos _ _ _ _ HB im im90 HR H90 (r6_junk (e6_rt e) n)) as (vs & E & Evs). exists vs, (value (e6_rt e) im im90 (r6_junk (e6_rt e) n)).
  destruct (search6_exact (e6_cols e) _ (se_table e HE)) as (sd & Es & H). rewrite (se_search e HE) in Es. injection Es as <-.
  destruct (H _ (value_range _ _ _ _ HB im im90 HR H90 (r6_junk (e6_rt e) n))) as (ps & Ep & F). exists ps. split; [exact E|]. split; [rewrite Evs; exact Ep|]. split; [|exact F].
  intros s Hs. apply (seen_sv _ _ _ _ HB im im90 HR H90 (r6_junk (e6_rt e) n)); [now apply simple_in_all|]. symmetry. now apply (simple_sv _ _ _ _ HB im im90 HR H90 (r6_junk (e6_rt e) n)).
Qed.

(** * A picture *)
Theorem recognise_out6_same nan z gs e e' n n' im : is_std_sort Z.ltb z -> trainable6 gs -> built6 z gs e -> built6 z gs e' -> recognisable im ->
  comparable_glyphs z gs im \/ (exists g, In g gs /\ same6 z im g) -> untied6 z gs im -> recognise_out6 nan e n im = recognise_out6 nan e' n' im.
Proof.
  intros Hz HT HB HB' R D U. pose proof HB as (HE & _). pose proof HB' as (HE' & _). destruct (recognisable_turn im R) as (im90 & H90).
  destruct (built_moves z gs e e' HB HB') as (f & HM). pose proof (built_size z gs e HB) as S1. pose proof (built_size z gs e' HB') as S2.
  destruct (candidates_of e im im90 n HE R H90) as (vs & v & ps & E1 & E2 & Sv & F). destruct (candidates_of e' im im90 n' HE' R H90) as (vs' & v' & ps' & E1' & E2' & Sv' & F').
  unfold recognise_out6. rewrite H90. cbn [bind]. cbv zeta. rewrite E1, E1'. cbn [bind]. rewrite E2, E2'. cbn [bind].
  pose proof (se_table e HE) as T. pose proof (se_table e' HE') as T'. rewrite S1 in T, F. rewrite S2 in T', F'.
  assert (Ev : forall s, In s simple_strategies -> v' s = v s).
  { intros s Hs. pose proof (proj1 (seen_any z Hz gs e HB im s _) (Sv s Hs)) as A. pose proof (proj1 (seen_any z Hz gs e' HB' im s _) (Sv' s Hs)) as B. pose proof (seen6_unique _ _ _ _ _ B A). congruence. }
  apply (found_ext _ _ _ v _ Ev) in F'. destruct (found_moved f _ _ _ _ _ v ps ps' HM T T' F F') as (M1 & M2).
  assert (Bd : forall cs qs, table6 cs (Z.of_nat (List.length gs)) -> found_candidates cs (Z.of_nat (List.length gs)) v qs -> forall p, In p qs -> unitp p /\ 0 <= pr_i p < Z.of_nat (List.length gs)).
  { intros cs qs Tc Fc p Hp. destruct (found_score cs _ v qs p Tc Fc Hp) as (Hi & _ & _ & O). split; [|exact Hi]. unfold unitp. destruct O as [-> | ->]; [apply unit_d1|now left]. }
  assert (Gl : forall p, In p ps -> exists g, In g gs /\ labels6 (e6_words e) (pr_i p) = words_of6 g /\ near6 z im g /\ (pr_p p = d1 <-> same6 z im g)).
  { intros p Hp. destruct (found_score _ _ v ps p T F Hp) as (_ & K & _). assert (C : close6 (e6_cols e) (Z.of_nat (List.length gs)) v (pr_i p)) by (apply F; now apply in_map).
    rewrite <- S1 in C. destruct (close_glyph z Hz gs e HB im v Sv (pr_i p) C) as (g & Hg & Lb & Ng & Kg). exists g. split; [exact Hg|]. split; [exact Lb|]. split; [exact Ng|]. rewrite S1 in Kg. rewrite K. exact Kg. }
  assert (Uw : forall p q, In p ps -> In q ps -> pr_p p = pr_p q -> labels6 (e6_words e) (pr_i p) = labels6 (e6_words e) (pr_i q)).
  { intros p q Hp Hq E. destruct (Gl p Hp) as (g & Hg & -> & Ng & Kg). destruct (Gl q Hq) as (h & Hh & -> & Nh & Kh). apply U; try assumption. rewrite <- Kg, <- Kh, E. reflexivity. }
  apply (decide_out_same _ _ _ _ _ _ _ _ (sound_base e HE) (sound_base e' HE') im im90 R H90 _ _ f _ HM nan ps ps' (Bd _ _ T F) (Bd _ _ T' F') M1 M2 Uw).
  assert (Ds : (exists p, In p ps /\ pr_p p = d1) \/ forall p, In p ps -> pr_p p = d0).
  { assert (O : forall p, In p ps -> pr_p p = d1 \/ pr_p p = d0) by (intros p Hp; exact (proj2 (proj2 (proj2 (found_score _ _ v ps p T F Hp))))). clear - O.
    induction ps as [|p ps IH]; [right; intros ? []|]. destruct (O p (or_introl eq_refl)) as [E|E]; [left; exists p; split; [now left|exact E]|].
    destruct IH as [(q & Hq & Eq)|H]; [intros q Hq; apply O; now right|left; exists q; split; [now right|exact Eq]|right]. intros q [<-|Hq]; [exact E|now apply H]. }
  destruct Ds as [(p & Hp & Ep)|Z0]; [left; exists p; split; [exact Hp|rewrite Ep; reflexivity]|]. right.
  destruct D as [D|(g & Hg & Sg)].
  - split; [exact (comparable_rows z Hz gs HT e HB im D)|]. split; [exact (comparable_rows z Hz gs HT e' HB' im D)|]. intros p q x Hp Hq _ _ _ _. apply Uw; try assumption. rewrite (Z0 p Hp), (Z0 q Hq). reflexivity.
  - exfalso. destruct (same_certain z Hz gs e HB im v Sv g Hg Sg) as (i & Ci). rewrite S1 in Ci. pose proof (proj1 Ci) as C. apply F in C. apply in_map_iff in C as (p & <- & Hp).
    destruct (found_score _ _ v ps p T F Hp) as (_ & K & _). apply K in Ci. rewrite (Z0 p Hp) in Ci. discriminate Ci.
Qed.

(** * The line *)
Section Line.
Context (img : image) (Hs : box_searchable img).
Lemma step6_x r s b s' : step6 r img s b = Ok s' -> q_x s' = u32 (bx b + bw b).
Proof.
  unfold step6. destruct (section _ _ _ _ _) as [im| | |]; try discriminate. cbn [bind]. cbv zeta. destruct (cache_find _ _) as [[k|]| | |]; try discriminate; cbn [bind].
  - destruct (rd (q_store s) k) as [(w, l)| | |]; try discriminate. cbn [bind]. destruct (rd l 0); try discriminate. cbn [bind]. now intros [= <-].
  - destruct (r _ im); try discriminate. cbn [bind]. destruct (cache_emplace _ _ _); try discriminate. cbn [bind]. now intros [= <-].
Qed.
Lemma step_out_x r s t b s' t' : step_out r img s t b = Ok (s', t') -> q_x s' = u32 (bx b + bw b).
Proof.
  unfold step_out. destruct (section _ _ _ _ _) as [im| | |]; try discriminate. cbn [bind]. cbv zeta. destruct (cache_find _ _) as [[k|]| | |]; try discriminate; cbn [bind].
  - destruct (rd (q_store s) k) as [(w, l)| | |]; try discriminate. cbn [bind]. destruct (rd l 0); try discriminate. cbn [bind]. now intros [= <- <-].
  - destruct (show_image im); try discriminate. cbn [bind]. destruct (r _ im) as [(f, u)| | |]; try discriminate. cbn [bind]. destruct (cache_emplace _ _ _); try discriminate. cbn [bind]. now intros [= <- <-].
Qed.
Lemma loop6_same (rec rec' : Z -> image -> res found6) x boxes : scan img x boxes -> (forall b im n, In b boxes -> char_image img b im -> rec n im = rec' n im) ->
  forall fuel s, q_x s = x -> loop fuel (body6 rec img) s = loop fuel (body6 rec' img) s.
Proof.
  assert (HW2 : iw img < 2147483648) by (destruct Hs as (_ & ? & ? & ?); nia).
  intros Sc. induction Sc as [x b Eb B0|x b rest Eb B1 T H0 H1 H2 H3 Sc IH]; intros Hr fuel s <-; (destruct fuel as [|fuel]; [reflexivity|]); cbn [loop]; unfold body6 at 1 3; rewrite Eb; cbn [bind]; [rewrite B0; reflexivity|]. rewrite B1.
  destruct (char_section img Hs (q_x s) b T H0) as (im & Es & Ci).
  assert (E : step6 rec img s b = step6 rec' img s b) by (unfold step6; rewrite Es; cbn [bind]; rewrite (Hr b im (vsize (q_store s)) (or_introl eq_refl) Ci); reflexivity). rewrite E.
  destruct (step6 rec' img s b) as [s1| | |] eqn:E1; try reflexivity. cbn [bind]. apply IH; [intros b' im' n' Hb; apply Hr; now right|]. rewrite (step6_x _ _ _ _ E1). apply u32_small. unfold tight_box in T. lia.
Qed.
Lemma loop_out_same (out out' : Z -> image -> res (found6 * list Z)) x boxes : scan img x boxes -> (forall b im n, In b boxes -> char_image img b im -> out n im = out' n im) ->
  forall fuel s t, q_x s = x -> loop fuel (body_out out img) (s, t) = loop fuel (body_out out' img) (s, t).
Proof.
  assert (HW2 : iw img < 2147483648) by (destruct Hs as (_ & ? & ? & ?); nia).
  intros Sc. induction Sc as [x b Eb B0|x b rest Eb B1 T H0 H1 H2 H3 Sc IH]; intros Hr fuel s t <-; (destruct fuel as [|fuel]; [reflexivity|]); cbn [loop]; unfold body_out at 1 3; rewrite Eb; cbn [bind]; [rewrite B0; reflexivity|]. rewrite B1.
  destruct (char_section img Hs (q_x s) b T H0) as (im & Es & Ci).
  assert (E : step_out out img s t b = step_out out' img s t b) by (unfold step_out; rewrite Es; cbn [bind]; rewrite (Hr b im (vsize (q_store s)) (or_introl eq_refl) Ci); reflexivity). rewrite E.
  destruct (step_out out' img s t b) as [(s1, t1)| | |] eqn:E1; try reflexivity. cbn [bind]. apply IH; [intros b' im' n' Hb; apply Hr; now right|]. rewrite (step_out_x _ _ _ _ _ _ E1). apply u32_small. unfold tight_box in T. lia.
Qed.
Context (boxes : list box) (Eb : segment img = Ok boxes).
Lemma read_line6_same (rec rec' : Z -> image -> res found6) : (forall b im n, In b boxes -> char_image img b im -> rec n im = rec' n im) -> read_line6 rec img = read_line6 rec' img.
Proof. intros H. exact (loop6_same _ _ 0 boxes (scan_segment img boxes Hs Eb) H (S (Z.to_nat (iw img))) (mkst6 0 [] [] [] [] []) eq_refl). Qed.
Lemma read_line_out_same (out out' : Z -> image -> res (found6 * list Z)) : (forall b im n, In b boxes -> char_image img b im -> out n im = out' n im) -> read_line_out out img = read_line_out out' img.
Proof. intros H. exact (loop_out_same _ _ 0 boxes (scan_segment img boxes Hs Eb) H (S (Z.to_nat (iw img))) (mkst6 0 [] [] [] [] []) [] eq_refl). Qed.
End Line.
Lemma segment_some img : box_searchable img -> exists boxes, segment img = Ok boxes.
Proof.
  intros Hs. pose proof Hs as (_ & Hw & _). destruct (scan_loop img Hs (S (Z.to_nat (iw img))) 0 [] ltac:(lia) ltac:(lia)) as (rest & Er & _). exists ([] ++ rest). exact Er.
Qed.

(** * The program *)
Theorem extract_text6_same rt rt' gs junk z cx0 datas bytes img ws dict : legal6 rt -> legal6 rt' -> trainable6 gs -> is_std_sort Z.ltb z -> write_datas_file junk z cx0 (write_glyphs gs) = Ok (Some datas) ->
  dict_file ws dict -> image_of_bytes bytes 128 = Ok img -> line_pictures6 z gs (decided6 z gs) img ->
  extract_text6 rt (write_glyphs gs) datas bytes dict = extract_text6 rt' (write_glyphs gs) datas bytes dict.
Proof.
  intros HL HL' HT Hz ED Hd EI (Hs & HP). destruct (load_all6_ok rt HL gs HT junk z Hz cx0 datas ED ws dict Hd) as (nodes & e & EL & En & HB & _).
  destruct (load_all6_ok rt' HL' gs HT junk z Hz cx0 datas ED ws dict Hd) as (nodes' & e' & EL' & En' & HB' & _). rewrite En in En'. injection En' as <-.
  unfold extract_text6. rewrite EL, EL'. cbn [bind]. rewrite EI. cbn [bind]. destruct (segment_some img Hs) as (boxes & Eb).
  rewrite (read_line6_same img Hs boxes Eb (recognise6 e) (recognise6 e')); [reflexivity|].
  intros b im n Hb Ci. destruct (HP boxes b Eb Hb) as (Rd & Dc). destruct (Rd im Ci) as (R & D). exact (recognise6_same z gs e e' n n im Hz HT HB HB' R D (Dc im Ci)).
Qed.
Theorem main6_same rt rt' gs junk z cx0 datas bytes img ws dict nan disk prog args : legal6 rt -> legal6 rt' -> trainable6 gs -> is_std_sort Z.ltb z -> write_datas_file junk z cx0 (write_glyphs gs) = Ok (Some datas) ->
  dict_file ws dict -> image_of_bytes bytes 128 = Ok img -> line_pictures6 z gs (untied6 z gs) img -> files_are6 disk args (write_glyphs gs) datas bytes dict ->
  main6 rt nan disk (prog :: args) = main6 rt' nan disk (prog :: args).
Proof.
  intros HL HL' HT Hz ED Hd EI (Hs & HP) HF. destruct (load_all6_ok rt HL gs HT junk z Hz cx0 datas ED ws dict Hd) as (nodes & e & EL & En & HB & _).
  destruct (load_all6_ok rt' HL' gs HT junk z Hz cx0 datas ED ws dict Hd) as (nodes' & e' & EL' & En' & HB' & _). rewrite En in En'. injection En' as <-.
  destruct (main_loaded6 rt nan disk prog args _ _ _ _ _ _ HF EL) as (g1 & Eg & ->). destruct (main_loaded6 rt' nan disk prog args _ _ _ _ _ _ HF EL') as (g2 & Eg' & ->). rewrite Eg in Eg'. injection Eg' as <-.
  unfold image_out. cbn [load_image]. rewrite EI. cbn [attempt]. destruct (segment_some img Hs) as (boxes & Eb).
  rewrite (read_line_out_same img Hs boxes Eb (recognise_out6 nan e) (recognise_out6 nan e')); [reflexivity|].
  intros b im n Hb Ci. destruct (HP boxes b Eb Hb) as (Rd & Dc). destruct (Rd im Ci) as (R & D). exact (recognise_out6_same nan z gs e e' n n im Hz HT HB HB' R D (Dc im Ci)).
Qed.
Lemma untied_decided z gs im : untied6 z gs im -> decided6 z gs im.
Proof.
  intros U. assert (SN : forall g, same6 z im g -> near6 z im g) by (intros g H s a b Hs Sa Tb; rewrite (H s a b Hs Sa Tb), Z.sub_diag; cbn; destruct (strategy_eqb _ _); lia). split.
  - intros g h Hg Hh Sg Sh. apply U; auto. tauto.
  - intros N g h Hg Hh Ng Nh. apply U; auto. pose proof (N g Hg). pose proof (N h Hh). tauto.
Qed.
