(** extract_text8: when the glyphs can be loaded. *)
From Verif Require Import Base BaseProofs SortModel SortProofs ImageModel ImageSpec ImageProofs PnmModel BoxModel BoxSpec BoxProofs StratModel ZoneModel DatasModel DatasSpec DatasProofs UtfSpec StreamModel GlyphIoModel GlyphIoSpec GlyphIoProofs DatasIoModel DatasIoSpec DatasIoProofs DictIoModel DictIoProofs TrieModel TrieSpec TrieProofs FlatTrieProofs SpellModel SpellSpec SpellProofs UtilModel UtilProofs IndexModel IndexProofs FloatModel RecogModel RecogSpec RecogProofs GlyphsModel GlyphsProofs3 ExtractModel ExtractSpec ExtractProofs AssembleSpec LearnModel LearnSpec LearnProofs2 LearnProofs3 PipelineModel PipelineSpec PipelineProofs2 PipelineProofs4 ReadSpec ReadProofs Ocr6Model Ocr6Spec Ocr6Proofs Ocr6Proofs2 Ocr6Proofs3 Ocr6Proofs4 UtilSpec RecogProofs2 Ocr6Proofs5 OcrProofs Ocr8Model Ocr8Spec Ocr8Proofs Ocr8Proofs2.
From Coq Require Import Sorted Permutation.

Lemma get_col_some s : forall ss cols, In s ss -> List.length cols = List.length ss -> NoDup ss -> exists c, get_col ss cols s = Ok c /\ In (s, c) (combine ss cols).
Proof.
  intros ss cols Hs L ND. assert (X : exists c, In (s, c) (combine ss cols)).
  { clear ND. revert cols L. induction ss as [|t ss IH]; intros [|c cols] L; try discriminate; [destruct Hs|]. destruct Hs as [->|Hs]; [exists c; now left|]. destruct (IH Hs cols) as (c' & H); [cbn in L; lia|]. exists c'. now right. }
  destruct X as (c & Hc). exists c. split; [|exact Hc]. apply get_col_unique; assumption.
Qed.
Lemma count_repeat l1 a l2 : (2 <= count_occ Z.eq_dec (l1 ++ a :: a :: l2) a)%nat.
Proof. rewrite count_occ_app. cbn [count_occ]. destruct (Z.eq_dec a a); [lia|congruence]. Qed.

Section Order.
Context (rt : runtime8) (HL : legal8 rt) (cols : list (list fval)) (n : Z) (HR : rows8 cols n) (words : list (list (list Z))) (HW : Z.of_nat (List.length words) = n) (Hn : 1 < n).
Definition idx8 : list Z := match get_col all_strategies cols first6 with Ok c => r6_first (r8_base rt) (map Ocr6Model.num c) (zrange n) | _ => [] end.
Lemma size8 : datas_size cols = n.
Proof.
  pose proof HR as (L & _ & _). pose proof (col_length cols n HR) as C. assert (A : exists a l, all_strategies = a :: l) by (eexists; eexists; reflexivity). destruct A as (a & l & A). rewrite A in L.
  destruct cols as [|c cs]; [discriminate|]. cbn [datas_size]. apply C. now left.
Qed.
Lemma idx8_perm : Permutation (zrange n) idx8.
Proof.
  pose proof HR as (L & _ & _). destruct (get_col_some first6 all_strategies cols) as (c & E & Hc); [exact (simple_in_all _ first_simple)|exact L|exact all_strategies_NoDup|]. unfold idx8. rewrite E.
  pose proof HL as (L1 & _). apply L1. apply index_lt_strict_weak.
Qed.
Definition dup8 : list Z := dups cols n idx8.
Definition merged8 : list (list (list Z)) := fold_left (merge_w (r8_moved rt) idx8) dup8 words.
Lemma order8_eq : order8 rt cols words = (idx <- drop_duplicates dup8 idx8 ;; w <- reindex [] (fun _ => []) idx merged8 ;; cs <- map_res (reindex (VNum 0) moved_value idx) cols ;; Ok (cs, w)).
Proof.
  unfold order8. unfold vsize. rewrite HW. replace (1 <? n) with true by lia. pose proof HR as (L & _ & _).
  destruct (get_col_some first6 all_strategies cols) as (c & E & Hc); [exact (simple_in_all _ first_simple)|exact L|exact all_strategies_NoDup|]. rewrite E. cbn [bind]. cbv zeta. rewrite size8.
  assert (Ei : r6_first (r8_base rt) (map Ocr6Model.num c) (zrange n) = idx8) by (unfold idx8; rewrite E; reflexivity). rewrite Ei.
  rewrite (find_duplicates_ok cols n HR (r8_moved rt) idx8 idx8_perm words HW) by lia. reflexivity.
Qed.
Lemma dup8_bounds : StronglySorted Z.lt dup8 /\ forall d, In d dup8 -> 1 <= d < n.
Proof.
  split.
  - unfold dup8, dups. assert (S : StronglySorted Z.lt (zrange n)) by apply zrange_sorted. revert S. generalize (zrange n). induction 1 as [|x l S IH F]; [constructor|]. cbn [filter]. destruct (marked _ _ _); [|exact IH].
    constructor; [exact IH|]. apply Forall_forall. intros y Hy. apply filter_In in Hy. rewrite Forall_forall in F. apply F, Hy.
  - intros d Hd. apply dups_In in Hd as (B & Ne). assert (d <> 0) by (intros ->; congruence). lia.
Qed.
Lemma reindexed_cols idx : keeps n idx -> vsize idx = n -> exists cs, map_res (reindex (VNum 0) moved_value idx) cols = Ok cs.
Proof.
  intros K V. pose proof (col_length cols n HR) as C. clear - K V C. induction cols as [|c cs IH]; [eexists; reflexivity|]. cbn [map_res]. rewrite reindex_takes.
  - cbn [bind]. destruct IH as (cs' & ->); [intros; apply C; now right|]. eexists; reflexivity.
  - intros i Hi. unfold vsize. rewrite (C c (or_introl eq_refl)). now apply K.
  - unfold vsize in *. rewrite (C c (or_introl eq_refl)). exact V.
Qed.
Lemma merged8_length : Z.of_nat (List.length merged8) = n.
Proof. unfold merged8. rewrite merges_length. exact HW. Qed.
Lemma repeat_unlabelled l1 a l2 : keeps n (l1 ++ a :: a :: l2) -> vsize (l1 ++ a :: a :: l2) = n ->
  exists w, reindex [] (fun _ => []) (l1 ++ a :: a :: l2) merged8 = Ok w /\ In [] w.
Proof.
  intros K V. assert (L := merged8_length). rewrite reindex_takes; [|intros i Hi; unfold vsize; rewrite L; now apply K|unfold vsize in *; lia].
  eexists. split; [reflexivity|]. set (idx := l1 ++ a :: a :: l2) in *.
  assert (E : nth_error idx (S (List.length l1)) = Some a) by (unfold idx; rewrite nth_error_app2 by lia; replace (S (List.length l1) - List.length l1)%nat with 1%nat by lia; reflexivity).
  pose proof (takes_nth [] (fun _ => []) merged8 idx [] (S (List.length l1)) a E) as T.
  apply nth_error_In with (n := S (List.length l1)). rewrite T. f_equal. cbn [app].
  assert (F : firstn (S (List.length l1)) idx = l1 ++ [a]). { unfold idx. replace (S (List.length l1)) with (List.length l1 + 1)%nat by lia. rewrite firstn_app_2. reflexivity. }
  rewrite ?F. rewrite count_occ_app. cbn [count_occ]. destruct (Z.eq_dec a a); [|congruence]. rewrite Nat.add_comm. reflexivity.
Qed.
(** One duplicate, or three or more: undefined behaviour. *)
Lemma order8_UB : List.length dup8 = 1%nat \/ (3 <= List.length dup8)%nat -> ('(cs, w) <- order8 rt cols words ;; data_by_word w) = UB.
Proof.
  intros Hd. rewrite order8_eq. destruct dup8_bounds as (S & B). destruct dup8 as [|d0 [|d1 ds]] eqn:E.
  - cbn in Hd. lia.
  - rewrite dropped_one. reflexivity.
  - cbn in Hd. inversion S as [|? ? S1 F0]; subst. inversion S1 as [|? ? S2 F1]; subst. inversion F0 as [|? ? Lt0 _]; subst.
    destruct (perm_index n idx8 idx8_perm) as (_ & HI & HLn).
    assert (Hl : In (last (d0 :: d1 :: ds) 0) (d0 :: d1 :: ds)).
    { clear. generalize d0 (d1 :: ds). intros x l. revert x. induction l as [|y l IH]; intros x; [now left|]. right. apply IH. }
    destruct (dropped_many n d0 d1 ds idx8) as [->|(l1 & a & l2 & -> & K & V)]; [|..].
    + split; [specialize (B d0 (or_introl eq_refl)); lia|exact Lt0].
    + intros d Hd1. rewrite Forall_forall in F1. now apply F1.
    + intros ->. cbn in Hd. lia.
    + specialize (B _ Hl). unfold vsize. lia.
    + exact HI.
    + reflexivity.
    + cbn [bind]. assert (V' : vsize (l1 ++ a :: a :: l2) = n) by (rewrite V; unfold vsize; lia). destruct (repeat_unlabelled l1 a l2 K V') as (w & -> & Hw). cbn [bind].
      destruct (reindexed_cols _ K V') as (cs & ->). cbn [bind]. apply data_by_word_unlabelled. exact Hw.
Qed.
End Order.

(** * The glyphs *)
Lemma three_of_four {A} (Dec : forall x y : A, {x = y} + {x <> y}) (fs : list A) (a b c d g : A) : a <> b -> a <> c -> a <> d -> b <> c -> b <> d -> c <> d ->
  (forall x, In x [a; b; c; d] -> x <> g -> In x fs) -> (3 <= List.length fs)%nat.
Proof.
  intros H1 H2 H3 H4 H5 H6 F.
  assert (three : forall x y w, In x [a; b; c; d] -> In y [a; b; c; d] -> In w [a; b; c; d] -> x <> y -> x <> w -> y <> w -> x <> g -> y <> g -> w <> g -> (3 <= List.length fs)%nat).
  { intros x y w Ix Iy Iw N1 N2 N3 Nx Ny Nw. change 3%nat with (List.length [x; y; w]). apply NoDup_incl_length.
    - constructor; [intros [Q|[Q|[]]]; congruence|]. constructor; [intros [Q|[]]; congruence|]. constructor; [intros []|constructor].
    - intros q [<-|[<-|[<-|[]]]]; apply F; assumption. }
  destruct (Dec a g) as [Ea|Na]; [apply (three b c d); try congruence; cbn [In]; auto|].
  destruct (Dec b g) as [Eb|Nb]; [apply (three a c d); try congruence; cbn [In]; auto|].
  destruct (Dec c g) as [Ec|Nc]; [apply (three a b d); try congruence; cbn [In]; auto|].
  apply (three a b c); try congruence; cbn [In]; auto.
Qed.
Section Glyphs.
Context (rt : runtime8) (HL : legal8 rt) (gs : list glyph) (HT : trainable6 gs).
Context (junk : Z -> Z) (z : list Z -> list Z) (Hz : is_std_sort Z.ltb z) (cx0 : ctxs) (datas : list Z).
Hypothesis (ED : write_datas_file junk z cx0 (write_glyphs gs) = Ok (Some datas)).
Local Notation cols := (feature_table z (map gl_img gs)).
Local Notation n := (Z.of_nat (List.length gs)).
Lemma glyph_rec g : In g gs -> recognisable (gl_img g) /\ gl_views g <> [].
Proof. intros H. pose proof HT as (Hg & _). destruct (Hg g H) as (_ & R & V). auto. Qed.
Lemma rows8_glyphs : rows8 cols n.
Proof.
  pose proof HT as (Hg & Hn). split; [unfold feature_table; apply map_length|]. split; [unfold vsize in Hn; lia|]. intros s c Hc. apply in_feature_table in Hc as (Hs & ->). rewrite !map_length. split; [reflexivity|].
  intros v Hv. rewrite map_map in Hv. apply in_map_iff in Hv as (g & <- & Ig). destruct (glyph_rec g Ig) as (R & _). destruct (rotate90_law (gl_img g) (proj1 R)) as (r & Er & _). exact (proj2 (fval_of_fits z Hz (gl_img g) r R Er s Hs)).
Qed.
Definition features (g : glyph) : list fval := map (fval_of z (gl_img g)) all_strategies.
Lemma row8_glyph i g : nth_error gs i = Some g -> row8 cols (Z.of_nat i) = features g.
Proof.
  intros E. unfold row8, feature_table, features. rewrite map_map. apply map_ext. intros s. rewrite Nat2Z.id, map_map. apply nth_error_nth. now rewrite nth_error_map, E.
Qed.
Lemma differ_features g h : In g gs -> In h gs -> (differ_glyphs z g h <-> features g <> features h).
Proof.
  intros Hg Hh. destruct (glyph_rec g Hg) as (Rg & _). destruct (glyph_rec h Hh) as (Rh & _). split.
  - intros (s & a & b & Hs & Ta & Tb & Ne) E. apply (true_fval z Hz _ s a Rg Hs) in Ta. apply (true_fval z Hz _ s b Rh Hs) in Tb. apply Ne. rewrite Ta, Tb. exact (ext_in_map E s Hs).
  - intros Ne. assert (X : forall ss, map (fval_of z (gl_img g)) ss <> map (fval_of z (gl_img h)) ss -> exists s, In s ss /\ fval_of z (gl_img g) s <> fval_of z (gl_img h) s).
    { induction ss as [|s ss IH]; intros N; [now elim N|]. cbn [map] in N. destruct (fval_eqb (fval_of z (gl_img g) s) (fval_of z (gl_img h) s)) eqn:E.
      - apply fval_eqb_ok in E. destruct IH as (t & Ht & Nt); [intros Q; apply N; congruence|]. exists t. split; [now right|exact Nt].
      - exists s. split; [now left|]. intros Q. apply fval_eqb_ok in Q. congruence. }
    destruct (X all_strategies Ne) as (s & Hs & Ns). exists s, (fval_of z (gl_img g) s), (fval_of z (gl_img h) s). split; [exact Hs|]. split; [apply true_fval; auto|]. split; [apply true_fval; auto|exact Ns].
Qed.
Lemma words6_length : Z.of_nat (List.length (words6 gs)) = n. Proof. unfold words6. now rewrite map_length. Qed.
Lemma loading8 dict nodes : load_optional read_dict [] dict = Ok nodes ->
  load_all8 rt (write_glyphs gs) datas dict = ('(cs, w) <- order8 rt cols (words6 gs) ;; by_word <- data_by_word w ;; Ok (nodes, mkenv8 (r8_base rt) cs w by_word)).
Proof.
  intros En. pose proof HT as (Hg & Hn).
  assert (HS : Forall storable gs) by (apply Forall_forall; intros g H; apply (Hg g H)). assert (HR : Forall (fun g => recognisable (gl_img g)) gs) by (apply Forall_forall; intros g H; apply (Hg g H)).
  unfold vsize in Hn. destruct (write_datas_table z Hz junk cx0 gs HS HR ltac:(lia)) as (E1 & E2). rewrite ED in E1. injection E1 as ->.
  unfold load_all8. rewrite En. cbn [bind]. rewrite E2. cbn [bind]. destruct (read_glyphs_written gs HS) as (s & Eg & Es). unfold load_file. rewrite Eg. cbn [bind]. rewrite Es. cbn [bind].
  rewrite (size8 _ _ rows8_glyphs). unfold vsize at 1. rewrite Z.eqb_refl. reflexivity.
Qed.
(** The glyphs other than the first in the order. *)
Lemma others8_first : 1 < n -> exists g ds, nth_error gs (Z.to_nat (ip (idx8 rt cols n) 0)) = Some g /\ others8 z gs (Z.to_nat (ip (idx8 rt cols n) 0)) ds /\ List.length ds = List.length (dup8 rt cols n).
Proof.
  intros Hn. pose proof (idx8_perm rt HL cols n rows8_glyphs) as P. destruct (perm_index n _ P) as (ND & HI & HLn). set (idx := idx8 rt cols n) in *.
  assert (Hip : forall p, 0 <= p < n -> In (ip idx p) idx) by (intros p Hp; apply nth_In; lia).
  assert (H0 : 0 <= ip idx 0 < n) by (apply HI, Hip; lia).
  assert (G : forall i, 0 <= i < n -> exists g, nth_error gs (Z.to_nat i) = Some g) by (intros i Hi; destruct (nth_error gs (Z.to_nat i)) as [g|] eqn:E; [eauto|apply nth_error_None in E; lia]).
  destruct (G _ H0) as (g & Eg). exists g, (map (fun p => Z.to_nat (ip idx p)) (dup8 rt cols n)). split; [exact Eg|]. split; [|apply map_length].
  assert (Eip : forall p q, 0 <= p < n -> 0 <= q < n -> ip idx p = ip idx q -> p = q).
  { intros p q Hp Hq E. unfold ip in E. rewrite NoDup_nth in ND. specialize (ND (Z.to_nat p) (Z.to_nat q) ltac:(lia) ltac:(lia) E). lia. }
  pose proof (dups_In cols n idx) as DI. fold (dup8 rt cols n) in DI. split.
  - assert (ND' : NoDup (dup8 rt cols n)) by (unfold dup8, dups; apply NoDup_filter, zrange_NoDup). assert (IN : forall p, In p (dup8 rt cols n) -> 0 <= p < n) by (intros p Hp; apply DI in Hp; apply Hp).
    clear - ND' IN Eip Hip HI. induction ND' as [|p l Np ND' IH]; [constructor|]. cbn [map]. constructor; [|apply IH; intros; apply IN; now right].
    intros Hin. apply in_map_iff in Hin as (q & E & Hq). apply Np. assert (q = p); [|subst; exact Hq]. pose proof (IN p (or_introl eq_refl)) as Bp. pose proof (IN q (or_intror Hq)) as Bq.
    apply Eip; [exact Bq|exact Bp|]. pose proof (HI _ (Hip _ Bp)). pose proof (HI _ (Hip _ Bq)). lia.
  - intros j. rewrite in_map_iff. split.
    + intros (p & <- & Hp). apply DI in Hp as (Bp & Ne). pose proof (HI _ (Hip _ Bp)) as Bi. destruct (G _ Bi) as (h & Eh). exists g, h. split; [exact Eg|]. split; [exact Eh|].
      apply differ_features; [exact (nth_error_In _ _ Eg)|exact (nth_error_In _ _ Eh)|]. rewrite <- (row8_glyph _ _ Eg), <- (row8_glyph _ _ Eh), !Z2Nat.id by lia. congruence.
    + intros (g' & h & Eg' & Eh & D). assert (g' = g) by congruence. subst g'. assert (Bj : (j < List.length gs)%nat) by (apply nth_error_Some; congruence).
      assert (Ij : In (Z.of_nat j) idx) by (eapply Permutation_in; [exact P|apply zrange_In; lia]). apply In_nth_error in Ij as (k & Ek).
      assert (Hk : (k < List.length idx)%nat) by (apply nth_error_Some; congruence). exists (Z.of_nat k). assert (Ei : ip idx (Z.of_nat k) = Z.of_nat j) by (unfold ip; rewrite Nat2Z.id; apply nth_error_nth; exact Ek).
      split; [rewrite Ei; apply Nat2Z.id|]. apply DI. split; [lia|]. rewrite Ei, (row8_glyph _ _ Eh).
      pose proof (row8_glyph _ _ Eg) as Rg. rewrite Z2Nat.id in Rg by lia. rewrite Rg. apply (differ_features g h (nth_error_In _ _ Eg) (nth_error_In _ _ Eh)) in D. congruence.
Qed.
Lemma others8_dups : 1 < n -> exists i g ds, nth_error gs i = Some g /\ others8 z gs i ds /\ List.length ds = List.length (dup8 rt cols n).
Proof. intros Hn. destruct (others8_first Hn) as (g & ds & H). eauto. Qed.
Lemma others8_unique i ds ds' : others8 z gs i ds -> others8 z gs i ds' -> List.length ds = List.length ds'.
Proof. intros (N1 & H1) (N2 & H2). apply Permutation_length. apply NoDup_Permutation; [exact N1|exact N2|]. intros j. now rewrite H1, H2. Qed.
Theorem load8_UB ws dict : dict_file ws dict -> 1 < n -> (forall i ds, others8 z gs i ds -> (i < List.length gs)%nat -> List.length ds = 1%nat \/ (3 <= List.length ds)%nat) ->
  load_all8 rt (write_glyphs gs) datas dict = UB.
Proof.
  intros Hd Hn HO. destruct (load_dict ws dict Hd) as (nodes & En & _). rewrite (loading8 dict nodes En). destruct (others8_dups Hn) as (i & g & ds & Eg & Od & Ld).
  assert (Hi : (i < List.length gs)%nat) by (apply nth_error_Some; congruence). specialize (HO i ds Od Hi). rewrite Ld in HO.
  pose proof (order8_UB rt HL cols n rows8_glyphs (words6 gs) words6_length Hn HO) as U. destruct (order8 rt cols (words6 gs)) as [(cs, w)|e| |]; cbn [bind] in U |- *; try discriminate; [rewrite U|]; reflexivity.
Qed.
Lemma four_others : (exists a b c d, In a gs /\ In b gs /\ In c gs /\ In d gs /\ differ_glyphs z a b /\ differ_glyphs z a c /\ differ_glyphs z a d /\ differ_glyphs z b c /\ differ_glyphs z b d /\ differ_glyphs z c d) ->
  forall i ds, others8 z gs i ds -> (i < List.length gs)%nat -> (3 <= List.length ds)%nat.
Proof.
  intros (a & b & c & d & Ha & Hb & Hc & Hd & Dab & Dac & Dad & Dbc & Dbd & Dcd) i ds (ND & HO) Hi.
  destruct (nth_error gs i) as [g|] eqn:Eg; [|apply nth_error_None in Eg; lia]. pose proof (nth_error_In _ _ Eg) as Hg.
  rewrite differ_features in Dab, Dac, Dad, Dbc, Dbd, Dcd by assumption.
  (* the features of the others *)
  assert (F : forall x, In x [a; b; c; d] -> features x <> features g -> In (features x) (map (fun j => features (nth j gs no_glyph)) ds)).
  { intros x Hx Nx. assert (Ix : In x gs) by (destruct Hx as [<-|[<-|[<-|[<-|[]]]]]; assumption). apply In_nth_error in Ix as (j & Ej). apply in_map_iff. exists j. rewrite (nth_error_nth _ _ _ Ej). split; [reflexivity|].
    apply HO. exists g, x. split; [reflexivity|]. split; [exact Ej|]. apply differ_features; [exact Hg|exact (nth_error_In _ _ Ej)|congruence]. }
  set (fs := map (fun j => features (nth j gs no_glyph)) ds) in *. assert (Lf : List.length fs = List.length ds) by apply map_length. rewrite <- Lf.
  assert (Dec : forall x y : list fval, {x = y} + {x <> y}) by (apply list_eq_dec; intros x y; destruct (fval_eqb x y) eqn:E; [left; now apply fval_eqb_ok|right; intros Q; apply fval_eqb_ok in Q; congruence]).
  apply (three_of_four Dec fs (features a) (features b) (features c) (features d) (features g)); [congruence..|].
  intros x [<-|[<-|[<-|[<-|[]]]]] Nx; apply F; try exact Nx; cbn [In]; auto.
Qed.
(** When all the glyphs have the same features, nothing is merged. *)
Lemma load8_alike_rows ws dict : dict_file ws dict -> (forall g h, In g gs -> In h gs -> ~ differ_glyphs z g h) ->
  exists nodes e, load_all8 rt (write_glyphs gs) datas dict = Ok (nodes, e) /\ load_optional read_dict [] dict = Ok nodes /\ built8 z gs e /\ e8_rt e = r8_base rt /\
    e8_cols e = feature_table z (map gl_img (gs6 (r8_base rt) gs z)) /\ e8_words e = words6 (gs6 (r8_base rt) gs z).
Proof.
  intros Hd HA. destruct (load_dict ws dict Hd) as (nodes & En & _). rewrite (loading8 dict nodes En).
  set (rt6 := r8_base rt). set (G := gs6 rt6 gs z).
  assert (EO : order8 rt cols (words6 gs) = Ok (feature_table z (map gl_img G), words6 G)).
  { destruct (Z.le_gt_cases n 1) as [Le|Gt].
    - unfold order8. unfold vsize. rewrite words6_length. replace (1 <? n) with false by lia. pose proof (gs6_perm rt6 HL gs z) as P. fold G in P. assert (EG : G = gs); [|rewrite EG; reflexivity].
      destruct gs as [|g [|g' l]]; [apply Permutation_nil in P; exact P|apply Permutation_length_1_inv in P; exact P|cbn in Le; lia].
    - rewrite (order8_eq rt HL cols n rows8_glyphs (words6 gs) words6_length Gt).
      assert (E0 : dup8 rt cols n = []).
      { destruct (others8_dups Gt) as (i & g & ds & Eg & (_ & HO) & Ld). destruct ds as [|j ds]; [destruct (dup8 rt cols n); [reflexivity|discriminate]|]. exfalso.
        destruct (proj1 (HO j) (or_introl eq_refl)) as (g' & h & E1 & E2 & D). exact (HA g' h (nth_error_In _ _ E1) (nth_error_In _ _ E2) D). }
      unfold merged8. rewrite E0. cbn [drop_duplicates bind fold_left].
      pose proof (order6_ok rt6 HL gs z) as E6. unfold order6 in E6. unfold idx8. destruct (get_col all_strategies cols first6) as [c|x| |]; try discriminate. cbn [bind] in E6. cbv zeta in E6.
      rewrite (size8 _ _ rows8_glyphs) in E6. exact E6. }
  rewrite EO. cbn [bind]. pose proof HT as (_ & Hn).
  assert (HW : Z.of_nat (List.length (words6 G)) < 4294967296) by (unfold words6; rewrite map_length; unfold G; rewrite (gs6_length rt6 HL gs z); unfold vsize in Hn; lia).
  destruct (data_by_word_exact (words6 G) HW (words6_ok rt6 HL gs HT z)) as (bw & Ebw & Bw). rewrite Ebw. cbn [bind].
  eexists. eexists. split; [reflexivity|]. split; [exact En|]. split; [|split; [reflexivity|split; reflexivity]]. pose proof HL as (_ & L2 & L3 & L4). split.
  - unfold sound_env8. cbn [e8_rt e8_cols e8_words e8_by_word]. pose proof (table6_ok rt6 HL gs HT z Hz) as T. constructor; try assumption; [exact (t6_columns _ _ T)|exact (t6_rows _ _ T)|exact (words6_ok rt6 HL gs HT z)].
  - exists G. split; [exact (gs6_perm rt6 HL gs z)|]. cbn [e8_words e8_cols]. split; [unfold words6; apply map_length|]. intros i g Eg. split.
    + unfold labels6. rewrite Nat2Z.id. apply nth_error_nth. unfold words6. rewrite nth_error_map, Eg. cbn [option_map]. f_equal. apply squeeze_unique.
    + intros s v Hs. unfold G. rewrite (cell_feature rt6 gs z s _ v Hs), (true_fval z Hz _ s v (proj1 (gs6_rec rt6 HL gs HT z _ _ Eg)) Hs), Nat2Z.id. fold G. split; [intros (_ & h & Eh & ->); congruence|intros ->; split; [lia|eauto]].
Qed.
Lemma load8_alike ws dict : dict_file ws dict -> (forall g h, In g gs -> In h gs -> ~ differ_glyphs z g h) ->
  exists nodes e, load_all8 rt (write_glyphs gs) datas dict = Ok (nodes, e) /\ load_optional read_dict [] dict = Ok nodes /\ built8 z gs e /\ e8_rt e = r8_base rt.
Proof. intros Hd HA. destruct (load8_alike_rows ws dict Hd HA) as (nodes & e & H1 & H2 & H3 & H4 & _). exists nodes, e. split; [exact H1|]. split; [exact H2|]. split; [exact H3|exact H4]. Qed.
(** With two duplicates the program goes on. *)
Lemma union_words_cons moved x a y b : union_words moved (x :: a) (y :: b) =
  if list_ltb Z.ltb x y then let '(o, r) := union_words moved a (y :: b) in (x :: o, r)
  else if list_ltb Z.ltb y x then let '(o, r) := union_words moved (x :: a) b in (y :: o, moved y :: r)
  else let '(o, r) := union_words moved a b in (x :: o, y :: r).
Proof. reflexivity. Qed.
Lemma union_words_filled moved : forall a b, (a <> [] \/ b <> [] -> fst (union_words moved a b) <> []) /\ List.length (snd (union_words moved a b)) = List.length b.
Proof.
  induction a as [|x a IH].
  - intros b. cbn [union_words fst snd]. split; [intros [H|H]; congruence|apply map_length].
  - induction b as [|y b IHb]; [cbn; split; [discriminate|reflexivity]|]. rewrite union_words_cons. destruct (list_ltb Z.ltb x y); [|destruct (list_ltb Z.ltb y x)].
    + destruct (IH (y :: b)) as (_ & L). destruct (union_words moved a (y :: b)) as (o, r). cbn [fst snd] in *. split; [discriminate|exact L].
    + destruct IHb as (_ & L). destruct (union_words moved (x :: a) b) as (o, r). cbn [fst snd List.length] in *. split; [discriminate|lia].
    + destruct (IH b) as (_ & L). destruct (union_words moved a b) as (o, r). cbn [fst snd List.length] in *. split; [discriminate|lia].
Qed.
Lemma upd_In {A} (l : list A) k x y : In y (upd l k x) -> y = x \/ In y l.
Proof. revert k. induction l as [|w l IH]; intros [|k] H; cbn [upd] in H; try (now right); cbn [In] in *; [destruct H; [now left|tauto]|]. destruct H as [H|H]; [tauto|]. destruct (IH k H); tauto. Qed.
Lemma merge_w_filled moved idx n words p : Permutation (zrange n) idx -> Z.of_nat (List.length words) = n -> 1 <= p < n -> (forall w, In w words -> w <> []) -> forall w, In w (merge_w moved idx words p) -> w <> [].
Proof.
  intros P L Hp HW w Hw. unfold merge_w in Hw. cbv zeta in Hw. destruct (ip_ok n moved idx P p ltac:(lia)) as (_ & B1). destruct (ip_ok n moved idx P (p - 1) ltac:(lia)) as (_ & B2).
  assert (N1 : nth (Z.to_nat (ip idx p)) words [] <> []) by (apply HW, nth_In; lia). assert (N2 : nth (Z.to_nat (ip idx (p - 1))) words [] <> []) by (apply HW, nth_In; lia).
  destruct (union_words_filled moved (nth (Z.to_nat (ip idx p)) words []) (nth (Z.to_nat (ip idx (p - 1))) words [])) as (F & Ln).
  apply upd_In in Hw as [->|Hw]; [|apply upd_In in Hw as [->|Hw]].
  - rewrite squeeze_unique. intros Q. apply squeeze_nil in Q. apply F; [now left|exact Q].
  - intros Q. rewrite Q in Ln. destruct (nth (Z.to_nat (ip idx (p - 1))) words []); [congruence|discriminate].
  - now apply HW.
Qed.
Lemma merges_filled moved idx n : Permutation (zrange n) idx -> forall ps words, (forall p, In p ps -> 1 <= p < n) -> Z.of_nat (List.length words) = n -> (forall w, In w words -> w <> []) ->
  forall w, In w (fold_left (merge_w moved idx) ps words) -> w <> [].
Proof.
  intros P. induction ps as [|p ps IH]; intros words Hp L HW; [exact HW|]. cbn [fold_left]. apply IH; [intros; apply Hp; now right|now rewrite merge_w_length|].
  apply (merge_w_filled moved idx n); auto. apply Hp. now left.
Qed.
(** The table of a permutation of the rows. *)
Lemma reindexed_rows idx cs : Permutation (zrange n) idx -> map_res (reindex (VNum 0) moved_value idx) cols = Ok cs -> cs = feature_table z (map gl_img (pick no_glyph idx gs)).
Proof.
  intros P E. assert (M : forall ss, map_res (reindex (VNum 0) moved_value idx) (map (fun s => map (fun img => fval_of z img s) (map gl_img gs)) ss) = Ok (map (fun s => map (fun img => fval_of z img s) (map gl_img (pick no_glyph idx gs))) ss)).
  { induction ss as [|s ss IH]; [reflexivity|]. cbn [map map_res]. rewrite !map_map, (reindex_map (VNum 0) _ no_glyph (fun g => fval_of z (gl_img g) s) idx gs P). cbn [bind]. rewrite IH. reflexivity. }
  unfold feature_table in *. rewrite M in E. now injection E.
Qed.
Lemma load8_two_dups ws dict : dict_file ws dict -> 1 < n -> List.length (dup8 rt cols n) = 2%nat ->
  exists nodes e, load_all8 rt (write_glyphs gs) datas dict = Ok (nodes, e) /\ load_optional read_dict [] dict = Ok nodes /\ sound_env8 e /\ e8_rt e = r8_base rt /\
    e8_cols e = feature_table z (map gl_img (pick no_glyph (idx8 rt cols n) gs)) /\ e8_words e = pick [] (idx8 rt cols n) (merged8 rt cols n (words6 gs)).
Proof.
  intros Hd Hn HO. destruct (load_dict ws dict Hd) as (nodes & En & _). rewrite (loading8 dict nodes En).
  rewrite (order8_eq rt HL cols n rows8_glyphs (words6 gs) words6_length Hn). pose proof (idx8_perm rt HL cols n rows8_glyphs) as P. destruct (perm_index n _ P) as (ND & HI & HLn).
  pose proof (dup8_bounds rt cols n []) as (Sd & B).
  destruct (dup8 rt cols n) as [|d0 [|d1 [|? ?]]] eqn:E; try discriminate. apply StronglySorted_inv in Sd as (_ & F0). assert (Lt0 : d0 < d1) by (rewrite Forall_forall in F0; apply F0; now left).
  pose proof (B d0 ltac:(cbn; tauto)) as B0. pose proof (B d1 ltac:(cbn; tauto)) as B1. rewrite dropped_two by (unfold vsize; lia). cbn [bind].
  assert (M : Z.of_nat (List.length (merged8 rt cols n (words6 gs))) = n) by (apply merged8_length, words6_length).
  pose proof (reindex_map [] (fun _ => []) [] (fun w : list (list Z) => w) (idx8 rt cols n) (merged8 rt cols n (words6 gs))) as Q. rewrite map_id, M in Q. specialize (Q P). rewrite Q. cbn [bind].
  destruct (reindexed_cols cols n rows8_glyphs (idx8 rt cols n)) as (cs & Ec); [exact HI|unfold vsize; lia|]. rewrite Ec. cbn [bind]. rewrite map_id.
  set (W := pick [] (idx8 rt cols n) (merged8 rt cols n (words6 gs))). assert (PW : Permutation (merged8 rt cols n (words6 gs)) W) by (apply pick_perm; rewrite M; exact P).
  assert (LW : Z.of_nat (List.length W) = n) by (rewrite <- M; f_equal; symmetry; apply Permutation_length; exact PW).
  assert (NW : forall w, In w W -> w <> []).
  { intros w Hw. apply (merges_filled (r8_moved rt) (idx8 rt cols n) n P (dup8 rt cols n) (words6 gs)); [rewrite E; exact B|exact words6_length| |fold (merged8 rt cols n (words6 gs)); eapply Permutation_in; [apply Permutation_sym; exact PW|exact Hw]].
    intros w' Hw' Q'. unfold words6 in Hw'. apply in_map_iff in Hw' as (x & Ex & Hx). rewrite squeeze_unique in Ex. rewrite <- Ex in Q'. apply squeeze_nil in Q'. apply map_eq_nil in Q'. destruct (glyph_rec x Hx) as (_ & V). congruence. }
  pose proof HT as (_ & Hs). unfold vsize in Hs. destruct (data_by_word_exact W) as (bw & Ebw & _); [lia|exact NW|]. rewrite Ebw. cbn [bind]. eexists. eexists. split; [reflexivity|]. split; [exact En|].
  pose proof HL as (_ & L2 & L3 & L4). apply (reindexed_rows _ _ P) in Ec. subst cs. cbn [e8_cols e8_words]. split; [|split; [reflexivity|split; reflexivity]]. assert (PG : Permutation gs (pick no_glyph (idx8 rt cols n) gs)) by now apply pick_perm.
  unfold sound_env8. cbn [e8_rt e8_cols e8_words e8_by_word]. constructor; try assumption.
  - unfold feature_table. apply map_length.
  - intros s c Hc. apply in_feature_table in Hc as (Hs' & ->). rewrite !map_length, LW, <- (Permutation_length PG). split; [reflexivity|]. intros v Hv. rewrite map_map in Hv. apply in_map_iff in Hv as (x & <- & Ix).
    apply (Permutation_in _ (Permutation_sym PG)) in Ix. destruct (glyph_rec x Ix) as (R & _). destruct (rotate90_law (gl_img x) (proj1 R)) as (r & Er & _). exact (proj2 (fval_of_fits z Hz (gl_img x) r R Er s Hs')).
  - lia.
Qed.
Theorem load8_two ws dict : dict_file ws dict -> 1 < n -> (forall i ds, others8 z gs i ds -> (i < List.length gs)%nat -> List.length ds = 2%nat) ->
  exists nodes e, load_all8 rt (write_glyphs gs) datas dict = Ok (nodes, e) /\ sound_env8 e.
Proof.
  intros Hd Hn HO. destruct (others8_dups Hn) as (i & g & ds & Eg & Od & Ld). assert (Hi : (i < List.length gs)%nat) by (apply nth_error_Some; congruence). specialize (HO i ds Od Hi). rewrite Ld in HO.
  destruct (load8_two_dups ws dict Hd Hn HO) as (nodes & e & H1 & _ & H2 & _ & _). eauto.
Qed.
(** The tables that are built, if any, can be used. *)
Theorem load8_sound ws dict nodes e : dict_file ws dict -> load_all8 rt (write_glyphs gs) datas dict = Ok (nodes, e) -> sound_env8 e /\ load_optional read_dict [] dict = Ok nodes /\ e8_rt e = r8_base rt.
Proof.
  intros Hd E. assert (Alike : (forall g h, In g gs -> In h gs -> ~ differ_glyphs z g h) -> sound_env8 e /\ load_optional read_dict [] dict = Ok nodes /\ e8_rt e = r8_base rt).
  { intros HA. destruct (load8_alike ws dict Hd HA) as (nodes' & e' & E' & En & (HE & _) & Er). rewrite E in E'. injection E' as <- <-. auto. }
  destruct (Z.le_gt_cases n 1) as [Le|Gt].
  - apply Alike. intros g h Hg Hh D. apply (differ_features g h Hg Hh) in D. apply D. destruct gs as [|g0 [|g1 l]]; [destruct Hg| |cbn in Le; lia]. destruct Hg as [<-|[]], Hh as [<-|[]]. reflexivity.
  - destruct (Nat.eq_dec (List.length (dup8 rt cols n)) 0) as [Z0|N0]; [|destruct (Nat.eq_dec (List.length (dup8 rt cols n)) 2) as [Z2|N2]].
    + apply Alike. destruct (others8_dups Gt) as (i & g & ds & Eg & (_ & HO) & Ld). rewrite Z0 in Ld. destruct ds; [|discriminate].
      assert (All : forall h, In h gs -> features h = features g).
      { intros h Hh. pose proof (nth_error_In _ _ Eg) as Hg. destruct (list_eq_dec (fun x y => match bool_dec (fval_eqb x y) true with left H => left (proj1 (fval_eqb_ok x y) H) | right H => right (fun Q => H (proj2 (fval_eqb_ok x y) Q)) end) (features h) (features g)) as [Q|Q]; [exact Q|].
        exfalso. apply In_nth_error in Hh as (j & Ej). apply (proj2 (HO j)). exists g, h. split; [exact Eg|]. split; [exact Ej|]. apply differ_features; [exact Hg|exact (nth_error_In _ _ Ej)|congruence]. }
      intros a b Ha Hb D. apply (differ_features a b Ha Hb) in D. apply D. rewrite (All a Ha), (All b Hb). reflexivity.
    + destruct (load8_two_dups ws dict Hd Gt Z2) as (nodes' & e' & E' & En & HE & Er & _). rewrite E in E'. injection E' as <- <-. auto.
    + exfalso. destruct (load_dict ws dict Hd) as (nodes' & En & _). rewrite (loading8 dict nodes' En) in E.
      pose proof (order8_UB rt HL cols n rows8_glyphs (words6 gs) words6_length Gt ltac:(lia)) as U. destruct (order8 rt cols (words6 gs)) as [(cs, w)|x| |]; cbn [bind] in U, E; try discriminate. rewrite U in E. discriminate.
Qed.
End Glyphs.
