(** extract_text8: the tables, for every glyph file. *)
From Verif Require Import Base BaseProofs SortModel SortProofs ImageModel ImageSpec ImageProofs PnmModel BoxModel BoxSpec BoxProofs StratModel ZoneModel DatasModel DatasSpec DatasProofs UtfSpec StreamModel GlyphIoModel GlyphIoSpec GlyphIoProofs DatasIoModel DatasIoSpec DatasIoProofs DictIoModel DictIoProofs TrieModel TrieSpec TrieProofs FlatTrieProofs SpellModel SpellSpec SpellProofs UtilModel UtilProofs IndexModel IndexProofs FloatModel RecogModel RecogSpec RecogProofs GlyphsModel GlyphsProofs3 ExtractModel ExtractSpec ExtractProofs AssembleSpec LearnModel LearnSpec LearnProofs2 LearnProofs3 PipelineModel PipelineSpec PipelineProofs2 PipelineProofs4 ReadSpec ReadProofs Ocr6Model Ocr6Spec Ocr6Proofs Ocr6Proofs2 Ocr6Proofs3 Ocr6Proofs4 UtilSpec RecogProofs2 Ocr6Proofs5 OcrProofs Ocr8Model Ocr8Spec Ocr8Proofs Ocr8Proofs2 Ocr8Proofs3.
From Coq Require Import Sorted Permutation.

(** * The words that are merged *)
Lemma union_In moved w : forall a b, In w (fst (union_words moved a b)) <-> In w a \/ In w b.
Proof.
  induction a as [|x a IH]; [intros b; cbn [union_words fst In]; tauto|].
  induction b as [|y b IHb]; [cbn; tauto|]. rewrite union_words_cons. destruct (list_ltb Z.ltb x y) eqn:E1; [|destruct (list_ltb Z.ltb y x) eqn:E2].
  - specialize (IH (y :: b)). destruct (union_words moved a (y :: b)) as (o, r). cbn [fst In] in *. rewrite IH. tauto.
  - destruct (union_words moved (x :: a) b) as (o, r). cbn [fst In] in *. rewrite IHb. tauto.
  - assert (y = x). { destruct (lex_total x y) as [H|[H|H]]; [apply list_ltb_lex in H; congruence|congruence|apply list_ltb_lex in H; congruence]. }
    subst y. specialize (IH b). destruct (union_words moved a b) as (o, r). cbn [fst In] in *. rewrite IH. tauto.
Qed.
Section Words.
Context (cols : list (list fval)) (n : Z) (moved : list Z -> list Z) (idx : list Z) (HP : Permutation (zrange n) idx) (words : list (list (list Z))) (HW : Z.of_nat (List.length words) = n).
Local Notation mk := (Ocr8Proofs2.marked cols idx).
Local Notation at_ W p := (nth (Z.to_nat (ip idx p)) W []).
Definition upto (P : Z) : list (list (list Z)) := fold_left (merge_w moved idx) (filter mk (zrange P)) words.
Lemma ip_inj p q : 0 <= p < n -> 0 <= q < n -> p <> q -> Z.to_nat (ip idx p) <> Z.to_nat (ip idx q).
Proof.
  intros Hp Hq Ne E. destruct (perm_index n idx HP) as (ND & HI & HLn). destruct (ip_ok n moved idx HP p Hp) as (_ & B1). destruct (ip_ok n moved idx HP q Hq) as (_ & B2).
  unfold ip in *. rewrite NoDup_nth in ND. specialize (ND (Z.to_nat p) (Z.to_nat q) ltac:(lia) ltac:(lia)). rewrite (nth_indep _ 0 0) in ND by lia. specialize (ND ltac:(lia)). lia.
Qed.
Lemma mk0 : mk 0 = false.
Proof. unfold Ocr8Proofs2.marked. assert (E : reqb cols (ip idx 0) (ip idx 0) = true) by now apply reqb_iff. now rewrite E. Qed.
Lemma merged_words P : 0 <= P <= n -> forall p, 0 <= p < n ->
  (P <= p -> at_ (upto P) p = at_ words p) /\
  (p < P -> (p + 1 < P -> mk (p + 1) = false) -> forall w, In w (at_ (upto P) p) <-> exists q, 0 <= q <= p /\ In w (at_ words q) /\ forall r, q < r <= p -> mk r = true).
Proof.
  intros HPn. destruct HPn as (HP0 & HPn). revert HPn. pattern P. apply natlike_ind; [| |exact HP0]; clear P HP0.
  - intros _ p Hp. split; [reflexivity|lia].
  - intros P HP0 IH HPn. specialize (IH ltac:(lia)). unfold Z.succ in *.
    assert (EU : upto (P + 1) = if mk P then merge_w moved idx (upto P) P else upto P).
    { unfold upto. rewrite (zrange_filter_S cols idx P HP0), fold_left_app. destruct (mk P); reflexivity. }
    assert (LU : List.length (upto P) = List.length words) by apply merges_length.
    destruct (mk P) eqn:M; rewrite EU.
    + assert (P <> 0) by (intros ->; rewrite mk0 in M; discriminate).
      destruct (ip_ok n moved idx HP P ltac:(lia)) as (_ & B1). destruct (ip_ok n moved idx HP (P - 1) ltac:(lia)) as (_ & B2).
      intros p Hp. destruct (IH p Hp) as (IA & IB). unfold merge_w. cbv zeta. split.
      * intros Hpp. rewrite nth_upd_other by (apply ip_inj; lia). rewrite nth_upd_other by (apply ip_inj; lia). apply IA. lia.
      * intros Hpp Hm w. destruct (Z.eq_dec p P) as [->|Ne].
        -- rewrite nth_upd_same by (rewrite upd_length; lia). rewrite squeeze_unique, squeeze_In, union_In. rewrite (IA ltac:(lia)). destruct (IH (P - 1) ltac:(lia)) as (_ & IP). rewrite (IP ltac:(lia) ltac:(lia) w). split.
           ++ intros [H1|(q & Hq & H1 & H2)]; [exists P; split; [lia|split; [exact H1|lia]]|]. exists q. split; [lia|]. split; [exact H1|]. intros r Hr. destruct (Z.eq_dec r P) as [->|]; [exact M|apply H2; lia].
           ++ intros (q & Hq & H1 & H2). destruct (Z.eq_dec q P) as [->|]; [now left|]. right. exists q. split; [lia|]. split; [exact H1|]. intros; apply H2; lia.
        -- destruct (Z.eq_dec p (P - 1)) as [->|Ne']; [specialize (Hm ltac:(lia)); replace (P - 1 + 1) with P in Hm by lia; congruence|].
           rewrite nth_upd_other by (apply ip_inj; lia). rewrite nth_upd_other by (apply ip_inj; lia). apply IB; [lia|]. intros; apply Hm; lia.
    + intros p Hp. destruct (IH p Hp) as (IA & IB). split; [intros; apply IA; lia|]. intros Hpp Hm w. destruct (Z.eq_dec p P) as [->|Ne].
      * rewrite (IA ltac:(lia)). split; [intros H; exists P; split; [lia|split; [exact H|lia]]|]. intros (q & Hq & H1 & H2). destruct (Z.eq_dec q P) as [->|]; [exact H1|]. rewrite (H2 P ltac:(lia)) in M. discriminate.
      * apply IB; [lia|]. intros; apply Hm; lia.
Qed.
End Words.

(** * The tables *)
Section Glyphs.
Context (rt : runtime8) (HL : legal8 rt) (gs : list glyph) (HT : trainable6 gs).
Context (junk : Z -> Z) (z : list Z -> list Z) (Hz : is_std_sort Z.ltb z) (cx0 : ctxs) (datas : list Z).
Hypothesis (ED : write_datas_file junk z cx0 (write_glyphs gs) = Ok (Some datas)).
Local Notation cols := (feature_table z (map gl_img gs)).
Local Notation n := (Z.of_nat (List.length gs)).
Local Notation G := (gs6 (r8_base rt) gs z).
Local Notation idx := (idx8 rt cols n).
Lemma idx8_idx6 : idx = idx6 (r8_base rt) gs z.
Proof.
  unfold idx8, idx6. change first6 with first_feature. rewrite (feature_col gs z cols first_feature eq_refl (simple_in_all _ first_simple)). now rewrite map_map.
Qed.
Lemma G_rows : G = pick no_glyph idx gs. Proof. unfold gs6. now rewrite idx8_idx6. Qed.
Lemma G_ordered : ordered8 z G.
Proof.
  intros i j g h a b Hij Eg Eh Ta Tb. pose proof (table6_ok (r8_base rt) HL gs HT z Hz) as T. pose proof (gs6_rec (r8_base rt) HL gs HT z _ _ Eg) as (Rg & _). pose proof (gs6_rec (r8_base rt) HL gs HT z _ _ Eh) as (Rh & _).
  pose proof (simple_in_all _ first_simple) as Hs. rewrite (true_fval z Hz _ _ _ Rg Hs) in Ta. rewrite (true_fval z Hz _ _ _ Rh Hs) in Tb.
  apply (t6_order _ _ T (Z.of_nat i) (Z.of_nat j) a b); [lia|..]; (apply cell_feature; [exact Hs|]); (split; [lia|]); rewrite Nat2Z.id; [exists g|exists h]; auto.
Qed.
Lemma G_nth p : 0 <= p < n -> exists g, nth_error G (Z.to_nat p) = Some g /\ nth_error gs (Z.to_nat (ip idx p)) = Some g.
Proof.
  intros Hp. pose proof (idx8_perm rt HL cols n (rows8_glyphs gs HT z Hz)) as P. destruct (perm_index n _ P) as (_ & HI & HLn).
  assert (Ei : nth_error idx (Z.to_nat p) = Some (ip idx p)) by (apply nth_error_nth'; lia). assert (B : 0 <= ip idx p < n) by (apply HI; exact (nth_error_In _ _ Ei)).
  destruct (nth_error gs (Z.to_nat (ip idx p))) as [g|] eqn:Eg; [|apply nth_error_None in Eg; lia]. exists g. split; [|reflexivity].
  rewrite G_rows. unfold pick. rewrite nth_error_map, Ei. cbn [option_map]. now rewrite (nth_error_nth _ _ _ Eg).
Qed.
Lemma other_marked p : 0 <= p < n -> (other8 z G (Z.to_nat p) <-> Ocr8Proofs2.marked cols idx p = true).
Proof.
  intros Hp. destruct (G_nth p Hp) as (h & Eh & Eh'). destruct (G_nth 0 ltac:(lia)) as (g & Eg & Eg').
  assert (Rg : row8 cols (ip idx 0) = features z g) by (rewrite <- (row8_glyph gs z _ _ Eg'); f_equal; pose proof (ip_ok n (fun x => x) idx (idx8_perm rt HL cols n (rows8_glyphs gs HT z Hz)) 0 ltac:(lia)); lia).
  assert (Rh : row8 cols (ip idx p) = features z h) by (rewrite <- (row8_glyph gs z _ _ Eh'); f_equal; pose proof (ip_ok n (fun x => x) idx (idx8_perm rt HL cols n (rows8_glyphs gs HT z Hz)) p Hp); lia).
  pose proof (differ_features gs HT z Hz g h (nth_error_In _ _ Eg') (nth_error_In _ _ Eh')) as D. unfold Ocr8Proofs2.marked. rewrite negb_true_iff. split.
  - intros (g' & h' & E1 & E2 & Df). change (Z.to_nat 0) with 0%nat in Eg. assert (g' = g) by congruence. assert (h' = h) by congruence. subst. apply D in Df.
    destruct (reqb cols (ip idx p) (ip idx 0)) eqn:E; [|reflexivity]. apply reqb_iff in E. congruence.
  - intros E. exists g, h. split; [exact Eg|]. split; [exact Eh|]. apply D. intros Q. assert (R : reqb cols (ip idx p) (ip idx 0) = true) by (apply reqb_iff; congruence). congruence.
Qed.
Lemma joined_rows : 1 < n -> forall e, e8_cols e = feature_table z (map gl_img G) -> e8_words e = pick [] idx (merged8 rt cols n (words6 gs)) -> joined_rows8 z G e.
Proof.
  intros Hn e Ec Ew. pose proof (idx8_perm rt HL cols n (rows8_glyphs gs HT z Hz)) as P. destruct (perm_index n _ P) as (_ & HI & HLn). pose proof (gs6_length (r8_base rt) HL gs z) as LG.
  split; [rewrite Ew; unfold pick; rewrite map_length; lia|]. intros i g Eg. split.
  - intros s v Hs. rewrite Ec, (cell_feature _ gs z s _ v Hs), (true_fval z Hz _ s v (proj1 (gs6_rec _ HL gs HT z _ _ Eg)) Hs), Nat2Z.id. split; [intros (_ & h & Eh & ->); congruence|intros ->; split; [lia|eauto]].
  - intros No w. assert (Hi : (i < List.length G)%nat) by (apply nth_error_Some; congruence).
    assert (El : labels6 (e8_words e) (Z.of_nat i) = nth (Z.to_nat (ip idx (Z.of_nat i))) (merged8 rt cols n (words6 gs)) []).
    { unfold labels6. rewrite Nat2Z.id, Ew. apply nth_error_nth. unfold pick. rewrite nth_error_map. rewrite (nth_error_nth' idx 0) by lia. cbn [option_map]. unfold ip. now rewrite Nat2Z.id. }
    rewrite El. destruct (merged_words cols n (r8_moved rt) idx P (words6 gs) (words6_length gs) n ltac:(lia) (Z.of_nat i) ltac:(lia)) as (_ & M).
    specialize (M ltac:(lia)). rewrite M.
    + assert (OW : forall q h, 0 <= q < n -> nth_error G (Z.to_nat q) = Some h -> forall w, In w (nth (Z.to_nat (ip idx q)) (words6 gs) []) <-> In w (map vw_word (gl_views h))).
      { intros q h Hq Eh w'. destruct (G_nth q Hq) as (h' & E1 & E2). assert (h' = h) by congruence. subst h'. unfold words6. erewrite nth_error_nth by (rewrite nth_error_map, E2; reflexivity). rewrite squeeze_unique. apply squeeze_In. }
      split.
      * intros (q & Hq & H1 & H2). destruct (G_nth q ltac:(lia)) as (h & Eh & _). exists (Z.to_nat q), h. split; [lia|]. split; [exact Eh|]. split; [apply (OW q h ltac:(lia) Eh); exact H1|].
        intros r Hr. rewrite <- (Nat2Z.id r). apply other_marked; [lia|]. apply H2. lia.
      * intros (q & h & Hq & Eh & H1 & H2). exists (Z.of_nat q). split; [lia|]. split; [apply (OW (Z.of_nat q) h ltac:(lia)); [rewrite Nat2Z.id; exact Eh|exact H1]|].
        intros r Hr. apply other_marked; [lia|]. apply H2. lia.
    + intros Hlt. destruct (Ocr8Proofs2.marked cols idx (Z.of_nat i + 1)) eqn:E; [|reflexivity]. exfalso. apply No. apply other_marked in E; [|lia]. replace (Z.to_nat (Z.of_nat i + 1)) with (S i) in E by lia. exact E.
Qed.
Lemma G_others : 1 < n -> NoDup (map Z.to_nat (dup8 rt cols n)) /\ forall j, In j (map Z.to_nat (dup8 rt cols n)) <-> other8 z G j.
Proof.
  intros Hn. pose proof (gs6_length (r8_base rt) HL gs z) as LG. assert (DI : forall p, In p (dup8 rt cols n) <-> 0 <= p < n /\ Ocr8Proofs2.marked cols idx p = true) by (intros p; unfold dup8, dups; rewrite filter_In, zrange_In; reflexivity). split.
  - assert (ND : NoDup (dup8 rt cols n)) by (unfold dup8, dups; apply NoDup_filter, zrange_NoDup). assert (B : forall p, In p (dup8 rt cols n) -> 0 <= p) by (intros p Hp; apply DI in Hp; lia).
    clear - ND B. induction ND as [|p l Np ND IH]; [constructor|]. cbn [map]. constructor; [|apply IH; intros; apply B; now right]. intros Hin. apply in_map_iff in Hin as (q & E & Hq). apply Np.
    pose proof (B p (or_introl eq_refl)). pose proof (B q (or_intror Hq)). assert (q = p) by lia. now subst.
  - intros j. rewrite in_map_iff. split.
    + intros (p & <- & Hp). apply DI in Hp as (Hp & M). now apply other_marked.
    + intros O. assert (Hj : (j < List.length G)%nat) by (destruct O as (_ & h & _ & Eh & _); apply nth_error_Some; congruence). exists (Z.of_nat j). split; [lia|]. apply DI. split; [lia|]. apply other_marked; [lia|]. rewrite Nat2Z.id. exact O.
Qed.
(** When no glyph is another. *)
Lemma alike_rows ws dict : dict_file ws dict -> (forall j, ~ other8 z G j) ->
  exists nodes e, load_all8 rt (write_glyphs gs) datas dict = Ok (nodes, e) /\ load_optional read_dict [] dict = Ok nodes /\ sound_env8 e /\ joined_rows8 z G e.
Proof.
  intros Hd NO. destruct (load8_alike_rows rt HL gs HT junk z Hz cx0 datas ED ws dict Hd) as (nodes & e & E & En & (HS & _) & _ & Ec & Ew).
  { intros g h Hg Hh D. destruct (nth_error G 0) as [g0|] eqn:Eg0.
    2:{ apply nth_error_None in Eg0. pose proof (gs6_length (r8_base rt) HL gs z) as LG. destruct gs; [destruct Hg|cbn [List.length] in *; lia]. }
    pose proof (proj1 (gs6_In (r8_base rt) HL gs z g0) (nth_error_In _ _ Eg0)) as Hg0.
    assert (A : forall h, In h gs -> ~ features z g0 <> features z h).
    { intros x Hx Dx. apply (differ_features gs HT z Hz g0 x Hg0 Hx) in Dx. apply (gs6_In (r8_base rt) HL gs z) in Hx. apply In_nth_error in Hx as (j & Ej). apply (NO j). exists g0, x. auto. }
    assert (Dec : forall x y : list fval, {x = y} + {x <> y}) by (apply list_eq_dec; intros x y; destruct (fval_eqb x y) eqn:E; [left; now apply fval_eqb_ok|right; intros Q; apply fval_eqb_ok in Q; congruence]).
    apply (differ_features gs HT z Hz g h Hg Hh) in D. destruct (Dec (features z g0) (features z g)) as [E1|E1]; [|exact (A g Hg E1)]. destruct (Dec (features z g0) (features z h)) as [E2|E2]; [congruence|exact (A h Hh E2)]. }
  exists nodes, e. split; [exact E|]. split; [exact En|]. split; [exact HS|]. split; [rewrite Ew; unfold words6; apply map_length|]. intros i g Eg. split.
  - intros s v Hs. rewrite Ec, (cell_feature _ gs z s _ v Hs), (true_fval z Hz _ s v (proj1 (gs6_rec _ HL gs HT z _ _ Eg)) Hs), Nat2Z.id. split; [intros (_ & h & Eh & ->); congruence|intros ->; split; [lia|eauto]].
  - intros _ w. rewrite Ew. unfold labels6. rewrite Nat2Z.id. unfold words6. erewrite nth_error_nth by (rewrite nth_error_map, Eg; reflexivity). rewrite squeeze_unique, squeeze_In. split.
    + intros H. exists i, g. split; [lia|]. split; [exact Eg|]. split; [exact H|lia].
    + intros (q & h & Hq & Eh & H & HO). destruct (Nat.eq_dec q i) as [->|]; [congruence|]. exfalso. apply (NO i). apply HO. lia.
Qed.
Lemma load8_counted ws dict : dict_file ws dict -> exists gs' ds, Permutation gs gs' /\ ordered8 z gs' /\ NoDup ds /\ (forall j, In j ds <-> other8 z gs' j) /\ (1 < n -> List.length ds = List.length (dup8 rt cols n)) /\
  (((List.length ds = 0%nat \/ List.length ds = 2%nat) /\ exists nodes e, load_all8 rt (write_glyphs gs) datas dict = Ok (nodes, e) /\ load_optional read_dict [] dict = Ok nodes /\ sound_env8 e /\ joined_rows8 z gs' e) \/
   ((List.length ds = 1%nat \/ (3 <= List.length ds)%nat) /\ load_all8 rt (write_glyphs gs) datas dict = UB)).
Proof.
  intros Hd. exists G. destruct (Z.le_gt_cases n 1) as [Le|Gt].
  - exists []. split; [exact (gs6_perm (r8_base rt) HL gs z)|]. split; [exact G_ordered|]. split; [constructor|]. 
    assert (NO : forall j, ~ other8 z G j).
    { intros j (g & h & Eg & Eh & D). pose proof (gs6_length (r8_base rt) HL gs z) as LG. assert (j = 0%nat) by (assert (j < List.length G)%nat by (apply nth_error_Some; congruence); lia). subst j. assert (h = g) by congruence. subst h.
      apply nth_error_In, (gs6_In (r8_base rt) HL gs z) in Eg. apply (differ_features gs HT z Hz g g Eg Eg) in D. congruence. }
    split; [intros j; split; [intros []|intros O; elim (NO j O)]|]. split; [lia|]. left. split; [now left|].
    exact (alike_rows ws dict Hd NO).
  - destruct (G_others Gt) as (ND & HO). exists (map Z.to_nat (dup8 rt cols n)). split; [exact (gs6_perm (r8_base rt) HL gs z)|]. split; [exact G_ordered|]. split; [exact ND|]. split; [exact HO|]. split; [intros _; apply map_length|]. rewrite map_length.
    destruct (Nat.eq_dec (List.length (dup8 rt cols n)) 0) as [Z0|N0]; [|destruct (Nat.eq_dec (List.length (dup8 rt cols n)) 2) as [Z2|N2]].
    + left. split; [now left|].
      apply (alike_rows ws dict Hd). intros j O. apply HO in O. destruct (dup8 rt cols n); [destruct O|discriminate].
    + left. split; [now right|]. destruct (load8_two_dups rt HL gs HT junk z Hz cx0 datas ED ws dict Hd Gt Z2) as (nodes & e & E & En & HE & _ & Ec & Ew). exists nodes, e. split; [exact E|]. split; [exact En|]. split; [exact HE|].
      apply joined_rows; [exact Gt|rewrite Ec, G_rows; reflexivity|exact Ew].
    + right. split; [lia|]. destruct (load_dict ws dict Hd) as (nodes & En & _). rewrite (loading8 rt gs HT junk z Hz cx0 datas ED dict nodes En).
      pose proof (order8_UB rt HL cols n (rows8_glyphs gs HT z Hz) (words6 gs) (words6_length gs) Gt ltac:(lia)) as U. destruct (order8 rt cols (words6 gs)) as [(cs, w)|x| |]; cbn [bind] in U |- *; try discriminate; [rewrite U|]; reflexivity.
Qed.
Theorem load8_outcome ws dict : dict_file ws dict -> exists gs' ds, Permutation gs gs' /\ ordered8 z gs' /\ NoDup ds /\ (forall j, In j ds <-> other8 z gs' j) /\
  (((List.length ds = 0%nat \/ List.length ds = 2%nat) /\ exists nodes e, load_all8 rt (write_glyphs gs) datas dict = Ok (nodes, e) /\ load_optional read_dict [] dict = Ok nodes /\ sound_env8 e /\ joined_rows8 z gs' e) \/
   ((List.length ds = 1%nat \/ (3 <= List.length ds)%nat) /\ load_all8 rt (write_glyphs gs) datas dict = UB)).
Proof. intros Hd. destruct (load8_counted ws dict Hd) as (gs' & ds & H1 & H2 & H3 & H4 & _ & H5). exists gs', ds. auto. Qed.
End Glyphs.
