(** The decision among candidates: ranking, complex and exclusive features. *)
From Verif Require Import Base BaseProofs SortModel ImageModel ImageSpec StratModel StratSpec StratFeatures3 ZoneModel ZoneProofs3 DatasModel DatasSpec DatasProofs TrieModel TrieProofs DictionaryProofs NormProofs
  UtilModel IndexModel FloatModel FloatSpec FloatProofs FloatProofs2 RecogModel RecogSpec RecogProofs RecogProofs2 GlyphsProofs3 Ocr6Model Ocr6Spec Ocr6Proofs Ocr6Proofs2.
From Coq Require Import Sorted SpecFloat Permutation.

(** * The order of the lists of words *)
Lemma eq_words_eq a : forall b, eq_words a b = true <-> a = b.
Proof.
  induction a as [|x a IH]; intros [|y b]; cbn [eq_words]; try (split; intros H; congruence || discriminate || reflexivity).
  rewrite andb_true_iff, IH, eqb_word. split; [intros (-> & ->); reflexivity|intros E; injection E as <- <-; auto].
Qed.
Lemma lt_words_irrefl a : lt_words a a = false.
Proof. induction a as [|x a IH]; [reflexivity|]. cbn [lt_words]. now rewrite (proj2 (eqb_word x x) eq_refl). Qed.
Lemma lt_words_trans a : forall b c, lt_words a b = true -> lt_words b c = true -> lt_words a c = true.
Proof.
  induction a as [|x a IH]; intros [|y b] [|z c] H1 H2; cbn [lt_words] in *; try discriminate.
  destruct (TrieModel.list_eqb x y) eqn:E1, (TrieModel.list_eqb y z) eqn:E2.
  - apply eqb_word in E1, E2. subst. rewrite (proj2 (eqb_word z z) eq_refl). now apply (IH b).
  - apply eqb_word in E1. subst. rewrite E2. exact H2.
  - apply eqb_word in E2. subst. rewrite E1. exact H1.
  - pose proof (list_ltb_trans _ _ _ H1 H2) as H. destruct (TrieModel.list_eqb x z) eqn:E; [|exact H].
    apply eqb_word in E. subst. rewrite list_ltb_irrefl in H. discriminate.
Qed.
Lemma lt_words_total a : forall b, List.length a = List.length b -> lt_words a b = true \/ a = b \/ lt_words b a = true.
Proof.
  induction a as [|x a IH]; intros [|y b] L; try discriminate; [auto|]. cbn [lt_words]. injection L as L.
  destruct (TrieModel.list_eqb x y) eqn:E.
  - apply eqb_word in E. subst. rewrite (proj2 (eqb_word y y) eq_refl). destruct (IH b L) as [H|[->|H]]; auto.
  - replace (TrieModel.list_eqb y x) with false.
    + destruct (list_ltb Z.ltb x y) eqn:L1; [auto|]. destruct (list_ltb Z.ltb y x) eqn:L2; [auto|].
      rewrite (list_ltb_false_eq _ _ L1 L2) in E. rewrite (proj2 (eqb_word y y) eq_refl) in E. discriminate.
    + destruct (TrieModel.list_eqb y x) eqn:E'; [|reflexivity]. apply eqb_word in E'. subst. rewrite (proj2 (eqb_word x x) eq_refl) in E. discriminate.
Qed.
Definition wl (a b : list (list Z)) : Prop := (List.length a < List.length b)%nat \/ (List.length a = List.length b /\ lt_words a b = true).
Lemma wl_irrefl a : ~ wl a a.
Proof. intros [H|(_ & H)]; [lia|]. rewrite lt_words_irrefl in H. discriminate. Qed.
Lemma wl_trans a b c : wl a b -> wl b c -> wl a c.
Proof. intros [H|(H & H')] [K|(K & K')]; unfold wl; [left; lia|left; lia|left; lia|right; split; [lia|exact (lt_words_trans _ _ _ H' K')]]. Qed.
Lemma wl_total a b : wl a b \/ a = b \/ wl b a.
Proof.
  unfold wl. destruct (Nat.lt_trichotomy (List.length a) (List.length b)) as [H|[H|H]]; [auto| |auto].
  destruct (lt_words_total a b H) as [K|[K|K]]; auto.
Qed.

(** * The ranking *)
Definition key (p : prob) : Z := dkey (pr_p p).
Definition unitp (p : prob) : Prop := unit_double (pr_p p).
Definition one (p : prob) : bool := dle d1 (pr_p p).
Lemma dlt_unit p q : unitp p -> unitp q -> dlt (pr_p p) (pr_p q) = (key p <? key q).
Proof. intros. now apply dlt_key. Qed.
Lemma dle_unit p q : unitp p -> unitp q -> dle (pr_p p) (pr_p q) = (key p <=? key q).
Proof. intros. now apply dle_key. Qed.
Lemma one_unit p : unitp p -> one p = (dkey d1 <=? key p).
Proof. intros. apply dle_key; [apply unit_d1|assumption]. Qed.
Lemma one_mono p q : unitp p -> unitp q -> key q <= key p -> one q = true -> one p = true.
Proof. intros Up Uq H. rewrite !one_unit by assumption. lia. Qed.
Section Rank.
Context (words : list (list (list Z))).
Notation W := (words_at words).
Lemma lt6_iff p q : unitp p -> unitp q -> (lt6 words p q = true <-> wl (W p) (W q) \/ (W p = W q /\ key q < key p)).
Proof.
  intros Bp Bq. unfold lt6. cbv zeta. destruct (Nat.ltb_spec (List.length (W p)) (List.length (W q))) as [H|H].
  - split; [intros _; left; left; exact H|reflexivity].
  - destruct (Nat.ltb_spec (List.length (W q)) (List.length (W p))) as [K|K].
    + split; [discriminate|]. intros [[L|(L & _)]|(E & _)]; [lia|lia|rewrite E in K; lia].
    + destruct (eq_words (W p) (W q)) eqn:E.
      * apply eq_words_eq in E. rewrite dlt_unit by assumption. rewrite Z.ltb_lt. split.
        -- intros B. right. split; [exact E|exact B].
        -- intros [L|(_ & L)]; [rewrite E in L; destruct (wl_irrefl _ L)|exact L].
      * split; [intros L; left; right; split; [lia|exact L]|]. intros [[L|(_ & L)]|(E' & _)]; [lia|exact L|].
        rewrite E' in E. rewrite (proj2 (eq_words_eq _ _) eq_refl) in E. discriminate.
Qed.
Lemma lt6_not p q : unitp p -> unitp q -> lt6 words p q = false -> wl (W q) (W p) \/ (W p = W q /\ key p <= key q).
Proof.
  intros Bp Bq E. destruct (wl_total (W p) (W q)) as [L|[L|L]]; [|right; split; [exact L|]|auto].
  - rewrite (proj2 (lt6_iff p q Bp Bq) (or_introl L)) in E. discriminate.
  - destruct (Z.le_gt_cases (key p) (key q)) as [|G]; [assumption|]. rewrite (proj2 (lt6_iff p q Bp Bq)) in E; [discriminate|]. right. auto.
Qed.
Lemma lt6_strict_weak l : (forall p, In p l -> unitp p) -> strict_weak (lt6 words) l.
Proof.
  intros B. pose proof (fun p q Hp Hq => lt6_not p q (B p Hp) (B q Hq)) as F. repeat split.
  - intros a Ha. destruct (lt6 words a a) eqn:E; [|reflexivity]. apply lt6_iff in E; auto. destruct E as [L|(_ & L)]; [destruct (wl_irrefl _ L)|lia].
  - intros a b c Ha Hb Hc E1 E2. apply lt6_iff in E1; auto. apply lt6_iff in E2; auto. apply lt6_iff; auto.
    destruct E1 as [L1|(Q1 & O1)], E2 as [L2|(Q2 & O2)].
    + left. exact (wl_trans _ _ _ L1 L2).
    + left. now rewrite <- Q2.
    + left. now rewrite Q1.
    + right. split; [congruence|lia].
  - intros a b c Ha Hb Hc E1 E2. destruct (lt6 words a c) eqn:E3; [|reflexivity]. exfalso. apply lt6_iff in E3; auto.
    destruct (F a b Ha Hb E1) as [L1|(Q1 & O1)], (F b c Hb Hc E2) as [L2|(Q2 & O2)].
    + pose proof (wl_trans _ _ _ L2 L1) as L. destruct E3 as [L3|(Q & _)]; [exact (wl_irrefl _ (wl_trans _ _ _ L L3))|rewrite Q in L; exact (wl_irrefl _ L)].
    + rewrite Q2 in L1. destruct E3 as [L3|(Q & _)]; [exact (wl_irrefl _ (wl_trans _ _ _ L1 L3))|rewrite Q in L1; exact (wl_irrefl _ L1)].
    + rewrite <- Q1 in L2. destruct E3 as [L3|(Q & _)]; [exact (wl_irrefl _ (wl_trans _ _ _ L2 L3))|rewrite Q in L2; exact (wl_irrefl _ L2)].
    + destruct E3 as [L3|(Q & O3)]; [rewrite Q1, Q2 in L3; exact (wl_irrefl _ L3)|lia].
Qed.
Lemma gt_strict_weak l : (forall p, In p l -> unitp p) -> strict_weak gt_prob l.
Proof.
  intros B. unfold gt_prob. repeat split.
  - intros a Ha. rewrite dlt_unit by auto. apply Z.ltb_irrefl.
  - intros a b c Ha Hb Hc. rewrite !dlt_unit by auto. rewrite !Z.ltb_lt. lia.
  - intros a b c Ha Hb Hc. rewrite !dlt_unit by auto. rewrite !Z.ltb_ge. lia.
Qed.
Lemma unique6_ok : forall ps p, (forall q, In q (p :: ps) -> unitp q) -> sorted_by (lt6 words) (p :: ps) ->
  let r := unique6_from words p ps in
  incl r ps /\ (forall q, In q r -> wl (W p) (W q)) /\ NoDup (map W r) /\
  forall q, In q ps -> exists q', In q' (p :: r) /\ W q' = W q /\ key q <= key q'.
Proof.
  induction ps as [|q ps IH]; intros p B So; cbv zeta; cbn [unique6_from].
  - split; [intros x []|]. split; [intros x []|]. split; [constructor|intros x []].
  - unfold sorted_by in So. apply StronglySorted_inv in So. destruct So as (So & Fo). rewrite Forall_forall in Fo.
    assert (Bp : unitp p) by (apply B; now left). assert (Bq : unitp q) by (apply B; right; now left).
    pose proof (Fo q (or_introl eq_refl)) as Lq. destruct (eq_words (W p) (W q)) eqn:E.
    + apply eq_words_eq in E. destruct (IH p) as (I1 & I2 & I3 & I4).
      * intros x [<-|Hx]; [exact Bp|apply B; right; now right].
      * unfold sorted_by. apply StronglySorted_inv in So. destruct So as (So & _). constructor; [exact So|]. apply Forall_forall. intros x Hx. apply Fo. now right.
      * split; [intros x Hx; right; now apply I1|]. split; [exact I2|]. split; [exact I3|]. intros x [<-|Hx]; [|now apply I4].
        exists p. split; [now left|]. split; [exact E|]. destruct (lt6_not q p Bq Bp Lq) as [L|(_ & L)]; [rewrite E in L; destruct (wl_irrefl _ L)|exact L].
    + assert (L : wl (W p) (W q)).
      { destruct (lt6_not q p Bq Bp Lq) as [L|(L & _)]; [exact L|]. rewrite L in E. rewrite (proj2 (eq_words_eq _ _) eq_refl) in E. discriminate. }
      destruct (IH q) as (I1 & I2 & I3 & I4).
      * intros x Hx. apply B. now right.
      * exact So.
      * split; [intros x [<-|Hx]; [now left|right; now apply I1]|]. split; [intros x [<-|Hx]; [exact L|exact (wl_trans _ _ _ L (I2 x Hx))]|]. split.
        -- cbn [map]. constructor; [|exact I3]. intros C. apply in_map_iff in C. destruct C as (x & Ex & Hx). apply I2 in Hx. rewrite Ex in Hx. exact (wl_irrefl _ Hx).
        -- intros x [<-|Hx]; [exists q; split; [right; now left|split; [reflexivity|lia]]|]. destruct (I4 x Hx) as (x' & Hx' & K). exists x'. split; [now right|exact K].
Qed.

Context (rt : runtime6) (HVs : is_std_sort (lt6 words) (r6_views rt words)) (HPs : is_std_sort gt_prob (r6_probs rt)).
Lemma rank6_ok ps : (forall p, In p ps -> unitp p /\ 0 <= pr_i p < Z.of_nat (List.length words)) ->
  exists r, rank6 rt words ps = Ok r /\ incl r ps /\ NoDup (map W r) /\
    (forall q, In q ps -> exists p, In p r /\ W p = W q /\ key q <= key p) /\
    StronglySorted (fun p q => key q <= key p) r.
Proof.
  intros H. unfold rank6. replace (forallb (fun p => (0 <=? pr_i p) && (pr_i p <? vsize words)) ps) with true.
  2:{ symmetry. apply forallb_forall. intros p Hp. destruct (H p Hp) as (_ & Hi). unfold vsize. apply andb_true_iff. split; [apply Z.leb_le|apply Z.ltb_lt]; lia. }
  eexists. split; [reflexivity|]. assert (B : forall p, In p ps -> unitp p) by (intros p Hp; now apply H).
  destruct (HVs ps (lt6_strict_weak ps B)) as (P1 & S1). set (vs := r6_views rt words ps) in *.
  assert (Bv : forall p, In p vs -> unitp p) by (intros p Hp; apply B; exact (Permutation_in p (Permutation_sym P1) Hp)).
  assert (U : incl (unique6 words vs) vs /\ NoDup (map W (unique6 words vs)) /\
    forall q, In q vs -> exists p, In p (unique6 words vs) /\ W p = W q /\ key q <= key p).
  { unfold unique6. destruct vs as [|p vs']; [split; [intros x []|split; [constructor|intros q []]]|].
    destruct (unique6_ok vs' p Bv S1) as (I1 & I2 & I3 & I4). split; [intros x [<-|Hx]; [now left|right; now apply I1]|]. split.
    - cbn [map]. constructor; [|exact I3]. intros C. apply in_map_iff in C. destruct C as (x & Ex & Hx). apply I2 in Hx. rewrite Ex in Hx. exact (wl_irrefl _ Hx).
    - intros q [<-|Hq]; [exists p; split; [now left|split; [reflexivity|lia]]|now apply I4]. }
  destruct U as (U1 & U2 & U3). set (us := unique6 words vs) in *.
  assert (Bu : forall p, In p us -> unitp p) by (intros p Hp; apply Bv; now apply U1).
  destruct (HPs us (gt_strict_weak us Bu)) as (P2 & S2). set (r := r6_probs rt us) in *.
  assert (Br : forall p, In p r -> unitp p) by (intros p Hp; apply Bu; exact (Permutation_in p (Permutation_sym P2) Hp)).
  split; [|split; [|split]].
  - intros x Hx. apply (Permutation_in x (Permutation_sym P1)). apply U1. exact (Permutation_in x (Permutation_sym P2) Hx).
  - exact (Permutation_NoDup (Permutation_map W P2) U2).
  - intros q Hq. destruct (U3 q (Permutation_in q P1 Hq)) as (p & Hp & K). exists p. split; [exact (Permutation_in p P2 Hp)|exact K].
  - clear - S2 Br. unfold sorted_by in S2. induction S2 as [|p r S IH F]; constructor; [apply IH; intros x Hx; apply Br; now right|].
    rewrite Forall_forall in *. intros q Hq. specialize (F q Hq). unfold gt_prob in F. rewrite dlt_unit in F by (apply Br; (now left) || (now right)). apply Z.ltb_ge in F. exact F.
Qed.
End Rank.

(** * The features *)
Definition unturned (s : strategy) : strategy := mkst (st_algo s) false.
Lemma load6_alone junk zsort img img90 s : recognisable img -> rotate90 img = Ok img90 ->
  load6 junk zsort img img90 s = feature_alone zsort (unturned s) img img90.
Proof.
  intros R E. destruct (recognisable_both _ _ R E) as (_ & Z1 & Z2). unfold load6.
  assert (C : forall a b, coherent a b fresh_ctxs) by (intros a b; split; cbn; intros; discriminate).
  destruct s as [a []]; cbn [st_rot].
  - pose proof (strategy_load_agrees junk zsort (mkst a true) img90 img fresh_ctxs Z2 Z1 (C _ _)) as A.
    replace (feature_alone zsort (mkst a true) img90 img) with (feature_alone zsort (unturned (mkst a true)) img img90) in A by (destruct a; reflexivity).
    destruct (strategy_load junk zsort (mkst a true) img90 img fresh_ctxs) as [(v, cx)| | |]; cbn [agrees bind] in *; [destruct A as (-> & _); reflexivity|now rewrite A..].
  - pose proof (strategy_load_agrees junk zsort (mkst a false) img img90 fresh_ctxs Z1 Z2 (C _ _)) as A.
    destruct (strategy_load junk zsort (mkst a false) img img90 fresh_ctxs) as [(v, cx)| | |]; cbn [agrees bind] in *; [destruct A as (A & _); exact (eq_sym A)|exact (eq_sym A)..].
Qed.
Lemma unturned_all s : In s all_strategies -> In (unturned s) all_strategies.
Proof.
  intros H. assert (G : forallb (fun s => existsb (strategy_eqb (unturned s)) all_strategies) all_strategies = true) by (vm_compute; reflexivity).
  rewrite forallb_forall in G. specialize (G s H). apply existsb_exists in G. destruct G as (s' & Hs & E). apply strategy_eqb_eq in E. now subst.
Qed.
Lemma unturned_simple s : In s simple_strategies -> In (unturned s) simple_strategies.
Proof.
  intros H. assert (G : forallb (fun s => existsb (strategy_eqb (unturned s)) simple_strategies) simple_strategies = true) by (vm_compute; reflexivity).
  rewrite forallb_forall in G. specialize (G s H). apply existsb_exists in G. destruct G as (s' & Hs & E). apply strategy_eqb_eq in E. now subst.
Qed.
Lemma tenth_pos n : 0 <= n -> 0 <= tenth n. Proof. intros. apply Z.div_pos; lia. Qed.
Lemma Ok_inj {A} (a b : A) : Ok a = Ok b -> a = b. Proof. congruence. Qed.
Section Decide.
Context (rt : runtime6) (cols : list (list fval)) (words : list (list (list Z))) (by_word : list (list Z)) (HE : base6 rt cols words by_word) (img img90 : image) (HR : recognisable img) (H90 : rotate90 img = Ok img90) (junk : Z -> Z).
Notation N := (Z.of_nat (List.length words)).
Notation zsort := (r6_zones rt).
Notation load := (load6 junk zsort img img90).
Let inp := mkin junk zsort img img90.
Lemma HI : sound_input inp. Proof. split; [exact HR|]. split; [exact H90|]. exact (b6_zones _ _ _ _ HE). Qed.
Definition sv (s : strategy) : fval := fv inp (unturned s).
Lemma load_sv s : In s all_strategies -> load s = Ok (sv s).
Proof. intros Hs. rewrite load6_alone by assumption. exact (feature_ok inp HI (unturned s) (unturned_all s Hs)). Qed.
Lemma seen_sv s v : In s all_strategies -> (seen6 zsort img s v <-> v = sv s).
Proof.
  intros Hs. pose proof (feature_ok inp HI (unturned s) (unturned_all s Hs)) as F. unfold feature in F. cbn [inp in_zsort in_img in_img90] in F. split.
  - intros (r & E & Fv). assert (r = img90) by congruence. subst r. unfold sv. change (mkst (st_algo s) false) with (unturned s) in Fv. congruence.
  - intros ->. exists img90. split; [exact H90|exact F].
Qed.
Definition value (s : strategy) : Z := Ocr6Model.num (sv s).
Lemma simple_sv s : In s simple_strategies -> sv s = VNum (value s) /\ 0 <= value s <= range s.
Proof.
  intros Hs. destruct (simple_feature inp HI (unturned s) (unturned_simple s Hs)) as (_ & E & B & _). unfold value, sv. rewrite E in *. cbn in *. split; [reflexivity|exact B].
Qed.
Lemma value_range : in_range6 value.
Proof.
  intros s Hs. destruct (simple_sv s Hs) as (_ & B). split; [lia|]. unfold tenth. apply Z.div_le_mono; lia.
Qed.
Lemma load_algos : exists vs, map_res load algos6 = Ok vs /\ map Ocr6Model.num vs = map value algos6.
Proof.
  exists (map sv algos6). split; [|rewrite map_map; reflexivity]. apply map_res_ok. intros s Hs. apply load_sv. destruct (algos_ok s Hs) as (_ & _ & _ & H).
  now apply simple_in_all.
Qed.

(** ** Cells *)
Lemma cell_ok s i : In s all_strategies -> 0 <= i < N -> exists c v, get_col all_strategies cols s = Ok c /\ col_at c i = Ok v /\ typed s v /\
  forall v', cell6 cols s i v' <-> v' = v.
Proof.
  intros Hs Hi. destruct (get_col_In s all_strategies cols Hs (b6_columns _ _ _ _ HE)) as (c & E & Hc).
  destruct (b6_rows _ _ _ _ HE s c Hc) as (L & Ty).
  destruct (nth_error c (Z.to_nat i)) as [v|] eqn:Ev; [|apply nth_error_None in Ev; lia]. exists c, v. split; [exact E|]. split.
  { unfold col_at. destruct (Z.ltb_spec i 0); [lia|]. now rewrite Ev. }
  split; [apply Ty; eapply nth_error_In; exact Ev|]. intros v'. split.
  - intros (_ & c' & Hc' & Ev'). pose proof (get_col_unique s c' all_strategies cols all_strategies_NoDup Hc') as E'. assert (c' = c) by congruence. subst c'. congruence.
  - intros ->. split; [lia|]. now exists c.
Qed.

(** ** Complex features *)
Definition cellv (s : strategy) (i : Z) : fval := match get_col all_strategies cols s with Ok c => match col_at c i with Ok v => v | _ => VNum 0 end | _ => VNum 0 end.
Lemma cellv_ok s i : In s all_strategies -> 0 <= i < N -> exists c, get_col all_strategies cols s = Ok c /\ col_at c i = Ok (cellv s i) /\ typed s (cellv s i) /\
  forall v', cell6 cols s i v' <-> v' = cellv s i.
Proof.
  intros Hs Hi. destruct (cell_ok s i Hs Hi) as (c & v & E & Ev & T & U). exists c. unfold cellv. rewrite E, Ev. auto.
Qed.
Definition pct6 (s : strategy) (i : Z) : Z := percentage s (cellv s i) (sv s).
(** The score after a complex feature. *)
Definition stepd (i : Z) (p : double) (s : strategy) : double := match st_algo s with Hbar => p | _ => share p (pct6 s i) 100 end.
Lemma complex_compute s i : In s complex_strategies -> 0 <= i < N ->
  exists x, rel_compute (rel s) (cellv s i) (sv s) = Ok x /\ ((rel_count (rel s) - 1 + 1) / 2 <=? x) = (50 <=? pct6 s i) /\ 0 <= pct6 s i <= 100 /\
    (50 <= pct6 s i -> forall p, unit_double p -> ddiv (dmul p (double_of x)) (double_of (rel_count (rel s) - 1)) = stepd i p s).
Proof.
  intros Hs Hi. destruct (cellv_ok s i (complex_in_all s Hs) Hi) as (_ & _ & _ & T & _). unfold stepd, pct6, rel. unfold complex_strategies in Hs. apply in_app_iff in Hs as [Hs|Hs].
  - assert (Ea : st_algo s = Hbar) by (cbn in Hs; destruct Hs as [<-|[<-|[]]]; reflexivity).
    assert (Hu : In (unturned s) (registry2 Hbar)) by (unfold unturned; rewrite Ea; cbn; auto).
    destruct (hbar_feature inp HI (unturned s) Hu) as (_ & Ef). unfold sv. rewrite Ef. unfold typed in T. rewrite Ea in T. destruct T as (n & -> & _). rewrite Ea.
    cbn [relation_of rel_compute]. unfold equal_compute, percentage. rewrite Ea. eexists. split; [reflexivity|]. destruct (n =? _); cbn [rel_count].
    + split; [reflexivity|]. split; [lia|]. intros _ p Hp. exact (share_1_1 p Hp).
    + split; [reflexivity|]. split; [lia|]. intros C. lia.
  - cbn in Hs. destruct Hs as [<-|[]]. destruct (alternations_feature inp HI) as (_ & l & Ef & Ll). unfold sv. change (unturned (mkst Alternations false)) with (mkst Alternations false).
    rewrite Ef. unfold typed in T. cbn [st_algo] in T. destruct T as (l' & -> & Ll'). cbn [st_algo relation_of rel_compute percentage].
    destruct (array_law alt_eqb alt_eqb_eq l' l 0) as (v & Ev & _ & Bv & _ & Ev' & _); [intros ->; discriminate Ll'|congruence|].
    exists v. rewrite Ev, <- Ev'. split; [reflexivity|]. cbn [rel_count]. split; [reflexivity|]. split; [exact Bv|]. intros _ p Hp. reflexivity.
Qed.
Lemma stepd_unit s i p : In s complex_strategies -> 0 <= i < N -> unit_double p -> unit_double (stepd i p s).
Proof.
  intros Hs Hi Hp. destruct (complex_compute s i Hs Hi) as (_ & _ & _ & B & _). unfold stepd. destruct (st_algo s); try exact Hp; apply share_unit; (assumption || lia).
Qed.
Lemma reduce_complex1_ok s c : In s complex_strategies -> get_col all_strategies cols s = Ok c ->
  forall ps, (forall p, In p ps -> unitp p /\ 0 <= pr_i p < N) ->
  reduce_complex1 (rel s) c (sv s) ps = Ok (map (fun p => mkpr (pr_i p) (stepd (pr_i p) (pr_p p) s)) (filter (fun p => 50 <=? pct6 s (pr_i p)) ps)).
Proof.
  intros Hs Ec. induction ps as [|p l IH]; intros H; [reflexivity|]. destruct (H p (or_introl eq_refl)) as (Up & Hi).
  cbn [reduce_complex1 filter]. destruct (cellv_ok s (pr_i p) (complex_in_all s Hs) Hi) as (c' & E & Ea & _). assert (c' = c) by congruence. subst c'. rewrite Ea. cbn [bind].
  destruct (complex_compute s (pr_i p) Hs Hi) as (x & -> & Ex & _ & St). cbn [bind]. rewrite IH by (intros j Hj; apply H; now right). cbn [bind]. rewrite Ex.
  destruct (Z.leb_spec 50 (pct6 s (pr_i p))) as [L|L]; [|reflexivity]. cbn [map]. do 3 f_equal. now apply St.
Qed.
Lemma reduce_complex6_ok : forall cs, incl cs complex_strategies -> forall ps, (forall p, In p ps -> unitp p /\ 0 <= pr_i p < N) ->
  reduce_complex6 load cols cs ps =
  Ok (map (fun p => mkpr (pr_i p) (fold_left (stepd (pr_i p)) cs (pr_p p))) (filter (fun p => forallb (fun s => 50 <=? pct6 s (pr_i p)) cs) ps)).
Proof.
  induction cs as [|s cs IH]; intros Hi ps H; cbn [reduce_complex6].
  - cbn [forallb fold_left]. rewrite filter_true. f_equal. transitivity (map (fun q => q) ps); [now rewrite map_id|]. apply map_ext. now intros [].
  - assert (Hs : In s complex_strategies) by (apply Hi; now left).
    destruct (get_col_In s all_strategies cols (complex_in_all s Hs) (b6_columns _ _ _ _ HE)) as (c & E & _). rewrite E. cbn [bind].
    rewrite load_sv by (now apply complex_in_all). cbn [bind]. rewrite (reduce_complex1_ok s c Hs E ps H). cbn [bind]. rewrite IH.
    + cbn [forallb fold_left]. rewrite <- filter_filter. f_equal. set (l := filter (fun p => 50 <=? pct6 s (pr_i p)) ps). clearbody l. clear.
      induction l as [|p l IHl]; [reflexivity|]. cbn [map filter pr_i]. destruct (forallb _ cs); cbn [map pr_i pr_p]; now rewrite IHl.
    + intros x Hx. apply Hi. now right.
    + intros p Hp. apply in_map_iff in Hp as (q & <- & Hq). apply filter_In in Hq as (Hq & _). destruct (H q Hq) as (Uq & Iq). cbn [pr_i]. split; [|exact Iq]. now apply stepd_unit.
Qed.
Definition plausibleb6 (i : Z) : bool := forallb (fun s => 50 <=? pct6 s i) complex_strategies.
Lemma plausible6_iff i : 0 <= i < N -> plausibleb6 i = true <-> plausible6 zsort img cols i.
Proof.
  intros Hi. unfold plausibleb6, plausible6. rewrite forallb_forall. split.
  - intros H s a b Hs Fa Cb. apply seen_sv in Fa; [|now apply complex_in_all]. destruct (cellv_ok s i (complex_in_all s Hs) Hi) as (_ & _ & _ & _ & U). apply U in Cb.
    subst. apply Z.leb_le. exact (H s Hs).
  - intros H s Hs. destruct (cellv_ok s i (complex_in_all s Hs) Hi) as (_ & _ & _ & _ & U). apply Z.leb_le. apply H; [exact Hs| |].
    + apply seen_sv; [now apply complex_in_all|reflexivity].
    + apply U. reflexivity.
Qed.

(** ** Exclusive features *)
Notation pred6 := (has_value cols exclusive_strategies (map sv exclusive_strategies)).
Lemma pred6_eq j : 0 <= j < N -> exists l l',
  sv (mkst ProportionalityZone false) = VVec l /\ cellv (mkst ProportionalityZone false) j = VVec l' /\
  pred6 j = (if 50 <=? pct6 (mkst Zone false) j then x <- pz_compute l' l ;; Ok (50 <=? x) else Ok false).
Proof.
  intros Hj. destruct (zone_feature inp HI) as (_ & z & Ez & Lz). destruct (pz_feature inp HI) as (_ & l & El & _).
  destruct (cellv_ok (mkst Zone false) j (exclusive_in_all _ ltac:(now left)) Hj) as (cz & Gz & Az & Tz & _).
  destruct (cellv_ok (mkst ProportionalityZone false) j (exclusive_in_all _ ltac:(right; now left)) Hj) as (cp & Gp & Ap & Tp & _).
  unfold typed in Tz, Tp. cbn [st_algo] in Tz, Tp. destruct Tz as (z' & Ez' & Lz'). destruct Tp as (l' & El').
  assert (Ez0 : sv (mkst Zone false) = VArr z) by exact Ez. assert (El0 : sv (mkst ProportionalityZone false) = VVec l) by exact El.
  exists l, l'. split; [exact El0|]. split; [exact El'|].
  change exclusive_strategies with [mkst Zone false; mkst ProportionalityZone false]. cbn [map has_value].
  rewrite Gz. cbn [bind]. rewrite Az. cbn [bind]. unfold pct6. rewrite Ez0, Ez'. unfold rel at 1. cbn [st_algo relation_of rel_compute].
  change (rel_count (rel (mkst Zone false)) / 2) with 50.
  destruct (array_law Z.eqb Z.eqb_eq z' z 0) as (v & Ev & _ & _ & _ & Ev' & _); [intros ->; discriminate Lz'|congruence|]. rewrite Ev. cbn [bind percentage].
  rewrite <- Ev'. destruct (50 <=? v); [|reflexivity].
  rewrite Gp. cbn [bind]. rewrite Ap. cbn [bind]. rewrite El0, El'. unfold rel at 1. cbn [st_algo relation_of rel_compute].
  change (rel_count (rel (mkst ProportionalityZone false)) / 2) with 50.
  destruct (pz_compute l' l) as [x| | |]; cbn [bind]; try reflexivity. destruct (50 <=? x); reflexivity.
Qed.
Lemma pred6_alike j : 0 <= j < N -> (pred6 j = Ok true <-> alike6 zsort img cols j).
Proof.
  intros Hj. destruct (pred6_eq j Hj) as (l & l' & El & El' & ->).
  assert (Hz := exclusive_in_all (mkst Zone false) ltac:(now left)).
  assert (Hp := exclusive_in_all (mkst ProportionalityZone false) ltac:(right; now left)).
  destruct (cellv_ok _ j Hz Hj) as (_ & _ & _ & _ & Uz). destruct (cellv_ok _ j Hp Hj) as (_ & _ & _ & _ & Up).
  unfold alike6. split.
  - destruct (Z.leb_spec 50 (pct6 (mkst Zone false) j)) as [H|H]; [|discriminate]. intros E. split.
    + intros a b Fa Cb. apply seen_sv in Fa; [|exact Hz]. apply Uz in Cb. subst a b. exact H.
    + intros a b Fa Cb. apply seen_sv in Fa; [|exact Hp]. apply Up in Cb. rewrite El in Fa. rewrite El' in Cb.
      injection Fa as ->. injection Cb as ->. destruct (pz_compute l' l) as [v| | |]; cbn [bind] in E; try discriminate E.
      exists v. split; [reflexivity|]. injection E as E. lia.
  - intros (A & B). specialize (A _ _ (proj2 (seen_sv _ _ Hz) eq_refl) (proj2 (Uz _) eq_refl)). fold (pct6 (mkst Zone false) j) in A.
    destruct (Z.leb_spec 50 (pct6 (mkst Zone false) j)); [|lia].
    destruct (B l l') as (v & Ev & Hv); [apply seen_sv; [exact Hp|now rewrite El]|apply Up; now rewrite El'|]. rewrite Ev. cbn [bind]. f_equal. lia.
Qed.
Lemma pred6_total j : comparable6 zsort img cols -> 0 <= j < N -> exists b, pred6 j = Ok b.
Proof.
  intros Cm Hj. destruct (pred6_eq j Hj) as (l & l' & El & El' & ->). destruct (50 <=? _); [|eauto].
  assert (Hp := exclusive_in_all (mkst ProportionalityZone false) ltac:(right; now left)). destruct (cellv_ok _ j Hp Hj) as (_ & _ & _ & _ & Up).
  destruct (pz_feature inp HI) as (_ & l0 & E0 & B0 & L0). assert (E1 : sv (mkst ProportionalityZone false) = VVec l0) by exact E0.
  rewrite E1 in El. injection El as ->.
  destruct (Cm j l l') as (By & Pos); [apply seen_sv; [exact Hp|now rewrite E1]|apply Up; now rewrite El'|].
  destruct (Nat.eq_dec (List.length l') (List.length l)) as [En|Nn].
  - destruct (pz_compute_ok l' l By B0 Pos ltac:(lia)) as (v & Ev & _). rewrite Ev. cbn [bind]. eauto.
  - unfold pz_compute. replace (Nat.eqb (List.length l') (List.length l)) with false by (symmetry; now apply Nat.eqb_neq). cbn [negb bind]. eauto.
Qed.

Definition keep6 (i : Z) : res bool :=
  same <- rd (by_word) i ;; match same with [] => Ok true | _ :: _ => some_of pred6 same end.
Definition kb6 (i : Z) : bool := match keep6 i with Ok b => b | _ => false end.
Lemma same_words6 i : 0 <= i < N -> exists same, rd (by_word) i = Ok same /\ forall j, In j same <-> same_word6 words i j.
Proof.
  intros Hi. pose proof (b6_size _ _ _ _ HE). destruct (data_by_word_exact words ltac:(lia) (b6_words _ _ _ _ HE)) as (out & E & _ & W).
  rewrite (b6_by_word _ _ _ _ HE) in E. injection E as <-. destruct (W i Hi) as (l & El & _ & Hl). eauto.
Qed.
Lemma keep6_supported i b : 0 <= i < N -> keep6 i = Ok b -> (b = true <-> supported6 zsort img cols words i).
Proof.
  intros Hi E. unfold keep6 in E. destruct (same_words6 i Hi) as (same & Es & W). rewrite Es in E. cbn [bind] in E.
  unfold supported6. destruct same as [|j0 same].
  - injection E as <-. split; [intros _; left; intros j Hj; now apply W in Hj|reflexivity].
  - rewrite (some_of_inv _ _ _ E). split.
    + intros (j & Hj & Ej). right. exists j. assert (Sj : same_word6 words i j) by now apply W. split; [exact Sj|].
      apply pred6_alike; [destruct Sj as (_ & ? & _); assumption|exact Ej].
    + intros [C|(j & Sj & Aj)]; [exfalso; apply (C j0), W; now left|]. exists j. split; [now apply W|].
      apply pred6_alike; [destruct Sj as (_ & ? & _); assumption|exact Aj].
Qed.
Lemma keep6_total i : comparable6 zsort img cols -> 0 <= i < N -> exists b, keep6 i = Ok b.
Proof.
  intros Cm Hi. unfold keep6. destruct (same_words6 i Hi) as (same & -> & W). cbn [bind]. destruct same as [|j0 same]; [eauto|].
  apply some_of_total. intros j Hj. apply W in Hj. destruct Hj as (_ & Hj & _). now apply pred6_total.
Qed.
Lemma reduce6_inv : forall l r, reduce_by_word by_word pred6 l = Ok r ->
  r = filter (fun p => kb6 (pr_i p)) l /\ forall p, In p l -> exists b, keep6 (pr_i p) = Ok b.
Proof.
  induction l as [|p l IH]; intros r E; cbn [reduce_by_word] in E.
  - injection E as <-. split; [reflexivity|intros i []].
  - apply bind_Ok in E as (same & Es & E). apply bind_Ok in E as (b & Eb & E).
    apply bind_Ok in E as (l' & El & E). destruct (IH l' El) as (-> & K).
    assert (Ek : keep6 (pr_i p) = Ok b) by (unfold keep6; rewrite Es; exact Eb).
    split; [|intros j [<-|Hj]; [eauto|auto]]. cbn [filter]. unfold kb6 at 1. rewrite Ek. destruct b; injection E as <-; reflexivity.
Qed.
Lemma reduce6_total l : (forall p, In p l -> exists b, keep6 (pr_i p) = Ok b) ->
  reduce_by_word by_word pred6 l = Ok (filter (fun p => kb6 (pr_i p)) l).
Proof.
  induction l as [|p l IH]; intros H; cbn [reduce_by_word]; [reflexivity|].
  destruct (H p ltac:(now left)) as (b & Ek). assert (Ek' := Ek). unfold keep6 in Ek. apply bind_Ok in Ek as (same & -> & Ek).
  cbn [bind]. rewrite Ek. cbn [bind]. rewrite IH by (intros j Hj; apply H; now right). cbn [bind filter].
  replace (kb6 (pr_i p)) with b by (unfold kb6; now rewrite Ek'). destruct b; reflexivity.
Qed.
Lemma load_exclusive : map_res load exclusive_strategies = Ok (map sv exclusive_strategies).
Proof. apply map_res_ok. intros s Hs. apply load_sv. now apply exclusive_in_all. Qed.
Lemma reduce_exclusive6_ok l : (forall p, In p l -> 0 <= pr_i p < N) ->
  (forall ps, reduce_exclusive6 load cols by_word l = Ok ps -> forall p, In p ps <-> In p l /\ supported6 zsort img cols words (pr_i p)) /\
  (comparable6 zsort img cols -> exists ps, reduce_exclusive6 load cols by_word l = Ok ps).
Proof.
  intros H. unfold reduce_exclusive6. destruct l as [|p0 l].
  - split; [|intros _; eauto]. intros ps E. injection E as <-. intros i. cbn. tauto.
  - set (l0 := p0 :: l) in *. clearbody l0. rewrite load_exclusive. cbn [bind]. split.
    + intros ps Er. destruct (reduce6_inv _ _ Er) as (-> & K).
      intros j. rewrite filter_In. split; intros (Hj & S); (split; [exact Hj|]); destruct (K j Hj) as (b & Ek);
        apply (keep6_supported (pr_i j) b (H j Hj)) in Ek as Ks; unfold kb6 in *; rewrite Ek in *; now apply Ks.
    + intros Cm. rewrite reduce6_total by (intros j Hj; apply keep6_total; auto). eauto.
Qed.

(** ** The result *)
Lemma take_sorted (keep : prob -> bool) r : StronglySorted (fun p q => keep q = true -> keep p = true) r ->
  take_words keep words r = flat_map (labels6 words) (map pr_i (filter keep r)).
Proof.
  induction 1 as [|p r S IH F]; [reflexivity|]. cbn [take_words filter]. destruct (keep p) eqn:O.
  - cbn [map flat_map]. now rewrite IH.
  - replace (filter keep r) with (@nil prob); [reflexivity|]. symmetry. rewrite Forall_forall in F. clear - F O.
    induction r as [|q r IH]; [reflexivity|]. cbn [filter]. destruct (keep q) eqn:Oq.
    + specialize (F q ltac:(now left) Oq). congruence.
    + apply IH. intros x Hx. apply F. now right.
Qed.
Lemma first_word_ok p : 0 <= pr_i p < N -> exists w l, labels6 words (pr_i p) = w :: l /\ first_word6 words p = Ok w.
Proof.
  intros Hi. unfold first_word6, words_at. assert (Hne : labels6 words (pr_i p) <> []) by (apply (b6_words _ _ _ _ HE); apply nth_In; lia).
  fold (labels6 words (pr_i p)). destruct (labels6 words (pr_i p)) as [|w l]; [congruence|eauto].
Qed.

Lemma enumerate (r qs : list prob) (kept : Z -> Prop) : incl r qs -> NoDup (map (words_at words) r) -> (forall q, In q qs -> exists p, In p r /\ words_at words p = words_at words q) ->
  (forall i, kept i <-> In i (map pr_i qs)) -> enumerates words kept (map pr_i r).
Proof.
  intros I ND A K. constructor.
  - intros k Hk. apply K. apply in_map_iff in Hk. destruct Hk as (p & <- & Hp). apply in_map. now apply I.
  - rewrite map_map. exact ND.
  - intros i Hi. apply K in Hi. apply in_map_iff in Hi. destruct Hi as (q & <- & Hq). destruct (A q Hq) as (p & Hp & Ep). exists (pr_i p). split; [now apply in_map|exact Ep].
Qed.
Definition alt := mkst Alternations false.
Lemma alt_complex : In alt complex_strategies.
Proof. unfold complex_strategies. apply in_app_iff. right. now left. Qed.
Definition final (p : prob) : double := share (pr_p p) (pct6 alt (pr_i p)) 100.
Lemma final_iff p x : 0 <= pr_i p < N -> (final_score zsort img cols p x <-> x = final p).
Proof.
  intros Hi. destruct (cellv_ok alt (pr_i p) (complex_in_all _ alt_complex) Hi) as (_ & _ & _ & _ & U). unfold final_score, final, pct6. split.
  - intros H. apply H; [apply seen_sv; [exact (complex_in_all _ alt_complex)|reflexivity]|now apply U].
  - intros -> a b Sa Cb. apply seen_sv in Sa; [|exact (complex_in_all _ alt_complex)]. apply U in Cb. now subst.
Qed.
Lemma final_unit p : unitp p -> 0 <= pr_i p < N -> unit_double (final p).
Proof. intros Hp Hi. exact (stepd_unit alt (pr_i p) (pr_p p) alt_complex Hi Hp). Qed.
Lemma sorted_mono {A} (R R' : A -> A -> Prop) l : (forall a b, In a l -> In b l -> R a b -> R' a b) -> StronglySorted R l -> StronglySorted R' l.
Proof.
  intros H S. induction S as [|a l S IH F]; constructor.
  - apply IH. intros x y Hx Hy. apply H; now right.
  - rewrite Forall_forall in *. intros b Hb. apply H; [now left|now right|now apply F].
Qed.

Lemma decide6_ok ps : (forall p, In p ps -> unitp p /\ 0 <= pr_i p < N) ->
  (forall f, decide6 rt cols words by_word load ps = Ok f -> decision6 zsort img cols words ps f) /\
  (comparable6 zsort img cols \/ (exists p, In p ps /\ dle d1 (pr_p p) = true) -> exists f, decide6 rt cols words by_word load ps = Ok f).
Proof.
  intros Hb. unfold decide6. destruct (rank6_ok words rt (b6_views _ _ _ _ HE words) (b6_probs _ _ _ _ HE) ps Hb) as (tmp & -> & R1 & R2 & R3 & R4). cbn [bind].
  assert (Ut : forall p, In p tmp -> unitp p) by (intros p Hp; apply Hb; now apply R1).
  destruct tmp as [|p tmp'].
  { assert (Ep : ps = []) by (destruct ps as [|q ps']; [reflexivity|destruct (R3 q (or_introl eq_refl)) as (? & [] & _)]).
    split; [|eauto]. intros f E. apply Ok_inj in E. subst f. left. split; [exact Ep|reflexivity]. }
  assert (Hp : In p ps) by (apply R1; now left). destruct (first_word_ok p (proj2 (Hb p Hp))) as (w & l & Ew & ->). cbn [bind].
  assert (Max : forall q, In q ps -> key q <= key p).
  { intros q Hq. destruct (R3 q Hq) as (x & Hx & _ & Kx). destruct Hx as [<-|Hx]; [exact Kx|]. apply StronglySorted_inv in R4. destruct R4 as (_ & F). rewrite Forall_forall in F.
    specialize (F x Hx). lia. }
  set (tmp := p :: tmp') in *. fold (one p). destruct (one p) eqn:Op.
  { split; [|eauto]. intros f E. apply Ok_inj in E. subst f. right. left. exists (map pr_i (filter one tmp)), w. split; [|split].
    - apply (enumerate (filter one tmp) (filter one ps)).
      + intros x Hx. apply filter_In in Hx. apply filter_In. split; [apply R1|]; apply Hx.
      + now apply NoDup_map_filter.
      + intros q Hq. apply filter_In in Hq as (Hq & Oq). destruct (R3 q Hq) as (x & Hx & Ex & Kx). exists x. split; [apply filter_In; split; [exact Hx|]|exact Ex].
        rewrite one_unit in Oq |- * by (apply Hb; auto). lia.
      + intros i. split.
        * intros (q & Hq & <- & Oq). apply in_map. apply filter_In. split; assumption.
        * intros Hi. apply in_map_iff in Hi. destruct Hi as (q & <- & Hq). apply filter_In in Hq as (Hq & Oq). eauto.
    - unfold tmp. cbn [filter]. rewrite Op. cbn [map]. do 3 eexists. split; [reflexivity|exact Ew].
    - change (fun q : prob => dle d1 (pr_p q)) with one. rewrite (take_sorted one tmp); [reflexivity|]. apply (sorted_mono _ _ _ (fun a b Ha Hb' H => one_mono a b (Ut a Ha) (Ut b Hb') H) R4). }
  assert (Zero : forall q, In q ps -> one q = false).
  { intros q Hq. rewrite one_unit in Op |- * by (apply Hb; auto). specialize (Max q Hq). lia. }
  rewrite (reduce_complex6_ok complex_strategies (fun s H => H) ps Hb). cbn [bind].
  change (fun p0 : prob => mkpr (pr_i p0) (fold_left (stepd (pr_i p0)) complex_strategies (pr_p p0))) with (fun p0 : prob => mkpr (pr_i p0) (final p0)).
  change (fun p0 : prob => forallb (fun s : strategy => 50 <=? pct6 s (pr_i p0)) complex_strategies) with (fun p0 => plausibleb6 (pr_i p0)).
  set (qs0 := map (fun p0 => mkpr (pr_i p0) (final p0)) (filter (fun p0 => plausibleb6 (pr_i p0)) ps)).
  assert (Hq0 : forall q, In q qs0 <-> exists p0, In p0 ps /\ plausible6 zsort img cols (pr_i p0) /\ q = mkpr (pr_i p0) (final p0)).
  { intros q. unfold qs0. rewrite in_map_iff. split.
    - intros (p0 & <- & H). apply filter_In in H as (H & P). exists p0. split; [exact H|]. split; [|reflexivity]. apply plausible6_iff; [now apply Hb|exact P].
    - intros (p0 & H & P & ->). exists p0. split; [reflexivity|]. apply filter_In. split; [exact H|]. apply plausible6_iff; [now apply Hb|exact P]. }
  assert (Hb0 : forall q, In q qs0 -> unitp q /\ 0 <= pr_i q < N).
  { intros q Hq. apply Hq0 in Hq as (p0 & H & _ & ->). destruct (Hb p0 H) as (Up & Ip). cbn [pr_i]. split; [|exact Ip]. now apply final_unit. }
  clearbody qs0. destruct (reduce_exclusive6_ok qs0 (fun q Hq => proj2 (Hb0 q Hq))) as (Ex1 & Ex2).
  assert (Tail : forall qs, reduce_exclusive6 load cols by_word qs0 = Ok qs ->
    exists f, (ps0 <- rank6 rt words qs ;;
      match ps0 with
      | [] => Ok (mkf6 w unknown_word [] w [unknown_word])
      | q :: _ => let l1 := take_words (fun q' => negb (dlt (pr_p q') (pr_p q))) words ps0 in r2 <- first_word6 words q ;; Ok (mkf6 w r2 l1 w l1)
      end) = Ok f /\ decision6 zsort img cols words ps f).
  { intros qs Eq. specialize (Ex1 qs Eq). clear Ex2.
    assert (Hqs : forall q, In q qs <-> exists p0, In p0 ps /\ kept6 zsort img cols words (pr_i p0) /\ q = mkpr (pr_i p0) (final p0)).
    { intros q. rewrite Ex1, Hq0. unfold kept6. split.
      - intros ((p0 & H & P & ->) & S). exists p0. auto.
      - intros (p0 & H & (P & S) & ->). split; [exists p0; auto|exact S]. }
    assert (Hb2 : forall q, In q qs -> unitp q /\ 0 <= pr_i q < N) by (intros q Hq; apply Hb0; now apply Ex1).
    destruct (rank6_ok words rt (b6_views _ _ _ _ HE words) (b6_probs _ _ _ _ HE) _ Hb2) as (r & -> & T1 & T2 & T3 & T4). cbn [bind].
    assert (Dec : forall f, ((forall q, In q ps -> ~ kept6 zsort img cols words (pr_i q)) /\ f = mkf6 w unknown [] w [unknown] \/
        exists ks w2, enumerates words (best6 zsort img cols words ps) ks /\ head_word words ks w2 /\
        f = mkf6 w w2 (flat_map (labels6 words) ks) w (flat_map (labels6 words) ks)) -> decision6 zsort img cols words ps f).
    { intros f H. right. right. split; [exact Zero|]. exists p, w, l. split; [exact Hp|]. split; [|split; [exact Ew|exact H]].
      intros q Hq. rewrite dle_unit by (apply Hb; assumption). apply Z.leb_le. now apply Max. }
    destruct r as [|q r'].
    - eexists. split; [reflexivity|]. apply Dec. left. split; [|reflexivity].
      intros x Hx Kx. destruct (T3 (mkpr (pr_i x) (final x))) as (? & [] & _). apply Hqs. eauto.
    - assert (Hq : In q qs) by (apply T1; now left). destruct (first_word_ok q (proj2 (Hb2 q Hq))) as (w2 & l3 & Ew2 & ->). cbv zeta. cbn [bind].
      eexists. split; [reflexivity|]. apply Dec. right. set (r := q :: r') in *.
      set (keep := fun q' => negb (dlt (pr_p q') (pr_p q))).
      assert (Kk : forall x, In x qs -> keep x = (key q <=? key x)).
      { intros x Hx. unfold keep. rewrite dlt_unit by (apply Hb2; assumption). now rewrite Z.ltb_antisym, negb_involutive. }
      assert (Best : forall x, In x qs -> key x <= key q).
      { intros x Hx. destruct (T3 x Hx) as (y & Hy & _ & Ky). destruct Hy as [<-|Hy]; [exact Ky|]. apply StronglySorted_inv in T4. destruct T4 as (_ & F). rewrite Forall_forall in F. specialize (F y Hy). lia. }
      exists (map pr_i (filter keep r)), w2. split; [|split].
      + apply (enumerate (filter keep r) (filter keep qs)).
        * intros x Hx. apply filter_In in Hx. apply filter_In. split; [apply T1|]; apply Hx.
        * now apply NoDup_map_filter.
        * intros x Hx. apply filter_In in Hx as (Hx & Ox). destruct (T3 x Hx) as (y & Hy & Ey & Ky). exists y. split; [apply filter_In; split; [exact Hy|]|exact Ey].
          rewrite Kk in Ox |- * by auto. lia.
        * intros i. split.
          -- intros (p0 & x & H0 & Ei & Kp & Fx & Mx). subst i. rewrite final_iff in Fx by (now apply Hb). subst x.
             apply in_map_iff. exists (mkpr (pr_i p0) (final p0)). split; [reflexivity|]. assert (I0 : In (mkpr (pr_i p0) (final p0)) qs) by (apply Hqs; eauto).
             apply filter_In. split; [exact I0|]. rewrite Kk by exact I0. apply Hqs in Hq as (q0 & Hq0' & Kq & Eq0).
             specialize (Mx q0 (final q0) Hq0' Kq (proj2 (final_iff q0 _ (proj2 (Hb q0 Hq0'))) eq_refl)).
             rewrite dle_key in Mx by (apply final_unit; now apply Hb). rewrite Eq0. exact Mx.
          -- intros Hi. apply in_map_iff in Hi as (x & <- & Hx). apply filter_In in Hx as (Hx & Kx). rewrite Kk in Kx by exact Hx. pose proof Hx as Hx'.
             apply Hqs in Hx' as (p0 & H0 & Kp & Ex0). subst x. cbn [pr_i]. exists p0, (final p0). split; [exact H0|]. split; [reflexivity|]. split; [exact Kp|].
             split; [apply final_iff; [now apply Hb|reflexivity]|]. intros y z Hy Ky Fz. rewrite final_iff in Fz by (now apply Hb). subst z.
             rewrite dle_key by (apply final_unit; now apply Hb). apply Z.leb_le.
             assert (B := Best (mkpr (pr_i y) (final y)) (proj2 (Hqs _) (ex_intro _ y (conj Hy (conj Ky eq_refl))))). unfold key in B, Kx. cbn [pr_p] in B, Kx. lia.
      + unfold r. cbn [filter]. rewrite Kk, Z.leb_refl by exact Hq. cbn [map]. do 3 eexists. split; [reflexivity|exact Ew2].
      + rewrite (take_sorted keep r); [reflexivity|]. refine (sorted_mono _ _ _ _ T4). intros a b Ha Hb' H. rewrite !Kk by auto. lia. }
  split.
  - intros f E. apply bind_Ok in E as (qs & Eq & E). destruct (Tail qs Eq) as (f' & Ef & O). pose proof (eq_trans (eq_sym Ef) E) as E'. apply Ok_inj in E'. now subst f'.
  - intros [Cm|(x & Hx & Ox)]; [|rewrite (Zero x Hx : dle d1 (pr_p x) = false) in Ox; discriminate]. destruct (Ex2 Cm) as (qs & Eq). rewrite Eq. cbn [bind]. destruct (Tail qs Eq) as (f' & Ef & _). eauto.
Qed.
End Decide.
Lemma recognisable_turn img : recognisable img -> exists img90, rotate90 img = Ok img90.
Proof.
  intros HR. destruct (rotate_zonable img) as (img90 & E & _); [|eauto].
  destruct HR as (Hwf & Hw & Hh & B & _). assert (iw img * ih img <= iw img * ih img * ih img) by nia. split; [exact Hwf|]. nia.
Qed.
