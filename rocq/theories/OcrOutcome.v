(** extract_text6 and extract_text8: exactly when the result is not defined. *)
From Verif Require Import Base BaseProofs SortModel ImageModel ImageSpec ImageProofs BoxModel BoxSpec BoxProofs StratModel StratSpec StratFeatures3 ZoneModel ZoneProofs3 DatasModel DatasSpec DatasProofs TrieModel
  SpellSpec UtilModel IndexModel IndexProofs FloatModel FloatSpec FloatProofs FloatProofs2 RecogModel RecogSpec RecogProofs RecogProofs2 ExtractModel ExtractSpec ExtractProofs AssembleSpec
  Ocr6Model Ocr6Spec Ocr6Proofs Ocr6Proofs2 OcrProofs Ocr6Proofs3 Ocr6Proofs4 Ocr8Model Ocr8Spec Ocr8Proofs.
From Coq Require Import Sorted SpecFloat Permutation.

(** * The decision *)
Section Decide.
Context (rt : runtime6) (cols : list (list fval)) (words : list (list (list Z))) (by_word : list (list Z)) (HE : base6 rt cols words by_word) (img img90 : image) (HR : recognisable img) (H90 : rotate90 img = Ok img90) (junk : Z -> Z).
Notation N := (Z.of_nat (List.length words)).
Notation zsort := (r6_zones rt).
Notation load := (load6 junk zsort img img90).
Notation sv := (sv rt img img90 junk).
Notation pred6 := (has_value cols exclusive_strategies (map sv exclusive_strategies)).
Notation keep6 := (keep6 rt cols by_word img img90 junk).
Notation final := (final rt cols img img90 junk).
Lemma pred6_outcome j : 0 <= j < N -> (divided6 zsort img cols j /\ pred6 j = UB) \/ (~ divided6 zsort img cols j /\ exists b, pred6 j = Ok b).
Proof.
  intros Hj. destruct (pred6_eq _ _ _ _ HE img img90 HR H90 junk j Hj) as (l & l' & El & El' & ->).
  assert (Hz := exclusive_in_all (mkst Zone false) ltac:(now left)).
  assert (Hp := exclusive_in_all (mkst ProportionalityZone false) ltac:(right; now left)).
  destruct (cellv_ok _ _ _ _ HE _ j Hz Hj) as (_ & _ & _ & _ & Uz). destruct (cellv_ok _ _ _ _ HE _ j Hp Hj) as (_ & _ & _ & _ & Up).
  assert (Sz := fun v => seen_sv _ _ _ _ HE img img90 HR H90 junk _ v Hz). assert (Sp := fun v => seen_sv _ _ _ _ HE img img90 HR H90 junk _ v Hp).
  destruct (Z.leb_spec 50 (pct6 rt cols img img90 junk (mkst Zone false) j)) as [H|H].
  - destruct (pz_outcome l' l) as [(C & ->)|(C & v & ->)].
    + left. split; [|reflexivity]. split.
      * intros a b Fa Cb. apply Sz in Fa. apply Uz in Cb. subst a b. exact H.
      * intros a b Fa Cb. apply Sp in Fa. apply Up in Cb. rewrite El in Fa. rewrite El' in Cb. injection Fa as ->. injection Cb as ->. exact C.
    + right. split; [|cbn [bind]; eauto]. intros (_ & D). apply C, D; [apply Sp; now rewrite El|apply Up; now rewrite El'].
  - right. split; [|eauto]. intros (D & _). specialize (D _ _ (proj2 (Sz _) eq_refl) (proj2 (Uz _) eq_refl)). unfold pct6 in H. lia.
Qed.
Lemma rd_words i : 0 <= i < N -> rd by_word i = Ok (scan6 words i).
Proof.
  intros Hi. pose proof (b6_by_word _ _ _ _ HE) as E. rewrite (data_by_word_order words (b6_size _ _ _ _ HE) (b6_words _ _ _ _ HE)) in E. injection E as <-. now apply rd_scan6.
Qed.
Lemma keep6_outcome i : 0 <= i < N -> (divides6 zsort img cols words i /\ keep6 i = UB) \/ (~ divides6 zsort img cols words i /\ exists b, keep6 i = Ok b).
Proof.
  intros Hi. unfold OcrProofs.keep6, divides6. rewrite (rd_words i Hi). cbn [bind].
  assert (R : forall j, In j (scan6 words i) -> 0 <= j < N) by (intros j Hj; rewrite (scan6_In words i j (b6_words _ _ _ _ HE) Hi) in Hj; destruct Hj as (_ & Hj & _); exact Hj).
  assert (A := fun j Hj => pred6_alike _ _ _ _ HE img img90 HR H90 junk j Hj).
  assert (G : forall l, (forall j, In j l -> 0 <= j < N) ->
    ((exists before j after, l = before ++ j :: after /\ (forall k, In k before -> ~ alike6 zsort img cols k) /\ divided6 zsort img cols j) /\ some_of pred6 l = UB) \/
    (~ (exists before j after, l = before ++ j :: after /\ (forall k, In k before -> ~ alike6 zsort img cols k) /\ divided6 zsort img cols j) /\ exists b, some_of pred6 l = Ok b)).
  { clear Hi R. induction l as [|j l IH]; intros R; cbn [some_of].
    - right. split; [intros ([|? ?] & ? & ? & E & _); discriminate|eauto].
    - specialize (A j (R j (or_introl eq_refl))). destruct (pred6_outcome j (R j (or_introl eq_refl))) as [(D & ->)|(D & b & E)].
      + left. split; [|reflexivity]. exists [], j, l. split; [reflexivity|]. split; [intros k []|exact D].
      + rewrite E in A |- *. cbn [bind]. destruct b.
        * right. split; [|eauto]. intros ([|x before] & j' & after & El & Nb & D'); cbn [app] in El; injection El as -> El; [contradiction|].
          apply (Nb x); [now left|now apply A].
        * assert (Na : ~ alike6 zsort img cols j) by (intros C; apply A in C; discriminate).
          destruct (IH ltac:(intros k Hk; apply R; now right)) as [((before & j' & after & El & Nb & D') & ->)|(No & b & ->)].
          -- left. split; [|reflexivity]. exists (j :: before), j', after. split; [cbn [app]; f_equal; exact El|]. split; [|exact D']. intros k [<-|Hk]; [exact Na|now apply Nb].
          -- right. split; [|eauto]. intros ([|x before] & j' & after & El & Nb & D'); cbn [app] in El; injection El as -> El; [contradiction|].
             apply No. exists before, j', after. split; [exact El|]. split; [|exact D']. intros k Hk. apply Nb. now right. }
  specialize (G _ R). destruct (scan6 words i) as [|j0 l]; [|exact G].
  right. split; [intros ([|? ?] & ? & ? & E & _); discriminate|eauto].
Qed.
Lemma reduce6_outcome l : (forall p, In p l -> 0 <= pr_i p < N) ->
  ((exists p, In p l /\ divides6 zsort img cols words (pr_i p)) /\ reduce_by_word by_word pred6 l = UB) \/
  (~ (exists p, In p l /\ divides6 zsort img cols words (pr_i p)) /\ exists r, reduce_by_word by_word pred6 l = Ok r).
Proof.
  induction l as [|p l IH]; intros H; cbn [reduce_by_word].
  - right. split; [intros (? & [] & _)|eauto].
  - destruct (IH ltac:(intros k Hk; apply H; now right)) as [((k & Ik & Dk) & E)|(No & r & E)]; destruct (keep6_outcome (pr_i p) (H p (or_introl eq_refl))) as [(D & Ek)|(D & b & Ek)];
      unfold OcrProofs.keep6 in Ek; rewrite (rd_words _ (H p (or_introl eq_refl))) in Ek |- *; cbn [bind] in Ek |- *; rewrite Ek; cbn [bind]; try rewrite E; cbn [bind].
    + left. split; [exists p; split; [now left|exact D]|reflexivity].
    + left. split; [exists k; split; [now right|exact Dk]|reflexivity].
    + left. split; [exists p; split; [now left|exact D]|reflexivity].
    + right. split; [|destruct b; eauto]. intros (k & [<-|Ik] & Dk); [contradiction|]. apply No. eauto.
Qed.
Lemma reduce_exclusive6_outcome l : (forall p, In p l -> 0 <= pr_i p < N) ->
  ((exists p, In p l /\ divides6 zsort img cols words (pr_i p)) /\ reduce_exclusive6 load cols by_word l = UB) \/
  (~ (exists p, In p l /\ divides6 zsort img cols words (pr_i p)) /\ exists r, reduce_exclusive6 load cols by_word l = Ok r).
Proof.
  intros H. unfold reduce_exclusive6. destruct l as [|p0 l].
  - right. split; [intros (? & [] & _)|eauto].
  - set (l0 := p0 :: l) in *. clearbody l0. rewrite (load_exclusive _ _ _ _ HE img img90 HR H90 junk). cbn [bind]. now apply reduce6_outcome.
Qed.
Theorem decide6_outcome ps : (forall p, In p ps -> unitp p /\ 0 <= pr_i p < N) ->
  (undecided6 zsort img cols words ps /\ decide6 rt cols words by_word load ps = UB) \/
  (~ undecided6 zsort img cols words ps /\ exists f, decide6 rt cols words by_word load ps = Ok f /\ decision6 zsort img cols words ps f).
Proof.
  intros Hb. destruct (decide6_ok _ _ _ _ HE img img90 HR H90 junk ps Hb) as (Dec & _).
  cut ((undecided6 zsort img cols words ps /\ decide6 rt cols words by_word load ps = UB) \/ (~ undecided6 zsort img cols words ps /\ exists f, decide6 rt cols words by_word load ps = Ok f)).
  { intros [H|(H & f & E)]; [now left|right]. split; [exact H|]. exists f. split; [exact E|]. now apply Dec. }
  clear Dec. unfold decide6. destruct (rank6_ok words rt (b6_views _ _ _ _ HE words) (b6_probs _ _ _ _ HE) ps Hb) as (tmp & -> & R1 & R2 & R3 & R4). cbn [bind].
  destruct tmp as [|p tmp'].
  { right. split; [|eauto]. intros (_ & q & Hq & _). destruct (R3 q Hq) as (? & [] & _). }
  assert (Hp : In p ps) by (apply R1; now left). destruct (first_word_ok _ _ _ _ HE p (proj2 (Hb p Hp))) as (w & l & Ew & ->). cbn [bind].
  assert (Max : forall q, In q ps -> key q <= key p).
  { intros q Hq. destruct (R3 q Hq) as (x & Hx & _ & Kx). destruct Hx as [<-|Hx]; [exact Kx|]. apply StronglySorted_inv in R4. destruct R4 as (_ & F). rewrite Forall_forall in F.
    specialize (F x Hx). lia. }
  fold (one p). destruct (one p) eqn:Op.
  { right. split; [|eauto]. intros (Z0 & _). specialize (Z0 p Hp). unfold one in Op. congruence. }
  assert (Zero : forall q, In q ps -> one q = false).
  { intros q Hq. rewrite one_unit in Op |- * by (apply Hb; auto). specialize (Max q Hq). lia. }
  rewrite (reduce_complex6_ok _ _ _ _ HE img img90 HR H90 junk complex_strategies (fun s H => H) ps Hb). cbn [bind].
  set (qs0 := map _ _).
  assert (Hq0 : forall q, In q qs0 <-> exists p0, In p0 ps /\ plausible6 zsort img cols (pr_i p0) /\ q = mkpr (pr_i p0) (final p0)).
  { intros q. unfold qs0. rewrite in_map_iff. split.
    - intros (p0 & <- & H). apply filter_In in H as (H & P). exists p0. split; [exact H|]. split; [|reflexivity]. apply (plausible6_iff _ _ _ _ HE img img90 HR H90 junk); [now apply Hb|exact P].
    - intros (p0 & H & P & ->). exists p0. split; [reflexivity|]. apply filter_In. split; [exact H|]. apply (plausible6_iff _ _ _ _ HE img img90 HR H90 junk) in P; [exact P|now apply Hb]. }
  assert (Hb0 : forall q, In q qs0 -> unitp q /\ 0 <= pr_i q < N).
  { intros q Hq. apply Hq0 in Hq as (p0 & H & _ & ->). destruct (Hb p0 H) as (Up & Ip). cbn [pr_i]. split; [|exact Ip]. now apply (final_unit _ _ _ _ HE img img90 HR H90). }
  clearbody qs0.
  assert (Un : undecided6 zsort img cols words ps <-> exists q, In q qs0 /\ divides6 zsort img cols words (pr_i q)).
  { unfold undecided6. split.
    - intros (_ & p0 & H & P & D). exists (mkpr (pr_i p0) (final p0)). split; [apply Hq0; eauto|exact D].
    - intros (q & Hq & D). apply Hq0 in Hq as (p0 & H & P & ->). cbn [pr_i] in D. split; [exact Zero|eauto]. }
  rewrite Un. destruct (reduce_exclusive6_outcome qs0 (fun q Hq => proj2 (Hb0 q Hq))) as [(D & ->)|(D & qs & E)]; [left; split; [exact D|reflexivity]|right; split; [exact D|]].
  rewrite E. cbn [bind]. destruct (reduce_exclusive6_ok _ _ _ _ HE img img90 HR H90 junk qs0 (fun q Hq => proj2 (Hb0 q Hq))) as (Ex1 & _).
  assert (Hb2 : forall q, In q qs -> unitp q /\ 0 <= pr_i q < N) by (intros q Hq; apply Hb0; apply (Ex1 qs E q); exact Hq).
  destruct (rank6_ok words rt (b6_views _ _ _ _ HE words) (b6_probs _ _ _ _ HE) _ Hb2) as (r & -> & T1 & _). cbn [bind].
  destruct r as [|q r']; [eauto|]. destruct (first_word_ok _ _ _ _ HE q (proj2 (Hb2 q (T1 q (or_introl eq_refl))))) as (w2 & l3 & _ & ->). cbv zeta. cbn [bind]. eauto.
Qed.
End Decide.

(** * A character *)
Lemma found8_same rt cols words by_word value value' ps ps' : base6 rt cols words by_word -> (forall s, In s simple_strategies -> value' s = value s) ->
  found8 cols (Z.of_nat (List.length words)) value' ps' -> found8 cols (Z.of_nat (List.length words)) value ps -> ps' = ps.
Proof.
  intros HE Ev (S1 & M1 & C1) (S2 & M2 & C2).
  assert (Nr : forall i, near8 cols (Z.of_nat (List.length words)) value' i <-> near8 cols (Z.of_nat (List.length words)) value i).
  { intros i. unfold near8. split; intros (Hi & H); (split; [exact Hi|]); intros s a Hs Ca; specialize (H s a Hs Ca); rewrite (Ev s Hs) in *; exact H. }
  assert (Em : map pr_i ps' = map pr_i ps) by (apply SS_lt_unique; [exact S1|exact S2|]; intros i; now rewrite M1, M2).
  assert (Hi : forall p, In p ps -> 0 <= pr_i p < Z.of_nat (List.length words)) by (intros p Hp; apply (M2 (pr_i p)); now apply in_map).
  assert (Pr : forall row, product8 row value' = product8 row value).
  { intros row. unfold product8. assert (F : forall s, In s feature_order -> value' s = value s) by (intros s Hs; apply Ev; now apply feature_order_simple).
    revert F. generalize feature_order d1. clear. induction l as [|s l IH]; intros d F; [reflexivity|]. cbn [fold_left]. rewrite (F s (or_introl eq_refl)). apply IH. intros t Ht. apply F. now right. }
  clear S1 S2 M1 M2. revert ps' Em C1. induction ps as [|p ps IH]; intros [|p' ps'] Em C1; try discriminate; [reflexivity|]. cbn [map] in Em. injection Em as Ei Em. f_equal.
  - assert (Row : row_of cols (pr_i p) (rowv cols (pr_i p))) by (intros s Hs; destruct (row_cell _ _ _ _ HE s (pr_i p) Hs (Hi p (or_introl eq_refl))) as (_ & _ & _ & _ & U); now apply U).
    pose proof (C2 p _ (or_introl eq_refl) Row) as E2. rewrite <- Ei in Row. pose proof (C1 p' _ (or_introl eq_refl) Row) as E1. rewrite Ei, Pr in E1. destruct p as [i x], p' as [i' x']. cbn [pr_i pr_p] in *. congruence.
  - apply IH; [intros q row Hq; apply C2; now right|intros q Hq; apply Hi; now right|exact Em|intros q row Hq; apply C1; now right].
Qed.
Theorem recognise8_outcome e n img : sound_env8 e -> recognisable img ->
  (undefined8 (r6_zones (e8_rt e)) img (e8_cols e) (e8_words e) /\ recognise8 e n img = UB) \/
  (~ undefined8 (r6_zones (e8_rt e)) img (e8_cols e) (e8_words e) /\ exists f, recognise8 e n img = Ok f /\ outcome8 (r6_zones (e8_rt e)) img (e8_cols e) (e8_words e) f).
Proof.
  intros HE HR. pose proof (proj1 (recognise8_exact e n img HE HR)) as O. unfold sound_env8 in HE. destruct (recognisable_turn img HR) as (img90 & H90). unfold recognise8 in *. rewrite H90 in *. cbn [bind] in *. cbv zeta in *. set (junk := r6_junk (e8_rt e) n) in *.
  rewrite (candidates8_ok _ _ _ _ HE img img90 HR H90 junk) in *. cbn [bind] in *.
  pose proof (cands_found _ _ _ _ HE img img90 junk) as Fd. pose proof (cands_unit (e8_rt e) (e8_cols e) (e8_words e) img img90 junk) as Un.
  assert (Sv := seen_value _ _ _ _ HE img img90 HR H90 junk).
  destruct (decide6_outcome _ _ _ _ HE img img90 HR H90 junk _ Un) as [(D & E)|(D & f & E & _)].
  - left. split; [|exact E]. exists (value (e8_rt e) img img90 junk). eexists. split; [exact Sv|]. split; [exact Fd|exact D].
  - right. split; [|exists f; auto]. intros (value' & ps & Sv' & Fd' & D'). apply D.
    assert (Ev : forall s, In s simple_strategies -> value' s = value (e8_rt e) img img90 junk s).
    { intros s Hs. pose proof (seen6_unique _ _ _ _ _ (Sv' s Hs) (Sv s Hs)) as Q. now injection Q. }
    replace (cands (e8_rt e) (e8_cols e) (e8_words e) img img90 junk) with ps; [exact D'|]. exact (found8_same _ _ _ _ _ _ _ _ HE Ev Fd' Fd).
Qed.

Lemma close6_same cols n value value' i : (forall s, In s simple_strategies -> value' s = value s) -> close6 cols n value' i -> close6 cols n value i.
Proof.
  intros Ev (Hi & A & B). split; [exact Hi|]. split.
  - intros a Ca. rewrite <- (Ev _ first_simple). now apply A.
  - intros s a Hs N Ca. rewrite <- (Ev s Hs). now apply B.
Qed.
Lemma certain6_same cols n value value' i : (forall s, In s simple_strategies -> value' s = value s) -> certain6 cols n value' i -> certain6 cols n value i.
Proof.
  intros Ev (C & A). split; [now apply (close6_same cols n value value')|]. intros a Ca. rewrite <- (Ev _ first_simple). now apply A.
Qed.
Theorem recognise6_defined e n img : sound_env6 e -> recognisable img ->
  (undefined6 (r6_zones (e6_rt e)) img (e6_cols e) (e6_words e) /\ recognise6 e n img = UB) \/
  (~ undefined6 (r6_zones (e6_rt e)) img (e6_cols e) (e6_words e) /\ exists f, recognise6 e n img = Ok f /\ outcome6 (r6_zones (e6_rt e)) img (e6_cols e) (e6_words e) f).
Proof.
  intros HE HR. pose proof (proj1 (recognise6_exact e n img HE HR)) as O. destruct (recognisable_turn img HR) as (img90 & H90).
  pose proof (sound_base e HE) as HB. set (rt := e6_rt e) in *. set (cols := e6_cols e) in *. set (words := e6_words e) in *.
  set (N := Z.of_nat (List.length words)) in *. set (junk := r6_junk rt n). set (value := value rt img img90 junk).
  unfold recognise6 in *. rewrite H90 in *. cbn [bind] in *. cbv zeta in *. fold rt cols words in O |- *. fold junk in O |- *.
  destruct (load_algos _ _ _ _ HB img img90 HR H90 junk) as (vs & El & Evs). rewrite El in *. cbn [bind] in *. rewrite Evs in *. fold value in O |- *. unfold vsize in *. fold N in O |- *.
  destruct (search6_exact cols N (se_table e HE)) as (sd & E & H). pose proof (se_search e HE) as E2. fold cols in E2. rewrite E2 in E. injection E as <-.
  destruct (H value (value_range _ _ _ _ HB img img90 HR H90 junk)) as (ps & Ec & So & Mem & Sc). clear H. rewrite Ec in *. cbn [bind] in *.
  assert (Val : forall p, In p ps -> close6 cols N value (pr_i p) /\ pr_p p = (if tenth (val cols first_feature (pr_i p)) =? tenth (value first_feature) then d1 else d0) /\
    forall a, cell6 cols first_feature (pr_i p) (VNum a) -> a = val cols first_feature (pr_i p)).
  { intros p Hp. assert (Hc : close6 cols N value (pr_i p)) by (apply Mem; now apply in_map).
    destruct (simple_val cols N (se_table e HE) first_feature (pr_i p) first_simple (proj1 Hc)) as (_ & C & U & _). split; [exact Hc|]. split; [exact (Sc p Hp _ C)|exact U]. }
  assert (Hb : forall p, In p ps -> unitp p /\ 0 <= pr_i p < N).
  { intros p Hp. destruct (Val p Hp) as (Hc & E & _). split; [|apply Hc]. unfold unitp. rewrite E. destruct (_ =? _); [apply unit_d1|now left]. }
  assert (Cert : forall p, In p ps -> (dle d1 (pr_p p) = true <-> certain6 cols N value (pr_i p))).
  { intros p Hp. destruct (Val p Hp) as (Hc & E & U). rewrite E. destruct (Z.eqb_spec (tenth (val cols first_feature (pr_i p))) (tenth (value first_feature))) as [T|T].
    - split; [intros _|reflexivity]. split; [exact Hc|]. intros a Ha. rewrite (U a Ha). exact T.
    - split; [discriminate|]. intros (_ & H). destruct (simple_val cols N (se_table e HE) first_feature (pr_i p) first_simple (proj1 Hc)) as (_ & C & _). destruct (T (H _ C)). }
  assert (Seen : forall s, In s simple_strategies -> seen6 (r6_zones rt) img s (VNum (value s))).
  { intros s Hs. apply (seen_sv _ _ _ _ HB img img90 HR H90 junk); [now apply simple_in_all|]. symmetry. now apply (simple_sv _ _ _ _ HB img img90 HR H90 junk). }
  assert (Row : forall i, close6 cols N value i -> exists p, In p ps /\ pr_i p = i).
  { intros i Hi. apply Mem in Hi. apply in_map_iff in Hi. destruct Hi as (p & E & Hp). eauto. }
  assert (Un : undefined6 (r6_zones rt) img cols words <-> undecided6 (r6_zones rt) img cols words ps).
  { unfold undefined6, undecided6. cbv zeta. fold N. split.
    - intros (value' & Sv & No & i & Ci & P & D).
      assert (Ev : forall s, In s simple_strategies -> value' s = value s) by (intros s Hs; pose proof (seen6_unique _ _ _ _ _ (Sv s Hs) (Seen s Hs)) as Q; now injection Q).
      split.
      + intros p Hp. destruct (dle d1 (pr_p p)) eqn:Ed; [|reflexivity]. destruct (No (pr_i p)). apply (certain6_same cols N value' value); [intros s Hs; symmetry; now apply Ev|]. now apply Cert.
      + destruct (Row i (close6_same cols N value value' i Ev Ci)) as (p & Hp & <-). eauto.
    - intros (Z0 & p & Hp & P & D). exists value. split; [exact Seen|]. split.
      + intros i Ci. destruct (Row i (proj1 Ci)) as (q & Hq & <-). apply (Cert q Hq) in Ci. rewrite (Z0 q Hq) in Ci. discriminate.
      + exists (pr_i p). split; [now apply Val|]. split; assumption. }
  rewrite Un. destruct (decide6_outcome _ _ _ _ HB img img90 HR H90 junk ps Hb) as [(D & E)|(D & f & E & _)]; [left; split; [exact D|exact E]|right; split; [exact D|]].
  exists f. split; [exact E|]. exact (O f E).
Qed.

(** * A line *)
Section Line.
Context (rec : Z -> image -> res found6) (HA : steady rec) (bad : image -> Prop)
  (HO : forall n im, recognisable im -> (bad im /\ rec n im = UB) \/ (~ bad im /\ exists f, rec n im = Ok f)) (img : image) (Hs : box_searchable img).
Lemma not_bad im f : recognisable im -> recognised6 rec im f -> ~ bad im.
Proof. intros R Rf B. destruct (HO 0 im R) as [(_ & E)|(N & _)]; [rewrite (Rf 0) in E; discriminate|exact (N B)]. Qed.
Lemma step6_defined s before x b : good6 rec before s -> q_x s = x -> x + 4 < 4294967296 -> tight_box img x b -> 0 <= x -> 0 < bw b -> bx b + bw b < iw img -> iw img < 2147483648 ->
  (forall im, char_image img b im -> recognisable im) ->
  ((exists im, char_image img b im /\ bad im) /\ step6 rec img s b = UB) \/
  (~ (exists im, char_image img b im /\ bad im) /\ exists s', step6 rec img s b = Ok s').
Proof.
  intros G Hq Hx4 T Hx Hw Hb HW HR. destruct (char_section img Hs x b T Hx) as (im & Es & Ci). pose proof (HR im Ci) as Ri. destruct (HO 0 im Ri) as [(B & E)|(B & f & E)].
  - left. split; [eauto|]. destruct G as (GC & GK & _). unfold step6. rewrite Es. cbn [bind]. pose proof Ci as (Wi & _). destruct (cache_find_spec im Wi (q_cache s) GC) as (o & -> & Ho). cbn [bind]. cbv zeta.
    destruct o as [r|].
    + exfalso. destruct (GK im r Ho) as (f & Rf & _ & _). exact (not_bad im f Ri Rf B).
    + rewrite (steady_any _ HA _ 0 im Ri), E. reflexivity.
  - right. assert (Nb : ~ (exists im', char_image img b im' /\ bad im')) by (intros (im' & Ci' & B'); rewrite (char_image_unique img b im' im Ci' Ci) in B'; exact (B B')).
    split; [exact Nb|]. apply (proj1 (step6_ok rec HA img Hs s before x b G Hq Hx4 T Hx Hw Hb HW HR)). intros im' Ci'. rewrite (char_image_unique img b im' im Ci' Ci). exists f. exact (recognised6_of _ _ _ _ HA Ri E).
Qed.
Lemma line_defined x boxes : scan img x boxes -> forall fuel before s, good6 rec before s -> q_x s = x -> 0 <= x -> iw img - x < Z.of_nat fuel -> x <= iw img -> iw img < 2147483648 ->
  Forall (small_character img) boxes ->
  ((exists b im, In b boxes /\ char_image img b im /\ bad im) /\ loop fuel (body6 rec img) s = UB) \/
  (~ (exists b im, In b boxes /\ char_image img b im /\ bad im) /\ exists s', loop fuel (body6 rec img) s = Ok s').
Proof.
  intros Sc. induction Sc as [x b Eb B0|x b rest Eb B1 T H0 H1 H2 H3 Sc IH]; intros fuel before s G <- Hx Hf Hxw HW Sm; (destruct fuel as [|fuel]; [lia|]); cbn [loop]; unfold body6 at 1 3; rewrite Eb; cbn [bind].
  - rewrite B0. right. split; [intros (? & ? & [] & _)|eexists; reflexivity].
  - rewrite B1. inversion Sm as [|? ? S1 S2]; subst. destruct (step6_ok rec HA img Hs s before (q_x s) b G eq_refl ltac:(lia) T Hx H2 H3 HW S1) as (_ & C2).
    destruct (step6_defined s before (q_x s) b G eq_refl ltac:(lia) T Hx H2 H3 HW S1) as [((im & Ci & B) & E)|(N & s1 & E)]; rewrite E; cbn [bind].
    + left. split; [|reflexivity]. exists b, im. split; [now left|auto].
    + destruct (C2 s1 E) as (im & f & l & _ & _ & _ & (X1 & _) & G1).
      destruct (IH fuel (im :: before) s1 G1 X1 ltac:(lia) ltac:(lia) ltac:(lia) HW S2) as [((b' & im' & Ib & Cb) & ->)|(N' & s' & ->)].
      * left. split; [|reflexivity]. exists b', im'. split; [now right|exact Cb].
      * right. split; [|eauto]. intros (b' & im' & [<-|Ib] & Cb); [apply N; eauto|apply N'; eauto].
Qed.
Theorem read_line6_defined boxes : segment img = Ok boxes -> Forall (small_character img) boxes ->
  ((exists b im, In b boxes /\ char_image img b im /\ bad im) /\ read_line6 rec img = UB) \/
  (~ (exists b im, In b boxes /\ char_image img b im /\ bad im) /\
   exists s fs, read_line6 rec img = Ok s /\ line6 rec img 0 [] boxes fs (q_amb s) /\ q_r1 s = spaced f6_r1 fs /\ q_r2 s = spaced f6_r2 fs).
Proof.
  intros E Sm. pose proof (scan_segment img boxes Hs E) as Sc. pose proof Hs as (_ & Hw & _).
  assert (HW2 : iw img < 2147483648) by (destruct Hs as (_ & ? & ? & ?); nia).
  assert (G0 : good6 rec [] (mkst6 0 [] [] [] [] [])).
  { split; [split; [constructor|intros p []]|]. split; [intros k r []|]. intros k. split; [intros []|intros (r & [])]. }
  destruct (line_defined 0 boxes Sc (S (Z.to_nat (iw img))) [] _ G0 eq_refl ltac:(lia) ltac:(lia) ltac:(lia) HW2 Sm) as [L|(L1 & s & L2)]; [left; exact L|right]. split; [exact L1|].
  destruct (proj2 (read_line6_ok rec HA img Hs boxes E Sm) s L2) as (fs & A). exists s, fs. split; [exact L2|exact A].
Qed.
End Line.
