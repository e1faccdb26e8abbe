(** What extract_text6 prints does not depend on what the standard leaves open. *)
From Verif Require Import Base BaseProofs SortModel ImageModel ImageSpec PnmModel BoxModel BoxSpec BoxProofs StratModel StratSpec ZoneModel DatasModel DatasSpec DatasProofs StreamModel GlyphIoModel GlyphIoSpec GlyphIoProofs DatasIoModel DictIoModel
  TrieModel UtilModel IndexModel FloatModel FloatSpec FloatProofs
  FormatModel RecogModel RecogSpec RecogProofs ExtractModel ExtractSpec ExtractProofs LearnModel PipelineModel PipelineSpec ReadSpec ReadProofs Ocr6Model Ocr6Spec Ocr6Proofs Ocr6Proofs2 OcrProofs Ocr6Proofs3 Ocr6Proofs4 Ocr6Proofs5
  ShowModel PrintModel PrintSpec PrintProofs OcrOutModel OcrOutSpec OcrOutProofs OcrOutProofs2 OcrOutProofs3 SameProofs Same6Spec SameProofs4.
From Coq Require Import Sorted SpecFloat Permutation.

(** * What is printed for a list of candidates *)
Definition pairs (words : list (list (list Z))) (ps : list prob) : list (list (list Z) * double) := map (fun p => (words_at words p, pr_p p)) ps.
Lemma pairs_cons words p ps words' ps' : pairs words (p :: ps) = pairs words' ps' -> exists q qs, ps' = q :: qs /\ words_at words p = words_at words' q /\ pr_p p = pr_p q /\ pairs words ps = pairs words' qs.
Proof. destruct ps' as [|q qs]; cbn [pairs map]; [discriminate|]. intros [=]. exists q, qs. auto. Qed.
Lemma best_pairs words words' : forall ps ps' prev prev', pr_p prev = pr_p prev' -> pairs words ps = pairs words' ps' ->
  fst (best_chars words prev ps) = fst (best_chars words' prev' ps') /\ pairs words (snd (best_chars words prev ps)) = pairs words' (snd (best_chars words' prev' ps')).
Proof.
  induction ps as [|p ps IH]; intros ps' prev prev' E P; [destruct ps'; [split; reflexivity|discriminate P]|]. pose proof P as P0. apply pairs_cons in P as (q & qs & -> & Ew & Ep & P).
  cbn [best_chars]. rewrite <- E, <- Ep. destruct (dlt (pr_p p) (pr_p prev)); [split; [reflexivity|exact P0]|]. destruct (IH qs p q Ep P) as (A & B).
  destruct (best_chars words p ps) as (t, r), (best_chars words' q qs) as (t', r'). cbn [fst snd] in *. unfold chars_text. rewrite Ew, A. now split.
Qed.
Lemma show_same nan words words' ps ps' : pairs words ps = pairs words' ps' -> show_infos nan words ps = show_infos nan words' ps'.
Proof.
  intros P. destruct ps as [|p ps]; [destruct ps'; [reflexivity|discriminate P]|]. apply pairs_cons in P as (q & qs & -> & Ew & Ep & P). cbn [show_infos].
  destruct (best_pairs words words' ps qs p q Ep P) as (A & B). destruct (best_chars words p ps) as (t, r), (best_chars words' q qs) as (t', r'). cbn [fst snd] in *. subst t'. unfold chars_text at 1 3. rewrite Ew, Ep.
  do 6 f_equal. replace (flat_map (fun q0 => escape "[00;31m" ++ chars_text words q0 ++ escape "[0m" ++ print_double nan (pr_p q0) ++ str "  ") r)
    with (flat_map (fun q0 => escape "[00;31m" ++ chars_text words' q0 ++ escape "[0m" ++ print_double nan (pr_p q0) ++ str "  ") r'); [reflexivity|].
  clear - B. revert r' B. induction r as [|a r IH]; intros r' B; [destruct r'; [reflexivity|discriminate B]|]. apply pairs_cons in B as (b & r2 & -> & Ew & Ep & B). cbn [flat_map].
  rewrite (IH r2 B). unfold chars_text at 1 3. now rewrite Ew, Ep.
Qed.
Lemma take_same words words' keep keep' : (forall p q, pr_p p = pr_p q -> keep p = keep' q) -> forall ps ps', pairs words ps = pairs words' ps' -> take_words keep words ps = take_words keep' words' ps'.
Proof.
  intros K. induction ps as [|p ps IH]; intros ps' P; [destruct ps'; [reflexivity|discriminate P]|]. apply pairs_cons in P as (q & qs & -> & Ew & Ep & P). cbn [take_words]. rewrite (K p q Ep), Ew, (IH qs P). reflexivity.
Qed.

(** * The order of the candidates *)
Lemma pairs_NoDup words r : NoDup (map (words_at words) r) -> NoDup (pairs words r).
Proof.
  intros H. unfold pairs. apply (NoDup_map_inv fst). rewrite map_map. exact H.
Qed.
Lemma once words r p q : NoDup (map (words_at words) r) -> In p r -> In q r -> words_at words p = words_at words q -> p = q.
Proof.
  induction r as [|a r IH]; intros N Hp Hq E; [destruct Hp|]. cbn [map] in N. inversion N as [|? ? N1 N2]; subst.
  destruct Hp as [<-|Hp], Hq as [<-|Hq]; [reflexivity|exfalso; apply N1; rewrite E; now apply in_map|exfalso; apply N1; rewrite <- E; now apply in_map|now apply IH].
Qed.
Record rank_of (words : list (list (list Z))) (ps r : list prob) : Prop := {
  ro_unit : forall p, In p ps -> unitp p;
  ro_among : incl r ps;
  ro_once : NoDup (map (words_at words) r);
  ro_all : forall q, In q ps -> exists p, In p r /\ words_at words p = words_at words q /\ key q <= key p;
  ro_order : StronglySorted (fun p q => key q <= key p) r }.
Lemma rank_incl words words' ps ps' r r' : rank_of words ps r -> rank_of words' ps' r' ->
  (forall p, In p ps -> exists q, In q ps' /\ words_at words p = words_at words' q /\ pr_p p = pr_p q) -> (forall q, In q ps' -> exists p, In p ps /\ words_at words p = words_at words' q /\ pr_p p = pr_p q) ->
  incl (pairs words r) (pairs words' r').
Proof.
  intros R R' H H' x Hx. unfold pairs in Hx. apply in_map_iff in Hx as (p & <- & Hp). destruct (H p (ro_among _ _ _ R p Hp)) as (p' & Hp' & W1 & E1).
  destruct (ro_all _ _ _ R' p' Hp') as (q' & Hq' & W2 & K2). destruct (H' q' (ro_among _ _ _ R' q' Hq')) as (q & Hq & W3 & E3). destruct (ro_all _ _ _ R q Hq) as (p2 & Hp2 & W4 & K4).
  assert (p2 = p) by (apply (once words r); [exact (ro_once _ _ _ R)|exact Hp2|exact Hp|congruence]). subst p2.
  assert (E : pr_p p = pr_p q').
  { rewrite E1. apply key_eq; [exact (ro_unit _ _ _ R' p' Hp')|exact (ro_unit _ _ _ R' q' (ro_among _ _ _ R' q' Hq'))|]. unfold key in *. rewrite E1, E3 in K4. lia. }
  unfold pairs. apply in_map_iff. exists q'. split; [|exact Hq']. f_equal; congruence.
Qed.
Lemma rank_pairs words words' ps ps' r r' : rank_of words ps r -> rank_of words' ps' r' ->
  (forall p, In p ps -> exists q, In q ps' /\ words_at words p = words_at words' q /\ pr_p p = pr_p q) -> (forall q, In q ps' -> exists p, In p ps /\ words_at words p = words_at words' q /\ pr_p p = pr_p q) ->
  (forall p q, In p ps -> In q ps -> pr_p p = pr_p q -> words_at words p = words_at words q) -> pairs words r = pairs words' r'.
Proof.
  intros R R' H H' U. assert (S1 : forall w ps r, rank_of w ps r -> StronglySorted (fun a b => dkey (snd b) <= dkey (snd a)) (pairs w r)).
  { intros w l s Q. pose proof (ro_order _ _ _ Q) as So. clear - So. induction So as [|p s So IH F]; cbn [pairs map]; constructor; [exact IH|]. rewrite Forall_forall in *. intros x Hx. apply in_map_iff in Hx as (q & <- & Hq). exact (F q Hq). }
  apply (sorted_same (fun a b => dkey (snd b) <= dkey (snd a))); [|exact (S1 _ _ _ R)|exact (S1 _ _ _ R')|].
  - intros a b Ha Hb L1 L2. unfold pairs in Ha, Hb. apply in_map_iff in Ha as (p & <- & Hp). apply in_map_iff in Hb as (q & <- & Hq). cbn [snd] in *. apply (ro_among _ _ _ R) in Hp, Hq.
    assert (E : pr_p p = pr_p q) by (apply key_eq; [exact (ro_unit _ _ _ R p Hp)|exact (ro_unit _ _ _ R q Hq)|unfold key; lia]). rewrite E, (U p q Hp Hq E). reflexivity.
  - apply NoDup_Permutation; [apply pairs_NoDup, (ro_once _ _ _ R)|apply pairs_NoDup, (ro_once _ _ _ R')|]. intros x. split.
    + apply (rank_incl words words' ps ps'); assumption.
    + apply (rank_incl words' words ps' ps); [exact R'|exact R| |].
      * intros q Hq. destruct (H' q Hq) as (p & Hp & A & B). exists p. auto.
      * intros p Hp. destruct (H p Hp) as (q & Hq & A & B). exists q. auto.
Qed.
Lemma rank6_of rt words ps : is_std_sort (lt6 words) (r6_views rt words) -> is_std_sort gt_prob (r6_probs rt) -> (forall p, In p ps -> unitp p /\ 0 <= pr_i p < Z.of_nat (List.length words)) ->
  exists r, rank6 rt words ps = Ok r /\ rank_of words ps r.
Proof.
  intros Hv Hp Hb. destruct (rank6_ok words rt Hv Hp ps Hb) as (r & E & A & B & C & D). exists r. split; [exact E|]. constructor; try assumption. intros p Hq. now apply Hb.
Qed.

(** * The decision *)
Lemma first_same words words' p q : words_at words p = words_at words' q -> first_word6 words p = first_word6 words' q.
Proof. intros E. unfold first_word6. now rewrite E. Qed.
Section Decide.
Context (rt rt' : runtime6) (cols cols' : list (list fval)) (words words' : list (list (list Z))) (bw bw' : list (list Z)) (HE : base6 rt cols words bw) (HE' : base6 rt' cols' words' bw').
Context (img img90 : image) (HR : recognisable img) (H90 : rotate90 img = Ok img90) (junk junk' : Z -> Z) (f : Z -> Z) (n : Z) (HM : moves f n cols words cols' words').
Notation load := (load6 junk (r6_zones rt) img img90).
Notation load' := (load6 junk' (r6_zones rt') img img90).
Lemma seen_both s v : seen6 (r6_zones rt) img s v <-> seen6 (r6_zones rt') img s v.
Proof. pose proof (b6_zones _ _ _ _ HE). pose proof (b6_zones _ _ _ _ HE'). split; apply true6_any; assumption. Qed.
Lemma reduced_of (rt0 : runtime6) cols0 words0 bw0 junk0 ps : base6 rt0 cols0 words0 bw0 -> (forall p, In p ps -> unitp p /\ 0 <= pr_i p < Z.of_nat (List.length words0)) -> comparable6 (r6_zones rt0) img cols0 ->
  exists qs0 qs, reduce_complex6 (load6 junk0 (r6_zones rt0) img img90) cols0 complex_strategies ps = Ok qs0 /\ reduce_exclusive6 (load6 junk0 (r6_zones rt0) img img90) cols0 bw0 qs0 = Ok qs /\
    reduced (r6_zones rt0) img cols0 words0 ps qs /\ (forall q, In q qs -> unitp q /\ 0 <= pr_i q < Z.of_nat (List.length words0)).
Proof.
  intros HB Hb HC. rewrite (reduce_complex6_ok _ _ _ _ HB img img90 HR H90 junk0 complex_strategies (fun s H => H) ps Hb).
  change (fun p0 : prob => mkpr (pr_i p0) (fold_left (stepd rt0 cols0 img img90 junk0 (pr_i p0)) complex_strategies (pr_p p0))) with (fun p0 : prob => mkpr (pr_i p0) (final rt0 cols0 img img90 junk0 p0)).
  change (fun p0 : prob => forallb (fun s : strategy => 50 <=? pct6 rt0 cols0 img img90 junk0 s (pr_i p0)) complex_strategies) with (fun p0 => plausibleb6 rt0 cols0 img img90 junk0 (pr_i p0)).
  set (qs0 := map (fun p0 => mkpr (pr_i p0) (final rt0 cols0 img img90 junk0 p0)) (filter (fun p0 => plausibleb6 rt0 cols0 img img90 junk0 (pr_i p0)) ps)).
  assert (Hq0 : forall q, In q qs0 <-> exists p0, In p0 ps /\ plausible6 (r6_zones rt0) img cols0 (pr_i p0) /\ q = mkpr (pr_i p0) (final rt0 cols0 img img90 junk0 p0)).
  { intros q. unfold qs0. rewrite in_map_iff. split.
    - intros (p0 & <- & H). apply filter_In in H as (H & P). exists p0. split; [exact H|]. split; [|reflexivity]. apply (plausible6_iff _ _ _ _ HB img img90 HR H90 junk0); [now apply Hb|exact P].
    - intros (p0 & H & P & ->). exists p0. split; [reflexivity|]. apply filter_In. split; [exact H|]. apply (plausible6_iff _ _ _ _ HB img img90 HR H90 junk0); [now apply Hb|exact P]. }
  assert (Hb0 : forall q, In q qs0 -> unitp q /\ 0 <= pr_i q < Z.of_nat (List.length words0)).
  { intros q Hq. apply Hq0 in Hq as (p0 & H & _ & ->). destruct (Hb p0 H) as (Up & Ip). cbn [pr_i]. split; [|exact Ip]. now apply (final_unit _ _ _ _ HB img img90 HR H90 junk0). }
  exists qs0. clearbody qs0. destruct (reduce_exclusive6_ok _ _ _ _ HB img img90 HR H90 junk0 qs0 (fun q Hq => proj2 (Hb0 q Hq))) as (Ex1 & Ex2). destruct (Ex2 HC) as (qs & Eq). specialize (Ex1 qs Eq).
  exists qs. split; [reflexivity|]. split; [exact Eq|]. split; [|intros q Hq; apply Hb0; now apply Ex1].
  intros q. rewrite Ex1, Hq0. unfold kept6. split.
  - intros ((p0 & H & P & ->) & Sp). exists p0. cbn [pr_i pr_p] in *. split; [exact H|]. split; [auto|]. split; [reflexivity|]. apply (final_iff _ _ _ _ HB img img90 HR H90 junk0); [now apply Hb|reflexivity].
  - intros (p0 & H & (P & Sp) & Ei & F). rewrite (final_iff _ _ _ _ HB img img90 HR H90 junk0) in F by (now apply Hb). split; [|now rewrite Ei]. exists p0. split; [exact H|]. split; [exact P|]. destruct q as [qi qp]. cbn [pr_i pr_p] in *. now subst.
Qed.
Lemma decide_out_same nan ps ps' : (forall p, In p ps -> unitp p /\ 0 <= pr_i p < n) -> (forall p, In p ps' -> unitp p /\ 0 <= pr_i p < n) ->
  (forall p', In p' ps' -> In (mkpr (f (pr_i p')) (pr_p p')) ps) -> (forall p, In p ps -> exists i, 0 <= i < n /\ f i = pr_i p /\ In (mkpr i (pr_p p)) ps') ->
  (forall p q, In p ps -> In q ps -> pr_p p = pr_p q -> labels6 words (pr_i p) = labels6 words (pr_i q)) ->
  ((exists p, In p ps /\ dle d1 (pr_p p) = true) \/ (comparable6 (r6_zones rt) img cols /\ comparable6 (r6_zones rt') img cols' /\
     forall p q x, In p ps -> In q ps -> kept6 (r6_zones rt) img cols words (pr_i p) -> kept6 (r6_zones rt) img cols words (pr_i q) -> final_score (r6_zones rt) img cols p x -> final_score (r6_zones rt) img cols q x ->
       labels6 words (pr_i p) = labels6 words (pr_i q))) ->
  decide_out nan rt cols words bw load ps = decide_out nan rt' cols' words' bw' load' ps'.
Proof.
  intros Hb Hb' M1 M2 U HC. pose proof (mv_size _ _ _ _ _ _ HM) as (L1 & L2). pose proof (mv_words _ _ _ _ _ _ HM) as Lb. rewrite <- L1 in Hb. rewrite <- L2 in Hb'.
  destruct (rank6_of rt words ps (b6_views _ _ _ _ HE words) (b6_probs _ _ _ _ HE) Hb) as (r & Er & R). destruct (rank6_of rt' words' ps' (b6_views _ _ _ _ HE' words') (b6_probs _ _ _ _ HE') Hb') as (r' & Er' & R').
  assert (F1 : forall p, In p ps -> exists q, In q ps' /\ words_at words p = words_at words' q /\ pr_p p = pr_p q).
  { intros p Hp. destruct (M2 p Hp) as (i & Hi & Fi & Ip). exists (mkpr i (pr_p p)). split; [exact Ip|]. split; [|reflexivity]. change (labels6 words (pr_i p) = labels6 words' i). now rewrite (Lb i Hi), Fi. }
  assert (F2 : forall q, In q ps' -> exists p, In p ps /\ words_at words p = words_at words' q /\ pr_p p = pr_p q).
  { intros q Hq. exists (mkpr (f (pr_i q)) (pr_p q)). split; [now apply M1|]. split; [|reflexivity]. change (labels6 words (f (pr_i q)) = labels6 words' (pr_i q)). rewrite Lb; [reflexivity|]. rewrite <- L2. now apply Hb'. }
  assert (P : pairs words r = pairs words' r') by (apply (rank_pairs words words' ps ps'); assumption).
  unfold decide_out, rank_out. rewrite Er, Er'. cbn [bind]. rewrite (show_same nan words words' r r' P).
  destruct r as [|p r]; [destruct r' as [|p' r']; [reflexivity|discriminate P]|]. pose proof P as P0. apply pairs_cons in P as (p' & r2 & -> & Ew & Ep & P).
  rewrite (first_same words words' p p' Ew), <- Ep. destruct (first_word6 words' p') as [w| | |]; try reflexivity. cbn [bind]. destruct (dle d1 (pr_p p)) eqn:D.
  { rewrite (take_same words words' (fun q => dle d1 (pr_p q)) (fun q => dle d1 (pr_p q)) (fun a b E => f_equal (dle d1) E) (p :: r) (p' :: r2) P0). reflexivity. }
  destruct HC as [(q & Hq & Dq)|(C1 & C2 & U2)].
  { exfalso. destruct (ro_all _ _ _ R q Hq) as (p2 & Hp2 & _ & K). pose proof (ro_unit _ _ _ R) as Un. assert (Up : unitp p) by (apply Un, (ro_among _ _ _ R); now left).
    assert (K2 : key p2 <= key p). { pose proof (ro_order _ _ _ R) as So. apply StronglySorted_inv in So as (_ & Fo). rewrite Forall_forall in Fo. destruct Hp2 as [<-|Hp2]; [lia|now apply Fo]. }
    pose proof (one_mono p q Up (Un q Hq) ltac:(lia)) as O. unfold one in O. rewrite O in D; [discriminate|exact Dq]. }
  destruct (reduced_of rt cols words bw junk ps HE Hb C1) as (qs0 & qs & -> & E2 & Q & Bq). destruct (reduced_of rt' cols' words' bw' junk' ps' HE' Hb' C2) as (qs0' & qs' & -> & E2' & Q' & Bq'). cbn [bind]. rewrite E2, E2'. cbn [bind].
  destruct (rank6_of rt words qs (b6_views _ _ _ _ HE words) (b6_probs _ _ _ _ HE) Bq) as (s & Es & S1). destruct (rank6_of rt' words' qs' (b6_views _ _ _ _ HE' words') (b6_probs _ _ _ _ HE') Bq') as (s' & Es' & S1').
  assert (Ps : pairs words s = pairs words' s').
  { apply (rank_pairs words words' qs qs'); try assumption.
    - intros q Hq. pose proof (proj1 (Q q) Hq) as (p0 & Hp0 & K0 & I0 & F0). destruct (M2 p0 Hp0) as (i & Hi & Fi & Ip). exists (mkpr i (pr_p q)). split; [|split; [|reflexivity]].
      + apply Q'. exists (mkpr i (pr_p p0)). cbn [pr_i pr_p]. split; [exact Ip|]. split; [apply (moved_kept f n cols cols' words words' HM _ _ img seen_both i Hi); now rewrite Fi|]. split; [reflexivity|].
        apply (moved_final f n cols cols' words words' HM _ _ img seen_both i _ _ Hi). rewrite Fi. destruct p0. exact F0.
      + change (labels6 words (pr_i q) = labels6 words' i). now rewrite (Lb i Hi), Fi, I0.
    - intros q Hq. pose proof (proj1 (Q' q) Hq) as (p0 & Hp0 & K0 & I0 & F0). assert (Hi : 0 <= pr_i p0 < n) by (rewrite <- L2; now apply Hb'). exists (mkpr (f (pr_i q)) (pr_p q)). split; [|split; [|reflexivity]].
      + apply Q. exists (mkpr (f (pr_i p0)) (pr_p p0)). cbn [pr_i pr_p]. split; [now apply M1|]. split; [now apply (moved_kept f n cols cols' words words' HM _ _ img seen_both _ Hi)|]. split; [now rewrite I0|].
        apply (moved_final f n cols cols' words words' HM _ _ img seen_both _ _ _ Hi). destruct p0. exact F0.
      + change (labels6 words (f (pr_i q)) = labels6 words' (pr_i q)). rewrite I0. symmetry. now apply Lb.
    - intros a b Ha Hb0 Eab. apply Q in Ha as (p0 & Hp0 & K0 & I0 & F0). apply Q in Hb0 as (q0 & Hq0 & K1 & I1 & G0). change (labels6 words (pr_i a) = labels6 words (pr_i b)). rewrite I0, I1. rewrite <- Eab in G0. exact (U2 p0 q0 _ Hp0 Hq0 K0 K1 F0 G0). }
  rewrite Es, Es'. cbn [bind]. rewrite (show_same nan words words' s s' Ps). destruct s as [|q s]; [destruct s' as [|q' s']; [reflexivity|discriminate Ps]|]. pose proof Ps as P1. apply pairs_cons in Ps as (q' & s2 & -> & Ew2 & Ep2 & Ps).
  cbv zeta. rewrite (first_same words words' q q' Ew2). destruct (first_word6 words' q') as [w2| | |]; try reflexivity. cbn [bind].
  rewrite (take_same words words' (fun x => negb (dlt (pr_p x) (pr_p q))) (fun x => negb (dlt (pr_p x) (pr_p q'))) (fun a b E => eq_trans (f_equal (fun x => negb (dlt x (pr_p q))) E) (f_equal (fun y => negb (dlt (pr_p b) y)) Ep2)) (q :: s) (q' :: s2) P1). reflexivity.
Qed.
End Decide.
