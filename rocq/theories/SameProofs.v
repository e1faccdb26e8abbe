(** The result of a recognition does not depend on the sorts. *)
From Verif Require Import Base BaseProofs SortModel SortProofs ImageModel StratModel StratSpec ZoneModel DatasModel DatasSpec DatasProofs IndexModel IndexSpec IndexProofs ViewClassProofs
  FloatModel FloatSpec FloatProofs RecogModel RecogSpec RankProofs RecogProofs RecogProofs2 StreamModel GlyphsModel SameSpec.
From Coq Require Import SpecFloat Permutation Sorted.

(** * Sorted lists *)
Lemma sorted_same {A} (R : A -> A -> Prop) : forall l l', (forall a b, In a l -> In b l -> R a b -> R b a -> a = b) -> StronglySorted R l -> StronglySorted R l' -> Permutation l l' -> l = l'.
Proof.
  induction l as [|a l IH]; intros l' An S1 S2 P; [now apply Permutation_nil in P|]. destruct l' as [|b l']; [now apply Permutation_sym, Permutation_nil in P|].
  inversion S1 as [|? ? S1' F1]; subst. inversion S2 as [|? ? S2' F2]; subst. rewrite Forall_forall in F1, F2.
  assert (E : a = b).
  { assert (Ia : In a (b :: l')) by (eapply Permutation_in; [exact P|now left]). assert (Ib : In b (a :: l)) by (eapply Permutation_in; [apply Permutation_sym, P|now left]).
    destruct Ia as [->|Ia]; [reflexivity|]. destruct Ib as [->|Ib]; [reflexivity|]. apply An; [now left|now right|now apply F1|now apply F2]. }
  subst b. f_equal. apply IH; [|exact S1'|exact S2'|now apply Permutation_cons_inv in P]. intros x y Hx Hy. apply An; now right.
Qed.
Lemma zsort_same z z' l : is_std_sort Z.ltb z -> is_std_sort Z.ltb z' -> z l = z' l.
Proof.
  intros H H'. destruct (H l (zltb_strict_weak l)) as (P & S1). destruct (H' l (zltb_strict_weak l)) as (P' & S2). unfold sorted_by in *.
  apply (sorted_same (fun a b => (b <? a) = false)); [intros a b _ _ H1 H2; lia|exact S1|exact S2|]. now rewrite <- P, <- P'.
Qed.
Lemma feature_sort z z' s img img90 : is_std_sort Z.ltb z -> is_std_sort Z.ltb z' -> feature_alone z s img img90 = feature_alone z' s img img90.
Proof.
  intros H H'. unfold feature_alone. destruct (st_algo s); try reflexivity. destruct (count_zone_compute _ _ _) as [zc| | |]; [|reflexivity..]. cbn [bind]. unfold pz_load.
  destruct (pz_values _) as [(total & l)| | |]; [|reflexivity..]. cbn [bind]. destruct (pz_percents _ _) as [q| | |]; [|reflexivity..]. cbn [bind]. now rewrite (zsort_same z z' q H H').
Qed.

(** * Two runs on the same picture and the same data *)
Definition same_features (inp inp' : input) : Prop := forall s v, feature inp s v <-> feature inp' s v.
Lemma features_same inp inp' : sound_input inp -> sound_input inp' -> in_img inp = in_img inp' -> same_features inp inp'.
Proof.
  intros (_ & E & Z1) (_ & E' & Z2) Ei s v. unfold feature. rewrite <- Ei in E' |- *. rewrite E in E'. injection E' as <-. now rewrite (feature_sort _ _ s _ _ Z1 Z2).
Qed.
Lemma same_features_sym inp inp' : same_features inp inp' -> same_features inp' inp.
Proof. intros H s v. symmetry. apply H. Qed.
Section Transport.
Context (inp inp' : input) (t : table) (HF : same_features inp inp').
Lemma candidate_to i : candidate inp t i -> candidate inp' t i.
Proof. intros (R & H). split; [exact R|]. intros s a b Hs Fa. apply (H s a b Hs). now apply HF. Qed.
Lemma scored_to ss i x : scored inp t ss i x -> scored inp' t ss i x.
Proof.
  intros (xs & F & ->). exists xs. split; [|reflexivity]. induction F as [|s y ss xs (a & b & Fa & Hb & Hy) F IH]; constructor; [|exact IH]. exists a, b. split; [now apply HF|]. now split.
Qed.
Lemma certain_to i : certain inp t i -> certain inp' t i.
Proof. intros (C & S). split; [now apply candidate_to|now apply scored_to]. Qed.
Lemma plausible_to i : plausible inp t i -> plausible inp' t i.
Proof. intros H s a b Hs Fa. apply (H s a b Hs). now apply HF. Qed.
Lemma alike_to j : alike inp t j -> alike inp' t j.
Proof. intros (A & B). split; intros a b Fa; [apply A|apply B]; now apply HF. Qed.
Lemma supported_to i : supported inp t i -> supported inp' t i.
Proof. intros [H|(j & W & A)]; [now left|right]. exists j. split; [exact W|now apply alike_to]. Qed.
Lemma retained_to i : retained inp t i -> retained inp' t i.
Proof. intros (A & B & C). split; [now apply candidate_to|]. split; [now apply plausible_to|now apply supported_to]. Qed.
Lemma divided_to j : divided inp t j -> divided inp' t j.
Proof. intros (A & B). split; intros a b Fa; [apply A|apply B]; now apply HF. Qed.
End Transport.
Lemma undefined_to inp inp' t : same_features inp inp' -> undefined inp t -> undefined inp' t.
Proof.
  intros HF (N & i & C & P & before & j & after & E & NA & D). pose proof (same_features_sym _ _ HF) as HF'. split; [intros k Ck; apply (N k); now apply (certain_to inp' inp t HF')|].
  exists i. split; [now apply (candidate_to inp inp')|]. split; [now apply (plausible_to inp inp')|]. exists before, j, after. split; [exact E|]. split; [|now apply (divided_to inp inp')].
  intros k Hk A. apply (NA k Hk). now apply (alike_to inp' inp t HF').
Qed.

(** * Classes *)
Definition words (l : list oview) : list Z := map ov_word l.
Lemma class_same t t' i j : sound_table t -> sound_table t' -> t_glyphs t = t_glyphs t' -> 0 <= i < rows t -> 0 <= j < rows t -> (class t i = class t j <-> class t' i = class t' j).
Proof.
  intros H H' E Hi Hj. destruct (st_ids t H) as (so & Hs & Ei). destruct (st_ids t' H') as (so' & Hs' & Ei'). unfold class. rewrite Ei, Ei', <- E. rewrite <- E in Hs'. unfold rows in *.
  set (g := t_glyphs t) in *. clearbody g. clear - Hs Hs' Hi Hj.
  set (ws := map (fun i => words_of (glyph_at g i)) (so (zrange (Z.of_nat (List.length g))))).
  destruct (classes_rank g so Hs) as (P & S & _). 
  assert (Eg : map (fun i => words_of (glyph_at g i)) (zrange (Z.of_nat (List.length g))) = map words_of g).
  { unfold zrange, glyph_at. rewrite Nat2Z.id, map_map. rewrite <- (map_nth_seq_words g) at 2. rewrite map_map. apply map_ext. intros k. now rewrite Nat2Z.id. }
  assert (Pw : Permutation (map words_of g) ws) by (rewrite <- Eg; now apply Permutation_map).
  assert (Sw : StronglySorted (fun a b => ~ words_before b a) ws).
  { apply SS_map. unfold sorted_by in S. clear - S. induction S as [|a l H IH F]; constructor; auto. eapply Forall_impl; [|exact F]. cbn. intros b Hb. rewrite words_before_lex. unfold ref_lt in Hb. congruence. }
  destruct (classes_by_rank so g ws Hs Pw Sw) as (_ & A). destruct (classes_by_rank so' g ws Hs' Pw Sw) as (_ & A').
  destruct (A i j Hi Hj) as (_ & ->). destruct (A' i j Hi Hj) as (_ & ->). reflexivity.
Qed.

(** * Scores *)
Lemma half_converse x y k : unit_double x -> above k x -> k < 1000 -> unit_double y -> at_most 2 x y -> dle (dmul x dhalf) y = true.
Proof.
  intros Hx (m & e & -> & M & E) Hk Hy.
  destruct Hx as [C|(m' & e' & Q & (N1 & N2 & N3) & E' & L)]; [discriminate|]. injection Q as <- <-. rewrite mul_half by lia.
  destruct Hy as [->|(my & ey & -> & (Y1 & Y2 & Y3) & Ey & Ly)]; [intros []|].
  unfold dle, SFleb. rewrite compare_finite; [|split; [lia|split; [exact N2|right; exact M]]|split; [lia|split; [exact Y2|exact Y3]]].
  intros H. assert (D : dkey (S754_finite false m (e - 1)) <= dkey (S754_finite false my ey)); [|destruct (Z.compare_spec (dkey (S754_finite false m (e - 1))) (dkey (S754_finite false my ey))); [reflexivity..|lia]].
  unfold at_most, dkey in *. pose proof (Pos2Z.is_pos m). pose proof (Pos2Z.is_pos my).
  destruct (Z.le_gt_cases e ey) as [Le|Gt]; [set (P := 2 ^ 53) in *; clearbody P; nia|].
  rewrite Z.min_r, Z.sub_diag, Z.mul_1_r in H by lia. destruct (Z.eq_dec ey (e - 1)) as [->|Ne]; [replace (e - (e - 1)) with 1 in H by lia; change (2 ^ 1) with 2 in H; lia|].
  exfalso. assert (P2 : 2 ^ 2 <= 2 ^ (e - ey)) by (apply Z.pow_le_mono_r; lia). change (2 ^ 2) with 4 in P2. assert (T : 2 ^ 53 = 2 * 2 ^ 52) by reflexivity.
  set (A := 2 ^ (e - ey)) in *. clearbody A. set (P := 2 ^ 52) in *. clearbody P. nia.
Qed.
Lemma dle_antisym x y : unit_double x -> unit_double y -> dle x y = true -> dle y x = true -> x = y.
Proof.
  intros Hx Hy. rewrite !dle_key by assumption. intros A B. assert (K : dkey x = dkey y) by lia. clear A B.
  destruct Hx as [->|(m & e & -> & (N1 & N2 & N3) & E & L)], Hy as [->|(m' & e' & -> & (N1' & N2' & N3') & E' & L')]; unfold dkey, d0 in K; cbn in K.
  - reflexivity.
  - pose proof (Pos2Z.is_pos m'). lia.
  - pose proof (Pos2Z.is_pos m). lia.
  - pose proof (Pos2Z.is_pos m). pose proof (Pos2Z.is_pos m'). change (2 ^ 53) with 9007199254740992 in *. assert (e = e') by lia. subst e'. f_equal. lia.
Qed.

(** * Rankings *)
Lemma ranking_scores t t' kept kept' sc sc' r r' :
  (forall i, kept i <-> kept' i) -> (forall i x, sc i x <-> sc' i x) -> (forall i j, kept i -> kept j -> (class t i = class t j <-> class t' i = class t' j)) ->
  (forall i x, kept i -> sc i x -> unit_double x /\ above 900 x) ->
  ranking t kept sc r -> ranking t' kept' sc' r' -> forall p, In p r -> exists q, In q r' /\ class t' (pr_i q) = class t' (pr_i p) /\ pr_p q = pr_p p.
Proof.
  intros Hk Hs Hc Hb R R' p Ip. destruct (rk_kept _ _ _ _ R p Ip) as (Kp & Sp & Up).
  destruct r as [|h r]; [destruct Ip|]. destruct r' as [|h' r']; [exfalso; apply (rk_nonempty _ _ _ _ R' eq_refl (pr_i p)); now apply Hk|].
  destruct (rk_kept _ _ _ _ R h (or_introl eq_refl)) as (Kh & Sh & Uh). destruct (rk_kept _ _ _ _ R' h' (or_introl eq_refl)) as (Kh' & Sh' & Uh').
  assert (E : pr_p h = pr_p h').
  { apply dle_antisym; [exact Uh|exact Uh'| |].
    - apply (rk_best _ _ _ _ R' h' r' (pr_i h) _ eq_refl); [now apply Hk|now apply Hs].
    - apply (rk_best _ _ _ _ R h r (pr_i h') _ eq_refl); [now apply Hk|now apply Hs]. }
  pose proof (rk_half _ _ _ _ R h r p eq_refl Ip) as Hh.
  assert (D : dle (dmul (pr_p h) dhalf) (pr_p p) = true).
  { apply (half_converse _ _ 900); [exact Uh|apply (Hb (pr_i h)); assumption|lia|exact Up|exact Hh]. }
  rewrite E in D. destruct (rk_complete _ _ _ _ R' h' r' (pr_i p) (pr_p p) eq_refl (proj1 (Hk _) Kp) (proj1 (Hs _ _) Sp) D) as (q & Iq & Cq).
  exists q. split; [exact Iq|]. split; [exact Cq|]. destruct (rk_kept _ _ _ _ R' q Iq) as (Kq & Sq & Uq).
  apply dle_antisym; [exact Uq|exact Up| |].
  - apply (rk_class_best _ _ _ _ R p (pr_i q) _ Ip); [now apply Hk|now apply Hs|]. apply Hc; [now apply Hk|exact Kp|exact Cq].
  - apply (rk_class_best _ _ _ _ R' q (pr_i p) _ Iq); [now apply Hk|now apply Hs|now symmetry].
Qed.
Lemma NoDup_keys {A B C} (f : A -> B) (g : A -> C) l : (forall a b, In a l -> In b l -> f a = f b -> g a = g b) -> NoDup (map g l) -> NoDup (map f l).
Proof.
  induction l as [|a l IH]; intros H N; cbn [map] in *; [constructor|]. inversion N as [|? ? N1 N2]; subst. constructor.
  - intros I. apply in_map_iff in I as (b & Eb & Ib). apply N1. rewrite (H a b); [now apply in_map|now left|now right|now symmetry].
  - apply IH; [|exact N2]. intros x y Hx Hy. apply H; now right.
Qed.
Lemma ranking_same t t' kept kept' sc sc' r r' : t_glyphs t = t_glyphs t' ->
  (forall i, kept i <-> kept' i) -> (forall i x, sc i x <-> sc' i x) -> (forall i j, kept i -> kept j -> (class t i = class t j <-> class t' i = class t' j)) ->
  (forall i x, kept i -> sc i x -> unit_double x /\ above 900 x) ->
  (forall i j x, kept i -> kept j -> sc i x -> sc j x -> row_labels t i = row_labels t j) ->
  ranking t kept sc r -> ranking t' kept' sc' r' -> labels_of t r = labels_of t' r'.
Proof.
  intros Eg Hk Hs Hc Hb Hu R R'.
  assert (Hk' : forall i, kept' i <-> kept i) by (intros i; symmetry; apply Hk). assert (Hs' : forall i x, sc' i x <-> sc i x) by (intros i x; symmetry; apply Hs).
  set (key := fun p => (class t' (pr_i p), pr_p p)).
  assert (P : Permutation (map key r) (map key r')).
  { apply NoDup_Permutation.
    - apply (NoDup_keys key (fun p => class t (pr_i p))); [|exact (rk_classes _ _ _ _ R)]. intros a b Ia Ib E. injection E as E _. apply Hc; [apply (rk_kept _ _ _ _ R a Ia)|apply (rk_kept _ _ _ _ R b Ib)|exact E].
    - apply (NoDup_keys key (fun p => class t' (pr_i p))); [|exact (rk_classes _ _ _ _ R')]. intros a b Ia Ib E. now injection E.
    - intros k. rewrite !in_map_iff. split; intros (p & <- & Ip).
      + destruct (ranking_scores t t' kept kept' sc sc' r r' Hk Hs Hc Hb R R' p Ip) as (q & Iq & Cq & Pq). exists q. split; [|exact Iq]. unfold key. congruence.
      + destruct (ranking_scores t' t kept' kept sc' sc r' r Hk' Hs') with (p := p) as (q & Iq & Cq & Pq); [| |exact R'|exact R|exact Ip|].
        * intros i j Ki Kj. symmetry. apply Hc; now apply Hk.
        * intros i x Ki Sx. apply (Hb i); [now apply Hk|now apply Hs].
        * exists q. split; [|exact Iq]. unfold key. f_equal; [|exact Pq]. apply Hc; [apply (rk_kept _ _ _ _ R q Iq)|apply Hk, (rk_kept _ _ _ _ R' p Ip)|exact Cq]. }
  assert (E : map pr_p r = map pr_p r').
  { apply (sorted_same (fun x y => dle y x = true)).
    - intros a b Ia Ib L1 L2. apply in_map_iff in Ia as (p & <- & Ip). apply in_map_iff in Ib as (q & <- & Iq).
      apply dle_antisym; [apply (rk_kept _ _ _ _ R p Ip)|apply (rk_kept _ _ _ _ R q Iq)|exact L2|exact L1].
    - apply SS_map. exact (rk_sorted _ _ _ _ R).
    - apply SS_map. exact (rk_sorted _ _ _ _ R').
    - apply (Permutation_map snd) in P. rewrite !map_map in P. exact P. }
  assert (K : forall p, In p r -> kept (pr_i p) /\ sc (pr_i p) (pr_p p)) by (intros p Ip; destruct (rk_kept _ _ _ _ R p Ip) as (A & B & _); now split).
  assert (K' : forall p, In p r' -> kept (pr_i p) /\ sc (pr_i p) (pr_p p)) by (intros p Ip; destruct (rk_kept _ _ _ _ R' p Ip) as (A & B & _); split; [now apply Hk|now apply Hs]).
  clear - E K K' Hu Eg. revert r' E K'. induction r as [|p r IH]; intros [|p' r'] E K'; try discriminate E; [reflexivity|]. cbn [map] in E. injection E as E1 E2.
  unfold labels_of. cbn [flat_map]. f_equal; [|apply IH; [intros q Hq; apply K; now right|exact E2|intros q Hq; apply K'; now right]].
  destruct (K p (or_introl eq_refl)) as (Ka & Sa). destruct (K' p' (or_introl eq_refl)) as (Kb & Sb). rewrite <- E1 in Sb. rewrite <- Eg. exact (Hu _ _ _ Ka Kb Sa Sb).
Qed.

(** * Results *)
Section Tables.
Context (t t' : table) (HT : sound_table t) (HT' : sound_table t') (HD : same_data t t').
Lemma same_fields : t_strategies t = t_strategies t' /\ t_cols t = t_cols t' /\ t_glyphs t = t_glyphs t'.
Proof. split; [now rewrite (st_strategies t HT), (st_strategies t' HT')|exact HD]. Qed.
Lemma table_predicates inp : certain inp t = certain inp t' /\ retained inp t = retained inp t' /\ scored inp t = scored inp t' /\ (undefined inp t <-> undefined inp t').
Proof.
  destruct same_fields as (A & B & C). clear HT HT' HD. destruct t, t'. cbn in A, B, C. subst. split; [reflexivity|]. split; [reflexivity|]. split; [reflexivity|]. split; intros H; exact H.
Qed.
Context (inp inp' : input) (HI : sound_input inp) (HI' : sound_input inp') (HF : same_features inp inp').
Let HF' := same_features_sym _ _ HF.
Lemma certain_same i : certain inp t i <-> certain inp' t' i.
Proof. destruct (table_predicates inp') as (<- & _). split; apply certain_to; assumption. Qed.
Lemma retained_same i : retained inp t i <-> retained inp' t' i.
Proof. destruct (table_predicates inp') as (_ & <- & _). split; apply retained_to; assumption. Qed.
Lemma scored_same ss i x : scored inp t ss i x <-> scored inp' t' ss i x.
Proof. destruct (table_predicates inp') as (_ & _ & <- & _). split; apply scored_to; assumption. Qed.
Lemma undefined_same : undefined inp t <-> undefined inp' t'.
Proof. destruct (table_predicates inp') as (_ & _ & _ & <-). split; apply undefined_to; assumption. Qed.
Lemma certain_score i x : certain inp t i -> scored inp t simple_strategies i x -> unit_double x /\ above 900 x.
Proof.
  intros ((Hi & C) & _) Sx. apply (scored_score inp t HI HT) in Sx; [|exact simple_in_all|exact Hi]. subst x. apply (simple_score inp t HI HT i Hi). apply (near_candidate inp t HI HT i Hi). now split.
Qed.
Lemma retained_score i x : retained inp t i -> scored inp t scoring i x -> unit_double x /\ above 900 x.
Proof.
  intros (C & P & _) Sx. pose proof C as (Hi & _). apply (scored_score inp t HI HT) in Sx; [|exact scoring_incl|exact Hi]. subst x. apply (full_score inp t HI HT i Hi); [now apply (near_candidate inp t HI HT i Hi)|now apply (plausible_iff inp t HI HT i Hi)].
Qed.
Lemma outcome_same labels labels' : untied inp t -> outcome inp t labels -> outcome inp' t' labels' -> labels = labels'.
Proof.
  intros (U1 & U2) (r & -> & [((i & Ci) & R)|(N & R)]) (r' & -> & [((i' & Ci') & R')|(N' & R')]).
  - apply (ranking_same t t' (certain inp t) (certain inp' t') (scored inp t simple_strategies) (scored inp' t' simple_strategies)); try assumption.
    + apply HD.
    + exact certain_same.
    + exact (scored_same simple_strategies).
    + intros a b ((Ha & _) & _) ((Hb & _) & _). apply class_same; try assumption. apply HD.
    + exact certain_score.
    + intros a b x Ka Kb _ _. now apply U1.
  - exfalso. apply (N' i). now apply certain_same.
  - exfalso. apply (N i'). now apply certain_same.
  - apply (ranking_same t t' (retained inp t) (retained inp' t') (scored inp t scoring) (scored inp' t' scoring)); try assumption.
    + apply HD.
    + exact retained_same.
    + exact (scored_same scoring).
    + intros a b ((Ha & _) & _) ((Hb & _) & _). apply class_same; try assumption. apply HD.
    + exact retained_score.
    + exact (U2 N).
Qed.
End Tables.

(** The labels of a result, without the contexts. *)
Definition labels_only {A} (m : res (list oview * A)) : res (list oview) := match m with Ok (l, _) => Ok l | Throw e => Throw e | UB => UB | NoFuel => NoFuel end.
Lemma compute_image_same sv sp sv' sp' t t' inp inp' cx cx' :
  is_std_sort (lt_by_views (t_ids t)) (sv (t_ids t)) -> is_std_sort gt_prob sp -> is_std_sort (lt_by_views (t_ids t')) (sv' (t_ids t')) -> is_std_sort gt_prob sp' ->
  sound_table t -> sound_table t' -> same_data t t' -> sound_input inp -> sound_input inp' -> in_img inp = in_img inp' -> untied inp t ->
  labels_only (compute_image sv sp simple_strategies complex_strategies exclusive_strategies t inp dhalf cx) =
  labels_only (compute_image sv' sp' simple_strategies complex_strategies exclusive_strategies t' inp' dhalf cx').
Proof.
  intros Hv Hp Hv' Hp' HT HT' HD HI HI' Ei U. pose proof (features_same inp inp' HI HI' Ei) as HF.
  destruct (compute_image_exact inp t HI HT sv sp Hv Hp cx) as [(D & ->)|(D & l & c & -> & O)], (compute_image_exact inp' t' HI' HT' sv' sp' Hv' Hp' cx') as [(D' & ->)|(D' & l' & c' & -> & O')].
  - reflexivity.
  - exfalso. apply D'. now apply (undefined_same t t' HT HT' HD inp inp' HF).
  - exfalso. apply D. now apply (undefined_same t t' HT HT' HD inp inp' HF).
  - cbn [labels_only]. f_equal. exact (outcome_same t t' HT HT' HD inp inp' HI HF l l' U O O').
Qed.
