(** The features of an image that is enlarged: all of them. *)
From Verif Require Import Base BaseProofs ImageModel ImageSpec ImageProofs StratModel StratSpec StratProofs StratFeatures StratFeatures2 StratFeatures3
  SortModel SortProofs ZoneModel ZoneSpec ZoneProofs2 ZoneProofs3 TurnSpec TurnProofs ScaleSpec ScaleProofs ScaleProofs2.
From Coq Require Import Permutation Sorted.
From Verif Require SameProofs.

Lemma last_block m n : 0 < m -> (m * n - 1) / m = n - 1.
Proof. intros Hm. replace (m * n - 1) with (m * (n - 1) + (m - 1)) by lia. apply div_block. lia. Qed.
Lemma pos_scaled m n : 0 < m -> (0 <? m * n) = (0 <? n).
Proof. intros Hm. apply Bool.eq_true_iff_eq. rewrite !Z.ltb_lt. nia. Qed.

Section Sides.
Context (j k : Z) (a b : image) (Hj : 0 < j) (Hk : 0 < k) (Ha : 1 <= iw a) (Hb : 1 <= ih a) (HS : scaled j k a b) (lab : Z -> Z -> Z).
Notation W := (iw a). Notation D := (ih a). Notation lab' := (fun x y => lab (x / j) (y / k)).
Lemma top_scaled v : on_top b lab' v = j * on_top a lab v.
Proof. unfold on_top. rewrite (sw j k a b HS). change (0 / k) with 0. exact (zsum_scaled (fun x => if lab x 0 =? v then 1 else 0) j W Hj ltac:(lia)). Qed.
Lemma bottom_scaled v : on_bottom b lab' v = j * on_bottom a lab v.
Proof. unfold on_bottom. rewrite (sw j k a b HS), (sh j k a b HS), last_block by lia. exact (zsum_scaled (fun x => if lab x (D - 1) =? v then 1 else 0) j W Hj ltac:(lia)). Qed.
Lemma left_scaled v : on_left b lab' v = k * on_left a lab v.
Proof. unfold on_left. rewrite (sh j k a b HS). change (0 / j) with 0. exact (zsum_scaled (fun y => if lab 0 y =? v then 1 else 0) k D Hk ltac:(lia)). Qed.
Lemma right_scaled v : on_right b lab' v = k * on_right a lab v.
Proof. unfold on_right. rewrite (sw j k a b HS), (sh j k a b HS), last_block by lia. exact (zsum_scaled (fun y => if lab (W - 1) y =? v then 1 else 0) k D Hk ltac:(lia)). Qed.
Lemma contact_scaled v : j = k -> contact b lab' v = k * contact a lab v.
Proof.
  intros E. unfold contact. rewrite top_scaled, bottom_scaled, left_scaled, right_scaled, !pos_scaled by lia. rewrite E.
  destruct (0 <? on_top a lab v); [reflexivity|]. destruct (0 <? on_right a lab v); [reflexivity|]. destruct (0 <? on_bottom a lab v); reflexivity.
Qed.
Lemma border_scaled n : j = k -> border_zones b n lab' = border_zones a n lab.
Proof. intros E. unfold border_zones. apply filter_ext. intros v. now rewrite contact_scaled, pos_scaled by lia. Qed.
Lemma total_scaled n : j = k -> contact_total b n lab' = k * contact_total a n lab.
Proof.
  intros E. unfold contact_total. rewrite border_scaled by exact E. induction (border_zones a n lab) as [|v l IH]; cbn [map fold_right]; [lia|]. rewrite IH, contact_scaled by exact E. lia.
Qed.
End Sides.

Lemma same_labels img lab lab' : (forall x y, lab x y = lab' x y) -> forall v,
  on_top img lab v = on_top img lab' v /\ on_bottom img lab v = on_bottom img lab' v /\ on_left img lab v = on_left img lab' v /\ on_right img lab v = on_right img lab' v.
Proof. intros E v. unfold on_top, on_bottom, on_left, on_right. repeat split; apply zsum_ext; intros; now rewrite E. Qed.
Lemma same_contact img lab lab' : (forall x y, lab x y = lab' x y) -> forall v, contact img lab v = contact img lab' v.
Proof. intros E v. destruct (same_labels img lab lab' E v) as (E1 & E2 & E3 & E4). unfold contact. now rewrite E1, E2, E3, E4. Qed.
Lemma same_border img lab lab' n : (forall x y, lab x y = lab' x y) -> border_zones img n lab = border_zones img n lab'.
Proof. intros E. unfold border_zones. apply filter_ext. intros v. now rewrite (same_contact img lab lab' E). Qed.
Lemma count_zones_ext n f g : (forall v, f v = g v) -> count_zones n f = count_zones n g.
Proof. intros E. unfold count_zones. apply zsum_ext. intros i _. now rewrite E. Qed.

Section Features.
Context (j k : Z) (a b : image) (Hj : 0 < j) (Hk : 0 < k) (Wa : wf_image a) (OB : ordinary b) (HS : scaled j k a b).
Notation W := (iw a). Notation D := (ih a).
Lemma small_sizes : 1 <= W /\ 1 <= D.
Proof. destruct OB as (_ & B1 & B2 & _). destruct HS as (E1 & E2 & _). rewrite E1 in B1. rewrite E2 in B2. nia. Qed.
Lemma ordinary_small : ordinary a.
Proof.
  destruct small_sizes as (S1 & S2). split; [exact Wa|]. split; [exact S1|]. split; [exact S2|]. destruct OB as (_ & B1 & B2 & B3). pose proof (area_le j k a b Hj Hk S1 S2 HS) as A.
  assert (W <= iw b) by (rewrite (sw j k a b HS); nia). assert (D <= ih b) by (rewrite (sh j k a b HS); nia). assert (0 <= W * D) by nia.
  assert (W * D * (W + D) <= iw b * ih b * (iw b + ih b)) by (apply Z.mul_le_mono_nonneg; lia). lia.
Qed.
Lemma measures : measurable a (W * D) /\ measurable b (iw b * ih b).
Proof.
  pose proof (ordinary_bounds a ordinary_small) as (A1 & _). pose proof (ordinary_bounds b OB) as (B1 & _). destruct ordinary_small as (_ & S1 & S2 & _). destruct OB as (Wb & T1 & T2 & _).
  split; (split; [assumption|]; split; [assumption|]; split; [assumption|lia]).
Qed.
Lemma scaled_zones junk ctx junk' ctx' : exists z, zones_of junk ctx a = Ok z /\ zones_of junk' ctx' b = Ok z.
Proof.
  destruct small_sizes as (S1 & S2). pose proof (ordinary_bounds a ordinary_small) as (_ & _ & A & _). pose proof (ordinary_bounds b OB) as (_ & _ & B & _). destruct OB as (Wb & T1 & T2 & _).
  destruct (zones_of_ok junk ctx a Wa S1 S2 ltac:(lia)) as (ka & la & Ka & Na & Za). destruct (zones_of_ok junk' ctx' b Wb T1 T2 ltac:(lia)) as (kb & lb & Kb & Nb & Zb).
  destruct (numbering_unique b kb lb ka _ Nb (scaled_numbering j k a b Hj Hk HS ka la Na) Kb Ka) as (-> & L). eexists. split; [exact Za|]. rewrite Zb.
  rewrite !(scaled_ink j k a b HS), (sw j k a b HS), (sh j k a b HS), (last_block j W Hj), (last_block k D Hk). change (0 / j) with 0. change (0 / k) with 0.
  assert (Q : forall v, (0 <? on_top b lb v) = (0 <? on_top a la v) /\ (0 <? on_bottom b lb v) = (0 <? on_bottom a la v) /\ (0 <? on_left b lb v) = (0 <? on_left a la v) /\ (0 <? on_right b lb v) = (0 <? on_right a la v)).
  { intros v. destruct (same_labels b _ _ L v) as (-> & -> & -> & ->). rewrite (top_scaled j k a b), (bottom_scaled j k a b), (left_scaled j k a b), (right_scaled j k a b), !pos_scaled by (assumption || lia). auto. }
  f_equal. f_equal. f_equal. f_equal; [apply count_zones_ext; intros v; apply Q|]. f_equal; [apply count_zones_ext; intros v; apply Q|]. f_equal; [apply count_zones_ext; intros v; apply Q|].
  f_equal; [apply count_zones_ext; intros v; apply Q|]. f_equal. apply count_zones_ext. intros v. destruct (Q v) as (-> & -> & -> & ->). reflexivity.
Qed.
Lemma scaled_proportions junk ctx junk' ctx' sort sort' : j = k -> is_std_sort Z.ltb sort -> is_std_sort Z.ltb sort' ->
  exists q, proportions_of junk ctx sort a = Ok q /\ proportions_of junk' ctx' sort' b = Ok q.
Proof.
  intros Ejk C1 C2. destruct small_sizes as (S1 & S2). pose proof (ordinary_bounds a ordinary_small) as (_ & _ & A & _). pose proof (ordinary_bounds b OB) as (_ & _ & B & _). destruct OB as (Wb & T1 & T2 & _).
  destruct (proportions_law junk a ctx sort Wa S1 S2 A C1) as (ka & la & za & p & Ea & Na & Pa & Sa & Pp & _).
  destruct (proportions_law junk' b ctx' sort' Wb T1 T2 B C2) as (kb & lb & zb & q & Eb & Nb & Pb & Sb & Pq & _).
  exists p. unfold proportions_of. rewrite Ea, Eb. cbn [bind]. split; [exact Pa|]. rewrite Pb. f_equal.
  apply numbering_max in Na, Nb. assert (Ct : forall img n lab, contact_total img n lab = contact_total img (Z.max 0 n) lab) by (intros; unfold contact_total; now rewrite border_zones_max).
  rewrite <- border_zones_max in Pp, Pq. rewrite (Ct a ka la) in Pp. rewrite (Ct b kb lb) in Pq.
  destruct (numbering_unique b _ lb _ _ Nb (scaled_numbering j k a b Hj Hk HS _ la Na) ltac:(lia) ltac:(lia)) as (E & L). rewrite E in Pq. set (n := Z.max 0 ka) in *.
  apply (SameProofs.sorted_same Z.le); [intros; lia|exact Sb|exact Sa|]. eapply Permutation_trans; [exact Pq|]. eapply Permutation_trans; [|apply Permutation_sym; exact Pp].
  assert (Tq : contact_total b n lb = k * contact_total a n la).
  { rewrite <- (total_scaled j k a b Hj Hk S1 S2 HS la n Ejk). unfold contact_total. rewrite (same_border b _ _ n L). f_equal. apply map_ext. intros v. apply (same_contact b _ _ L). }
  rewrite Tq, (same_border b _ _ n L), (border_scaled j k a b Hj Hk S1 S2 HS la n Ejk).
  rewrite (map_ext _ (fun v => 100 * contact a la v / contact_total a n la)); [apply Permutation_refl|]. intros v. rewrite (same_contact b _ _ L), (contact_scaled j k a b Hj Hk S1 S2 HS la v Ejk).
  replace (100 * (k * contact a la v)) with (k * (100 * contact a la v)) by lia. destruct (Z.eq_dec (contact_total a n la) 0) as [Z0|Z0]; [rewrite Z0, Z.mul_0_r, !Zdiv_0_r; reflexivity|]. apply Z.div_mul_cancel_l; lia.
Qed.

Lemma scaled_counts junk ctx junk' ctx' : density b = density a /\ hbar b = hbar a /\ exists z, zones_of junk ctx a = Ok z /\ zones_of junk' ctx' b = Ok z.
Proof.
  destruct small_sizes as (S1 & S2). destruct measures as (M1 & M2). split; [now apply (scaled_density j k)|]. split; [|apply scaled_zones].
  destruct OB as (Wb & T1 & _). rewrite (hbar_ok a Wa S1), (hbar_ok b Wb T1). f_equal. now apply (scaled_bars j k).
Qed.
Lemma scaled_halves : Z.even D = true -> hdirection b = hdirection a /\ hdirection2 b = hdirection2 a /\
  let g side := 2 * k * ink_sum a (half_gravity side a) - (k - 1) * ink_sum a (half side a) in hgravity b = Ok (share (g upper) (g lower)).
Proof.
  intros Ev. destruct small_sizes as (S1 & S2). destruct measures as (M1 & M2). split; [now apply (scaled_hdirection j k)|]. split; [now apply (scaled_hdirection2 j k)|]. cbv zeta.
  pose proof (ordinary_bounds b OB) as (_ & B & _). destruct OB as (Wb & T1 & T2 & _). rewrite (proj1 (hgravity_ok b Wb T1 T2 B)). f_equal.
  assert (P : forall side, side = upper \/ side = lower -> 0 <= ink_sum b (half_gravity side b)).
  { intros side Sd. unfold ink_sum. apply zsum_nonneg. intros y Hy. apply zsum_nonneg. intros x Hx. destruct (ink b x y); [|lia]. now apply half_gravity_nonneg. }
  pose proof (P upper (or_introl eq_refl)) as P1. pose proof (P lower (or_intror eq_refl)) as P2.
  pose proof (scaled_gravity j k a b Hj Hk S1 S2 HS upper (or_introl eq_refl) Ev) as G1. pose proof (scaled_gravity j k a b Hj Hk S1 S2 HS lower (or_intror eq_refl) Ev) as G2.
  rewrite <- (share_scaled 2 (ink_sum b (half_gravity upper b))) by lia. rewrite G1, G2. assert (0 < j * k) by nia. apply share_scaled; nia.
Qed.
Lemma scaled_same junk ctx junk' ctx' sort sort' : j = k -> is_std_sort Z.ltb sort -> is_std_sort Z.ltb sort' ->
  proportionality b = proportionality a /\ exists q, proportions_of junk ctx sort a = Ok q /\ proportions_of junk' ctx' sort' b = Ok q.
Proof.
  intros E C1 C2. split; [|now apply scaled_proportions]. pose proof (ordinary_bounds a ordinary_small) as (_ & _ & _ & A & _). pose proof (ordinary_bounds b OB) as (_ & _ & _ & B & _).
  destruct small_sizes as (S1 & S2). destruct OB as (_ & T1 & T2 & _).
  destruct (proportionality_ok a) as (u & -> & _ & ->); [lia|lia|lia|lia|]. destruct (proportionality_ok b) as (v & -> & _ & ->); [lia|lia|lia|lia|]. f_equal.
  rewrite (sw j k a b HS), (sh j k a b HS), E. replace (100 * (k * W)) with (k * (100 * W)) by lia. replace (k * W + k * D) with (k * (W + D)) by lia. apply Z.div_mul_cancel_l; lia.
Qed.
Lemma scaled_alternations : exists r1 r2 t u m l r, alternations_of a = Ok [r1; r2; t; u; m; l; r] /\
  exists r1' t' u' l' r', alternations_of b = Ok [r1'; r2; t'; u'; m; l'; r'] /\
    (D mod 3 <> 1 -> r1' = r1) /\ (D mod 3 = 0 -> t' = t /\ u' = u) /\ (W mod 3 = 0 -> l' = l /\ r' = r).
Proof.
  destruct small_sizes as (S1 & S2). pose proof (ordinary_bounds a ordinary_small) as (_ & _ & _ & _ & A). pose proof (ordinary_bounds b OB) as (_ & _ & _ & _ & B). destruct OB as (Wb & T1 & T2 & _).
  destruct (alternations_ok a Wa S1 S2 A) as (qa & Ra & Aa). destruct (alternations_ok b Wb T1 T2 B) as (qb & Rb & Ab).
  destruct (scaled_alternations_spec j k a b Hj Hk S1 S2 HS) as (r1 & r2 & t & u & m & l & r & Sa & r1' & t' & u' & l' & r' & Sb & E).
  exists r1, r2, t, u, m, l, r. unfold alternations_of. rewrite Ra, Rb. cbn [bind]. rewrite Aa, Ab, Sa, Sb. split; [reflexivity|]. exists r1', t', u', l', r'. split; [reflexivity|exact E].
Qed.
End Features.

(** * An image that is enlarged *)
Lemma enlarged j k a : 0 < j -> 0 < k -> wf_image a -> j * iw a * (k * ih a) < 4294967296 -> 1 <= iw a -> 1 <= ih a -> wf_image (enlarge j k a) /\ scaled j k a (enlarge j k a).
Proof.
  intros Hj Hk (W1 & W2 & W3 & W4) B Ha Hb.
  assert (Pk : forall x y, 0 <= x < iw a -> 0 <= y < ih a -> exists p, pix a x y = Some p).
  { intros x y Hx Hy. unfold pix. rewrite !(proj2 (Z.leb_le _ _)), !(proj2 (Z.ltb_lt _ _)) by lia. cbn [andb]. destruct (nth_error (idata a) (Z.to_nat (y * iw a + x))) as [p|] eqn:E; [now exists p|].
    apply nth_error_None in E. assert ((y + 1) * iw a <= ih a * iw a) by (apply Z.mul_le_mono_nonneg_r; lia). assert (0 <= y * iw a) by (apply Z.mul_nonneg_nonneg; lia). lia. }
  set (f := fun x y => match pix a (x / j) (y / k) with Some p => p | None => 0 end).
  assert (I : idata (enlarge j k a) = rowmajor (j * iw a) (k * ih a) f).
  { unfold enlarge, rowmajor. cbn [idata]. assert (Rw : forall y, In y (zrange (k * ih a)) -> flat_map (fun x => match pix a (x / j) (y / k) with Some p => [p] | None => [] end) (zrange (j * iw a)) = map (fun x => f x y) (zrange (j * iw a))).
    { intros y Hy. apply zrange_In in Hy. assert (Q : forall l, (forall x, In x l -> 0 <= x < j * iw a) -> flat_map (fun x => match pix a (x / j) (y / k) with Some p => [p] | None => [] end) l = map (fun x => f x y) l).
      { induction l as [|x l IH]; intros Hl; cbn [flat_map map]; [reflexivity|]. rewrite IH by (intros; apply Hl; now right). unfold f at 2.
        destruct (Pk (x / j) (y / k)) as (p & ->); [apply mul_bound; [exact Hj|apply Hl; now left]|apply mul_bound; [exact Hk|exact Hy]|]. reflexivity. }
      apply Q. intros x Hx. now apply zrange_In in Hx. }
    assert (Q : forall l, (forall y, In y l -> In y (zrange (k * ih a))) -> flat_map (fun y => flat_map (fun x => match pix a (x / j) (y / k) with Some p => [p] | None => [] end) (zrange (j * iw a))) l = flat_map (fun y => map (fun x => f x y) (zrange (j * iw a))) l).
    { induction l as [|y l IH]; intros Hl; cbn [flat_map]; [reflexivity|]. rewrite IH, Rw by (intros; apply Hl; (now right) || (now left)). reflexivity. }
    apply Q. auto. }
  assert (P1 : iw (enlarge j k a) = j * iw a) by reflexivity. assert (P2 : ih (enlarge j k a) = k * ih a) by reflexivity.
  assert (1 <= j * iw a) by nia. assert (1 <= k * ih a) by nia.
  split.
  - split; [rewrite P1; split; [lia|nia]|]. split; [rewrite P2; split; [lia|nia]|]. split; [rewrite P1, P2; exact B|]. rewrite I, P1, P2, rowmajor_length; lia.
  - split; [exact P1|]. split; [exact P2|]. intros x y. unfold pix at 1. rewrite P1, P2, I.
    destruct ((0 <=? x) && (x <? j * iw a) && (0 <=? y) && (y <? k * ih a)) eqn:E.
    + apply andb_true_iff in E as (E & E4). apply andb_true_iff in E as (E & E3). apply andb_true_iff in E as (E1 & E2).
      apply Z.leb_le in E1, E3. apply Z.ltb_lt in E2, E4. rewrite rowmajor_nth by lia. unfold f.
      destruct (Pk (x / j) (y / k)) as (p & ->); [apply mul_bound; lia|apply mul_bound; lia|reflexivity].
    + unfold pix. destruct ((0 <=? x / j) && (x / j <? iw a) && (0 <=? y / k) && (y / k <? ih a)) eqn:E'; [|reflexivity]. exfalso.
      apply andb_true_iff in E' as (E' & E4). apply andb_true_iff in E' as (E' & E3). apply andb_true_iff in E' as (E1 & E2).
      apply Z.leb_le in E1, E3. apply Z.ltb_lt in E2, E4. pose proof (proj1 (mul_bound j (iw a) x Hj) ltac:(lia)). pose proof (proj1 (mul_bound k (ih a) y Hk) ltac:(lia)).
      rewrite !(proj2 (Z.leb_le _ _)), !(proj2 (Z.ltb_lt _ _)) in E by lia. discriminate.
Qed.
