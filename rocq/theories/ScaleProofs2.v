(** The features of an image that is enlarged: lines and zones. *)
From Verif Require Import Base BaseProofs ImageModel ImageSpec ImageProofs StratModel StratSpec StratProofs StratFeatures StratFeatures2 StratFeatures3
  SortModel SortProofs ZoneModel ZoneSpec ZoneProofs2 ZoneProofs3 TurnSpec TurnProofs ScaleSpec ScaleProofs.
From Coq Require Import Permutation Sorted.

Lemma third_row k h : 0 < k -> 2 <= h -> h mod 3 <> 1 -> (k * h - 2) / 3 / k = (h - 2) / 3.
Proof.
  intros Hk Hh N. rewrite Z.div_div by lia. pose proof (Z.div_mod h 3 ltac:(lia)) as E. pose proof (Z.mod_pos_bound h 3 ltac:(lia)) as B.
  assert (M : h mod 3 = 0 \/ h mod 3 = 2) by lia. set (q := h / 3) in *. destruct M as [M|M]; rewrite M in E; rewrite E.
  - rewrite <- (Z.div_unique_pos (k * (3 * q + 0) - 2) (3 * k) (q - 1) (3 * k - 2)) by lia. rewrite <- (Z.div_unique_pos (3 * q + 0 - 2) 3 (q - 1) 1) by lia. reflexivity.
  - rewrite <- (Z.div_unique_pos (k * (3 * q + 2) - 2) (3 * k) q (2 * k - 2)) by lia. rewrite <- (Z.div_unique_pos (3 * q + 2 - 2) 3 q 0) by lia. reflexivity.
Qed.
Lemma two_thirds_row k h : 0 < k -> (2 * (k * h) - 1) / 3 / k = (2 * h - 1) / 3.
Proof.
  intros Hk. rewrite Z.div_div by lia. pose proof (Z.div_mod h 3 ltac:(lia)) as E. pose proof (Z.mod_pos_bound h 3 ltac:(lia)) as B.
  assert (M : h mod 3 = 0 \/ h mod 3 = 1 \/ h mod 3 = 2) by lia. set (q := h / 3) in *. destruct M as [M|[M|M]]; rewrite M in E; rewrite E.
  - rewrite <- (Z.div_unique_pos (2 * (k * (3 * q + 0)) - 1) (3 * k) (2 * q - 1) (3 * k - 1)) by lia. rewrite <- (Z.div_unique_pos (2 * (3 * q + 0) - 1) 3 (2 * q - 1) 2) by lia. reflexivity.
  - rewrite <- (Z.div_unique_pos (2 * (k * (3 * q + 1)) - 1) (3 * k) (2 * q) (2 * k - 1)) by lia. rewrite <- (Z.div_unique_pos (2 * (3 * q + 1) - 1) 3 (2 * q) 1) by lia. reflexivity.
  - rewrite <- (Z.div_unique_pos (2 * (k * (3 * q + 2)) - 1) (3 * k) (2 * q + 1) (k - 1)) by lia. rewrite <- (Z.div_unique_pos (2 * (3 * q + 2) - 1) 3 (2 * q + 1) 0) by lia. reflexivity.
Qed.
Lemma middle_column j w : 0 < j -> j * w / 2 / j = w / 2.
Proof. intros Hj. rewrite Z.div_div, (Z.mul_comm 2 j) by lia. apply Z.div_mul_cancel_l; lia. Qed.
Lemma exact_third k h : h mod 3 = 0 -> k * h / 3 = k * (h / 3).
Proof. intros M. pose proof (Z.div_mod h 3 ltac:(lia)) as E. rewrite M in E. symmetry. apply (Z.div_unique_pos _ _ _ 0); lia. Qed.

(** Positions of the lines, from left to right. *)
Lemma lex_le w x y u v : 0 <= x < w -> 0 <= u < w -> y * w + x <= v * w + u -> y < v \/ (y = v /\ x <= u).
Proof. intros Hx Hu L. destruct (Z.lt_trichotomy y v) as [C|[C|C]]; [now left|right; subst; lia|]. assert ((v + 1) * w <= y * w) by (apply Z.mul_le_mono_nonneg_r; lia). lia. Qed.
Lemma lex_lt w x y u v : 0 <= x < w -> 0 <= u < w -> y * w + x < v * w + u -> y < v \/ (y = v /\ x < u).
Proof. intros Hx Hu L. destruct (Z.lt_trichotomy y v) as [C|[C|C]]; [now left|right; subst; lia|]. assert ((v + 1) * w <= y * w) by (apply Z.mul_le_mono_nonneg_r; lia). lia. Qed.
Lemma le_lex w x y u v : 0 <= x < w -> 0 <= u < w -> (y < v \/ (y = v /\ x <= u)) -> y * w + x <= v * w + u.
Proof. intros Hx Hu [C|(-> & C)]; [|lia]. assert ((y + 1) * w <= v * w) by (apply Z.mul_le_mono_nonneg_r; lia). lia. Qed.
Lemma lt_lex w x y u v : 0 <= x < w -> 0 <= u < w -> (y < v \/ (y = v /\ x < u)) -> y * w + x < v * w + u.
Proof. intros Hx Hu [C|(-> & C)]; [|lia]. assert ((y + 1) * w <= v * w) by (apply Z.mul_le_mono_nonneg_r; lia). lia. Qed.
Lemma scale_small m x w : 0 < m -> 0 <= x < w -> 0 <= m * x < m * w.
Proof. intros. nia. Qed.
Lemma scale_lt m x q y : 0 < m -> x < q -> m * q <= y -> m * x < y.
Proof. intros Hm C L. pose proof (proj1 (Z.mul_lt_mono_pos_l m x q Hm) C). lia. Qed.

Section Scaled.
Context (j k : Z) (a b : image) (Hj : 0 < j) (Hk : 0 < k) (Ha : 1 <= iw a) (Hb : 1 <= ih a) (HS : scaled j k a b).
Notation W := (iw a). Notation D := (ih a).
Lemma scaled_alternations_spec : exists r1 r2 t u m l r, alternations_spec a = [r1; r2; t; u; m; l; r] /\ exists r1' t' u' l' r', alternations_spec b = [r1'; r2; t'; u'; m; l'; r'] /\
  (D mod 3 <> 1 -> r1' = r1) /\ (D mod 3 = 0 -> t' = t /\ u' = u) /\ (W mod 3 = 0 -> l' = l /\ r' = r).
Proof.
  unfold alternations_spec. do 7 eexists. split; [reflexivity|]. rewrite (sw j k a b HS), (sh j k a b HS).
  pose proof (scaled_ink j k a b HS) as I. pose proof (Z.div_pos D 3 ltac:(lia) ltac:(lia)) as D3. pose proof (Z.div_pos W 3 ltac:(lia) ltac:(lia)) as W3.
  assert (D3' : D / 3 <= D) by (apply Z.div_le_upper_bound; lia). assert (W3' : W / 3 <= W) by (apply Z.div_le_upper_bound; lia).
  do 5 eexists. split; [|split; [|split]].
  - f_equal. f_equal.
    + apply line_scaled; [lia|lia|]. intros i _. now rewrite I, two_thirds_row.
    + f_equal. f_equal. f_equal. apply line_scaled; [lia|lia|]. intros i _. now rewrite I, middle_column.
  - intros M. assert (N : D <> 1) by (intros E; rewrite E in M; now apply M). assert (2 <= k * D) by nia. rewrite !(proj2 (Z.ltb_ge _ 2)) by lia.
    apply line_scaled; [lia|lia|]. intros i _. rewrite I, third_row by lia. reflexivity.
  - intros M. rewrite exact_third by exact M. split; (apply line_scaled; [lia|lia|]); intros i _.
    + rewrite <- (column_scaled j k a b Hj Hk HS 0 (D / 3) i) by lia. now rewrite Z.mul_0_r.
    + rewrite <- (column_scaled j k a b Hj Hk HS (D - D / 3) D i) by lia. now rewrite Z.mul_sub_distr_l.
  - intros M. rewrite exact_third by exact M. split; (apply line_scaled; [lia|lia|]); intros i _.
    + rewrite <- (row_scaled j k a b Hj Hk HS 0 (W / 3) i) by lia. now rewrite Z.mul_0_r.
    + rewrite <- (row_scaled j k a b Hj Hk HS (W - W / 3) W i) by lia. now rewrite Z.mul_sub_distr_l.
Qed.

(** * Zones *)
Notation P x y := (x / j, y / k).
Lemma small_step m x x' : 0 < m -> Z.abs (x - x') = 1 -> x / m = x' / m \/ Z.abs (x / m - x' / m) = 1.
Proof.
  intros Hm E. assert (Q : forall u, (u + 1) / m = u / m \/ (u + 1) / m = u / m + 1).
  { intros u. pose proof (Z.div_mod u m ltac:(lia)) as E1. pose proof (Z.mod_pos_bound u m Hm) as B1. destruct (Z.eq_dec (u mod m + 1) m) as [L|L].
    - right. symmetry. apply (Z.div_unique_pos _ _ _ 0); lia.
    - left. symmetry. apply (Z.div_unique_pos _ _ _ (u mod m + 1)); lia. }
  destruct (Z.leb_spec x x').
  - replace x' with (x + 1) by lia. destruct (Q x); lia.
  - replace x with (x' + 1) by lia. destruct (Q x'); lia.
Qed.
Lemma linked_down p q : linked b p q -> linked a (P (fst p) (snd p)) (P (fst q) (snd q)).
Proof.
  induction 1 as [x y Pp|p q x y L IH T Pp]; cbn [fst snd] in *.
  - apply linked_here. now rewrite <- (scaled_paper j k a b HS).
  - rewrite (scaled_paper j k a b HS) in Pp. destruct q as (x0 & y0). unfold touching in T. cbn [fst snd] in *.
    assert (C : (x0 = x /\ Z.abs (y0 - y) = 1) \/ (y0 = y /\ Z.abs (x0 - x) = 1)) by lia. destruct C as [(-> & C)|(-> & C)].
    + destruct (small_step k y0 y Hk C) as [E|E]; [rewrite <- E; exact IH|]. eapply linked_next; [exact IH| |exact Pp]. unfold touching. cbn [fst snd]. lia.
    + destruct (small_step j x0 x Hj C) as [E|E]; [rewrite <- E; exact IH|]. eapply linked_next; [exact IH| |exact Pp]. unfold touching. cbn [fst snd]. lia.
Qed.
Lemma linked_across x y n : 0 <= n -> (forall i, 0 <= i <= n -> paper b (x + i) y = true) -> linked b (x, y) (x + n, y).
Proof.
  intros Hn. pattern n. apply natlike_ind; [| |exact Hn].
  - intros Pp. specialize (Pp 0 ltac:(lia)). rewrite Z.add_0_r in *. now apply linked_here.
  - intros m Hm IH Pp. eapply linked_next; [apply IH; intros i Hi; apply Pp; lia| |apply Pp; lia]. unfold touching. cbn [fst snd]. lia.
Qed.
Lemma linked_along x y n : 0 <= n -> (forall i, 0 <= i <= n -> paper b x (y + i) = true) -> linked b (x, y) (x, y + n).
Proof.
  intros Hn. pattern n. apply natlike_ind; [| |exact Hn].
  - intros Pp. specialize (Pp 0 ltac:(lia)). rewrite Z.add_0_r in *. now apply linked_here.
  - intros m Hm IH Pp. eapply linked_next; [apply IH; intros i Hi; apply Pp; lia| |apply Pp; lia]. unfold touching. cbn [fst snd]. lia.
Qed.
Lemma in_block x y c r : paper a x y = true -> 0 <= c < j -> 0 <= r < k -> linked b (j * x, k * y) (j * x + c, k * y + r).
Proof.
  intros Pp Hc Hr. assert (Q : forall c r, 0 <= c < j -> 0 <= r < k -> paper b (j * x + c) (k * y + r) = true) by (intros c' r' ? ?; now rewrite (scaled_paper j k a b HS), !div_block).
  apply (linked_trans' b _ (j * x + c, k * y)).
  - apply linked_across; [lia|]. intros i Hi. replace (k * y) with (k * y + 0) by lia. apply Q; lia.
  - apply linked_along; [lia|]. intros i Hi. apply Q; lia.
Qed.
Lemma linked_up p q : linked a p q -> linked b (j * fst p, k * snd p) (j * fst q, k * snd q).
Proof.
  induction 1 as [x y Pp|p (x0 & y0) x y L IH T Pp]; cbn [fst snd] in *.
  - rewrite <- (Z.add_0_r (j * x)) at 2. rewrite <- (Z.add_0_r (k * y)) at 2. apply in_block; [exact Pp|lia|lia].
  - assert (P0 : paper a x0 y0 = true) by (inversion L; subst; assumption). apply (linked_trans' b _ _ _ IH). unfold touching in T. cbn [fst snd] in T.
    assert (C : (x = x0 /\ y = y0 + 1) \/ (x = x0 /\ y0 = y + 1) \/ (y = y0 /\ x = x0 + 1) \/ (y = y0 /\ x0 = x + 1)) by lia.
    assert (C0 : paper b (j * x) (k * y) = true) by (rewrite (scaled_paper j k a b HS), (Z.mul_comm j), (Z.mul_comm k), !Z.div_mul by lia; exact Pp).
    destruct C as [(-> & ->)|[(-> & ->)|[(-> & ->)|(-> & ->)]]].
    + eapply linked_next; [exact (in_block x0 y0 0 (k - 1) P0 ltac:(lia) ltac:(lia))| |exact C0]. unfold touching. cbn [fst snd]. lia.
    + apply linked_sym'. eapply linked_next; [exact (in_block x0 y 0 (k - 1) Pp ltac:(lia) ltac:(lia))| |].
      * unfold touching. cbn [fst snd]. lia.
      * rewrite (scaled_paper j k a b HS), (Z.mul_comm j), (Z.mul_comm k), !Z.div_mul by lia. exact P0.
    + eapply linked_next; [exact (in_block x0 y0 (j - 1) 0 P0 ltac:(lia) ltac:(lia))| |exact C0]. unfold touching. cbn [fst snd]. lia.
    + apply linked_sym'. eapply linked_next; [exact (in_block x y0 (j - 1) 0 Pp ltac:(lia) ltac:(lia))| |].
      * unfold touching. cbn [fst snd]. lia.
      * rewrite (scaled_paper j k a b HS), (Z.mul_comm j), (Z.mul_comm k), !Z.div_mul by lia. exact P0.
Qed.
Lemma split_block m x : 0 < m -> exists c, 0 <= c < m /\ x = m * (x / m) + c.
Proof. intros Hm. exists (x mod m). split; [now apply Z.mod_pos_bound|apply Z.div_mod; lia]. Qed.
Lemma linked_blocks x y x' y' : paper b x y = true -> paper b x' y' = true -> linked a (P x y) (P x' y') -> linked b (x, y) (x', y').
Proof.
  intros P1 P2 L. rewrite (scaled_paper j k a b HS) in P1, P2. apply linked_up in L. cbn [fst snd] in L.
  destruct (split_block j x Hj) as (c & Hc & Ec). destruct (split_block k y Hk) as (r & Hr & Er). destruct (split_block j x' Hj) as (c' & Hc' & Ec'). destruct (split_block k y' Hk) as (r' & Hr' & Er').
  pose proof (in_block _ _ c r P1 Hc Hr) as L1. pose proof (in_block _ _ c' r' P2 Hc' Hr') as L2. rewrite <- Ec, <- Er in L1. rewrite <- Ec', <- Er' in L2.
  exact (linked_trans' b _ _ _ (linked_sym' b _ _ L1) (linked_trans' b _ _ _ L L2)).
Qed.

Lemma scaled_numbering n lab : zone_numbering a n lab -> zone_numbering b n (fun x y => lab (x / j) (y / k)).
Proof.
  intros (N1 & N2 & N3 & first & F & O). pose proof (scaled_paper j k a b HS) as SP. split; [|split; [|split]].
  - intros x y Pp. rewrite SP in Pp. now apply N1.
  - intros x y Pp. rewrite SP in Pp. now apply N2.
  - intros x y x' y' P1 P2. pose proof P1 as Q1. pose proof P2 as Q2. rewrite SP in Q1, Q2. rewrite (N3 _ _ _ _ Q1 Q2). split; [now apply linked_blocks|].
    intros L. exact (linked_down _ _ L).
  - assert (Em : forall m q, 0 < m -> m * q / m = q) by (intros m q Hm; now rewrite Z.mul_comm, Z.div_mul by lia).
    exists (fun v => (j * fst (first v), k * snd (first v))). cbn [fst snd]. split.
    + intros v Hv. destruct (F v Hv) as (F1 & F2 & F3). rewrite SP, !Em by lia. split; [exact F1|]. split; [exact F2|]. intros x y Pp Lv. rewrite SP in Pp. specialize (F3 _ _ Pp Lv).
      apply TurnProofs.paper_inside in F1 as (X1 & Y1). apply TurnProofs.paper_inside in Pp as (X2 & Y2).
      unfold rank in *. cbn [fst snd] in *. rewrite (sw j k a b HS). pose proof (proj1 (mul_bound j W x Hj) X2) as X3. pose proof (Z.mul_div_le x j Hj) as Mx. pose proof (Z.mul_div_le y k Hk) as My.
      apply lex_le in F3; [|lia|lia]. generalize dependent (x / j). generalize dependent (y / k). destruct (first v) as (x0 & y0). cbn [fst snd] in *. clear - Hj Hk X1 X3. intros yk Y2 My xj C X2 _ Mx.
      apply le_lex; [apply scale_small; lia|exact X3|]. destruct C as [C|(C & C')]; [left; exact (scale_lt k y0 yk y Hk C My)|].
      pose proof (proj1 (Z.mul_le_mono_pos_l x0 xj j Hj) C'). subst yk. lia.
    + intros v v' H1 H2 H3. specialize (O v v' H1 H2 H3). destruct (F v ltac:(lia)) as (F1 & _). destruct (F v' ltac:(lia)) as (F1' & _).
      apply TurnProofs.paper_inside in F1 as (X1 & Y1). apply TurnProofs.paper_inside in F1' as (X2 & Y2). destruct (first v) as (x & y), (first v') as (x' & y'). cbn [fst snd] in *.
      unfold rank in *. cbn [fst snd] in *. rewrite (sw j k a b HS). clear - Hj Hk O X1 X2. apply lex_lt in O; [|lia|lia].
      apply lt_lex; [apply scale_small; lia|apply scale_small; lia|]. destruct O as [C|(-> & C)]; [left; now apply Z.mul_lt_mono_pos_l|right; split; [reflexivity|now apply Z.mul_lt_mono_pos_l]].
Qed.
End Scaled.
