(** Closed formulas of the scanning features. *)
From Verif Require Import Base BaseProofs ImageModel ImageSpec ImageProofs StratModel StratSpec StratProofs.

Lemma zsum_rev f n : 0 <= n -> zsum (fun i => f (n - 1 - i)) n = zsum f n.
Proof.
  revert n. refine (zsum_ind _ _ _).
  - intros n Hn _. now rewrite !zsum_0.
  - intros n Hn IH _. rewrite (zsum_S f n Hn). rewrite <- IH by exact Hn.
    replace (n + 1) with (1 + n) by lia. rewrite zsum_split by lia. rewrite zsum_1.
    rewrite (zsum_ext (fun i => f (1 + n - 1 - (1 + i))) (fun i => f (n - 1 - i)))
      by (intros; f_equal; lia).
    replace (1 + n - 1 - 0) with n by lia. lia.
Qed.

Lemma zsum_triangle n : 0 <= n -> 2 * zsum (fun i => i + 1) n = n * (n + 1).
Proof.
  revert n. refine (zsum_ind _ _ _).
  - intros n Hn H0. replace n with 0 by lia. reflexivity.
  - intros n Hn IH _. rewrite zsum_S by exact Hn. specialize (IH Hn). nia.
Qed.

Section Features.
Variable img : image.
Hypothesis Hwf : wf_image img.
Hypothesis Hw1 : 1 <= iw img.
Hypothesis Hh1 : 1 <= ih img.
Let W := iw img.
Let H := ih img.
Let k := H / 2.

Lemma sz : 1 <= W < 4294967296 /\ 1 <= H < 4294967296 /\ W * H < 4294967296 /\
  0 <= k /\ 2 * k <= H /\ (H < 2 <-> k = 0).
Proof.
  assert (A := Hwf). destruct A as (Hw & Hh & Ha & Hl). fold W in Hw, Ha. fold H in Hh, Ha.
  pose proof (k_facts img Hh1) as (K0 & _). pose proof (k_le img Hh1) as (_ & K2).
  fold H in K0, K2. fold k in K0, K2.
  assert (1 <= W) by exact Hw1. assert (1 <= H) by exact Hh1.
  repeat split; try lia.
Qed.

(** cells *)
Lemma window_cells m : 0 <= m -> 2 * m <= W ->
  zsum (fun x => if (m <=? x) && (x <? W - m) then 1 else 0) W = W - 2 * m.
Proof.
  intros H0 H1. rewrite (zsum_window (fun _ => 1)) by lia. rewrite zsum_const; lia.
Qed.

Lemma cells_half : cell_sum img (half upper img) = k * W.
Proof.
  pose proof sz as (HW & HH & _ & K0 & K2 & _).
  rewrite (cell_sum_rows img _ (fun _ => 1) (fun _ _ => true) 0 k); try (fold H; lia).
  - rewrite (zsum_ext _ (fun _ => W)).
    + rewrite zsum_const; lia.
    + intros i Hi. rewrite zsum_const; fold W; lia.
  - intros x y Hx Hy. unfold half. fold H. rewrite (upper_window img) by exact Hy.
    fold H. fold k. rewrite andb_true_r. reflexivity.
Qed.

Lemma cells_half_gravity : 2 * cell_sum img (half_gravity upper img) = k * (k + 1) * W.
Proof.
  pose proof sz as (HW & HH & _ & K0 & K2 & _).
  rewrite (cell_sum_rows img _ (fun y => center_rank H y) (fun _ _ => true) 0 k); try (fold H; lia).
  - rewrite Z.sub_0_r.
    rewrite (zsum_ext _ (fun i => W * (k - i))).
    + rewrite zsum_mul. rewrite <- (zsum_rev (fun i => k - i)) by lia.
      rewrite (zsum_ext _ (fun i => i + 1)) by (intros; lia).
      pose proof (zsum_triangle k K0). nia.
    + intros i Hi. pose proof (center_top img Hh1 i Hi) as Ec. fold H k in Ec. rewrite Ec.
      rewrite zsum_const; fold W; lia.
  - intros x y Hx Hy. unfold half_gravity. fold H. rewrite (upper_window img) by exact Hy.
    fold H. fold k. rewrite andb_true_r. reflexivity.
Qed.

Definition rmargin (is_top : bool) (i : Z) := row_margin img is_top i.

Lemma cells_wedge :
  cell_sum img (wedge upper img) = zsum (fun i => W - 2 * rmargin true i) k.
Proof.
  pose proof sz as (HW & HH & _ & K0 & K2 & _).
  rewrite (cell_sum_rows img _ (fun _ => 1) (fun x y => in_wedge W H x y) 0 k); try (fold H; lia).
  - rewrite Z.sub_0_r. apply zsum_ext. intros i Hi. rewrite Z.mul_1_l.
    unfold in_wedge. pose proof (margin_top img Hh1 i Hi) as Em. fold W H in Em. rewrite Em.
    destruct (row_margin_ok img Hwf Hh1 true i Hi) as (_ & M0 & M1).
    fold W. rewrite window_cells; auto.
  - intros x y Hx Hy. unfold wedge. fold H W. rewrite (upper_window img) by exact Hy.
    reflexivity.
Qed.

Lemma cells_wedge_gravity :
  cell_sum img (wedge_gravity upper img) = zsum (fun i => (W - 2 * rmargin false i) * (i + 1)) k.
Proof.
  pose proof sz as (HW & HH & _ & K0 & K2 & _).
  rewrite (cell_sum_rows img _ (fun y => center_rank H y) (fun x y => in_wedge W H x y) 0 k); try (fold H; lia).
  - rewrite Z.sub_0_r. rewrite <- (zsum_rev (fun i => (W - 2 * rmargin false i) * (i + 1))) by exact K0.
    apply zsum_ext. intros i Hi.
    pose proof (center_top img Hh1 i Hi) as Ec. fold H k in Ec. rewrite Ec.
    unfold in_wedge. pose proof (margin_top img Hh1 i Hi) as Em. fold W H in Em. rewrite Em.
    destruct (row_margin_ok img Hwf Hh1 true i Hi) as (_ & M0 & M1).
    fold W. rewrite window_cells by auto.
    unfold rmargin, row_margin. fold W H k. replace (k - (k - 1 - i)) with (1 + i) by lia. lia.
  - intros x y Hx Hy. unfold wedge_gravity. fold H W. rewrite (upper_window img) by exact Hy.
    reflexivity.
Qed.

Lemma dv_direction_area_ok :
  diagonal_vertical_direction_area img = Ok (2 * cell_sum img (wedge upper img)).
Proof.
  pose proof sz as (HW & HH & Ha & K0 & K2 & _).
  unfold diagonal_vertical_direction_area. cbv zeta. fold H k W.
  pose proof (top_end img Hwf Hw1 Hh1) as Et. fold H k W in Et. rewrite Et.
  assert (E : loop (row_fuel W k)
     (fun '(p, i, area) =>
       if p =? k * W then Ok (inr area)
       else
         x <- dv_margin W (u32 (1 + i)) ;;
         Ok (inl (p + W, u32 (i + 1), u32 (area + (W - x * 2))))) (0, 0, 0)
     = Ok (zsum (fun i => W - 2 * rmargin true i) k) /\
     0 <= zsum (fun i => W - 2 * rmargin true i) k <= k * W).
  { edestruct (@loop_total (Z * Z * Z) Z) with
    (I := fun '((p, i, g) : Z * Z * Z) => 0 <= i <= k /\ p = i * W /\
       g = zsum (fun i => W - 2 * rmargin true i) i /\ 0 <= g <= i * W)
    (m := fun '((p, i, g) : Z * Z * Z) => Z.to_nat (k - i))
    (Q := fun g => g = zsum (fun i => W - 2 * rmargin true i) k /\ 0 <= g <= k * W)
    as (g & E & HQ & HQ2).
    4: { rewrite <- HQ. split; [exact E|exact HQ2]. }
    2: { split; [lia|]. split; [lia|]. rewrite zsum_0; lia. }
    2: { cbv beta iota. apply row_fuel_enough; lia. }
    intros ((p & i) & g) (Hi & -> & -> & Hg).
    destruct (Z.eqb_spec (i * W) (k * W)) as [Eq|Ne].
    - assert (i = k) by nia. now subst i.
    - assert (Hik : i < k) by (assert (i <> k) by (intro; subst; lia); lia).
      destruct (row_margin_ok img Hwf Hh1 true i ltac:(fold H k; lia)) as (Em & Hm0 & Hm1).
      fold W in Em, Hm1. rewrite Em. cbn [bind]. fold (rmargin true i) in *.
      assert (Hb : zsum (fun i => W - 2 * rmargin true i) i + (W - rmargin true i * 2) <= (i + 1) * W) by lia.
      assert ((i + 1) * W <= k * W) by (apply Z.mul_le_mono_nonneg_r; lia).
      assert (k * W <= W * H) by nia.
      rewrite u32_small by lia. rewrite u32_small by lia. split; [|lia].
      split; [lia|]. split; [lia|]. rewrite zsum_S by lia. lia. }
  destruct E as (E & Hb). rewrite E. cbn [bind]. rewrite u32_small by nia.
  rewrite cells_wedge. f_equal. lia.
Qed.

Lemma dv_gravity_area_ok : W * H * H < 4294967296 ->
  diagonal_vertical_gravity_area img = Ok (2 * cell_sum img (wedge_gravity upper img)).
Proof.
  intros Hgb.
  pose proof sz as (HW & HH & Ha & K0 & K2 & _).
  assert (Hkk : 2 * (k * (k * W)) <= W * H * H).
  { assert (2 * (k * k) <= H * H) by (clearbody k; clear Hgb Ha; nia).
    replace (2 * (k * (k * W))) with (2 * (k * k) * W) by lia.
    replace (W * H * H) with (H * H * W) by lia. apply Z.mul_le_mono_nonneg_r; lia. }
  unfold diagonal_vertical_gravity_area. cbv zeta. fold H k W.
  pose proof (top_end img Hwf Hw1 Hh1) as Et. fold H k W in Et. rewrite Et.
  set (term := fun i => (W - 2 * rmargin false i) * (i + 1)).
  assert (E : loop (S (Z.to_nat k))
     (fun '(p, i, area) =>
       if p =? k * W then Ok (inr area)
       else
         x <- dv_margin W (u32 (k - i)) ;;
         Ok (inl (p + W, u32 (i + 1), u32 (area + (W - x * 2) * (i + 1))))) (0, 0, 0)
     = Ok (zsum term k) /\
     0 <= zsum term k <= k * (k * W)).
  { edestruct (@loop_total (Z * Z * Z) Z) with
    (I := fun '((p, i, g) : Z * Z * Z) => 0 <= i <= k /\ p = i * W /\
       g = zsum term i /\ 0 <= g <= i * (k * W))
    (m := fun '((p, i, g) : Z * Z * Z) => Z.to_nat (k - i))
    (Q := fun g => g = zsum term k /\ 0 <= g <= k * (k * W))
    as (g & E & HQ & HQ2).
    4: { rewrite <- HQ. split; [exact E|exact HQ2]. }
    2: { split; [lia|]. split; [lia|]. rewrite zsum_0; lia. }
    2: { cbv beta iota. lia. }
    intros ((p & i) & g) (Hi & -> & -> & Hg).
    destruct (Z.eqb_spec (i * W) (k * W)) as [Eq|Ne].
    - assert (i = k) by nia. now subst i.
    - assert (Hik : i < k) by (assert (i <> k) by (intro; subst; lia); lia).
      destruct (row_margin_ok img Hwf Hh1 false i ltac:(fold H k; lia)) as (Em & Hm0 & Hm1).
      fold W H k in Em, Hm1. rewrite Em. cbn [bind]. fold (rmargin false i) in *.
      assert (Hb := step_bound (zsum term i) i (i + 1) (W - rmargin false i * 2) k W Hg ltac:(lia) ltac:(lia)).
      assert ((i + 1) * (k * W) <= k * (k * W)) by (apply Z.mul_le_mono_nonneg_r; nia).
      rewrite u32_small by lia. rewrite u32_small by lia. split; [|lia].
      split; [lia|]. split; [lia|]. rewrite zsum_S by lia.
      assert (Et' : term i = (W - rmargin false i * 2) * (i + 1)) by (unfold term; lia).
      lia. }
  destruct E as (E & Hb). rewrite E. cbn [bind]. rewrite u32_small by lia.
  rewrite cells_wedge_gravity. f_equal. unfold term. lia.
Qed.

(** balances *)
Lemma balance_share t b : 0 <= t -> 0 <= b -> t + b < 4294967296 -> 200 * t < 4294967296 ->
  balance (mktb t b) = share t b.
Proof.
  intros Ht Hb H1 H2. unfold balance, share; cbn [tb_top tb_bottom]; cbv zeta.
  rewrite (u32_small (t + b)) by lia.
  destruct (Z.eqb_spec (t + b) 0); [reflexivity|].
  replace (t + b + t - b) with (2 * t) by lia.
  rewrite (u32_small (2 * t)) by lia. rewrite u32_small by lia. f_equal. lia.
Qed.

Lemma share_range t b : 0 <= t -> 0 <= b -> 0 <= share t b <= 200.
Proof.
  intros. unfold share. destruct (Z.eqb_spec (t + b) 0); [lia|]. split.
  - apply Z.div_pos; lia.
  - apply Z.div_le_upper_bound; lia.
Qed.

Lemma balance2_ok t b a : 0 <= t -> 0 <= b -> t + b < 4294967296 -> 200 * t < 4294967296 -> 0 < a ->
  balance2 (mktb t b) (2 * a) = Ok (100 * t / a).
Proof.
  intros Ht Hb H1 H2 Ha. unfold balance2; cbn [tb_top tb_bottom]; cbv zeta.
  rewrite (u32_small (t + b)) by lia.
  replace (t + b + t - b) with (2 * t) by lia.
  rewrite (u32_small (2 * t)) by lia. rewrite u32_small by lia.
  rewrite divu_ok by lia. f_equal.
  replace (2 * t * 100) with (2 * (100 * t)) by lia.
  apply Z.div_mul_cancel_l; lia.
Qed.

Lemma centred_range A t b : 0 < A -> 0 <= t <= A -> 0 <= b <= A ->
  0 <= (A + t - b) * 100 / (2 * A) <= 100.
Proof.
  intros HA Ht Hb. split.
  - apply Z.div_pos; lia.
  - apply Z.div_le_upper_bound; lia.
Qed.

Lemma pct_range t A : 0 < A -> 0 <= t <= A -> 0 <= 100 * t / A <= 100.
Proof. intros. split; [apply Z.div_pos; lia|apply Z.div_le_upper_bound; lia]. Qed.

(** The lower half has as many cells as the upper half. *)
Lemma half_symmetry (wt : (Z -> Z -> bool) -> image -> Z -> Z -> Z) :
  (forall x y, 0 <= y < H -> wt lower img x (H - 1 - y) = wt upper img x y) ->
  cell_sum img (wt lower img) = cell_sum img (wt upper img).
Proof.
  intros E. pose proof sz as (_ & HH & _). unfold cell_sum. fold H.
  rewrite <- (zsum_rev (fun y => zsum (fun x => wt lower img x y) (iw img))) by lia.
  apply zsum_ext; intros y Hy. apply zsum_ext; intros x Hx. auto.
Qed.

Lemma lower_rev y : 0 <= y < H -> lower H (H - 1 - y) = upper H y.
Proof. intros Hy. unfold lower, upper. lia. Qed.
Lemma border_rev y : border_rank H (H - 1 - y) = border_rank H y.
Proof. unfold border_rank. lia. Qed.

Lemma cells_half_lower : cell_sum img (half lower img) = cell_sum img (half upper img).
Proof. apply half_symmetry. intros x y Hy. unfold half. fold H. now rewrite lower_rev. Qed.
Lemma cells_half_gravity_lower :
  cell_sum img (half_gravity lower img) = cell_sum img (half_gravity upper img).
Proof.
  apply half_symmetry. intros x y Hy. unfold half_gravity, center_rank. fold H.
  now rewrite lower_rev, border_rev.
Qed.
Lemma cells_wedge_lower : cell_sum img (wedge lower img) = cell_sum img (wedge upper img).
Proof.
  apply half_symmetry. intros x y Hy. unfold wedge, in_wedge, wedge_margin. fold H.
  now rewrite lower_rev, border_rev.
Qed.
Lemma cells_wedge_gravity_lower :
  cell_sum img (wedge_gravity lower img) = cell_sum img (wedge_gravity upper img).
Proof.
  apply half_symmetry. intros x y Hy. unfold wedge_gravity, in_wedge, wedge_margin, center_rank. fold H.
  now rewrite lower_rev, border_rev.
Qed.

Lemma half_nonneg side x y : 0 <= half side img x y.
Proof. unfold half. destruct side; lia. Qed.
Lemma wedge_nonneg side x y : 0 <= wedge side img x y.
Proof. unfold wedge. destruct (_ && _); lia. Qed.
Lemma center_nonneg side y : (side = upper \/ side = lower) -> 0 <= y < H -> side H y = true ->
  0 <= center_rank H y.
Proof.
  intros [->| ->] Hy; unfold upper, lower, center_rank, border_rank; fold k; intros Hs; lia.
Qed.
Lemma half_gravity_nonneg side x y : (side = upper \/ side = lower) -> 0 <= y < H ->
  0 <= half_gravity side img x y.
Proof.
  intros Hs Hy. unfold half_gravity. fold H. destruct (side H y) eqn:E; [|lia].
  apply (center_nonneg side); auto.
Qed.
Lemma wedge_gravity_nonneg side x y : (side = upper \/ side = lower) -> 0 <= y < H ->
  0 <= wedge_gravity side img x y.
Proof.
  intros Hs Hy. unfold wedge_gravity. fold H. destruct (side H y) eqn:E; simpl; [|lia].
  destruct in_wedge; [|lia]. apply (center_nonneg side); auto.
Qed.

Lemma cell_sum_mono f g :
  (forall x y, 0 <= x < W -> 0 <= y < H -> f x y <= g x y) -> cell_sum img f <= cell_sum img g.
Proof.
  intros E. unfold cell_sum. apply zsum_le; intros y Hy. apply zsum_le; intros x Hx. auto.
Qed.

Lemma wedge_le_half side : cell_sum img (wedge side img) <= cell_sum img (half side img).
Proof.
  apply cell_sum_mono. intros x y Hx Hy. unfold wedge, half.
  destruct (side (ih img) y); cbn [andb]; [destruct in_wedge|]; lia.
Qed.
Lemma wedge_gravity_le_half side : side = upper \/ side = lower ->
  cell_sum img (wedge_gravity side img) <= cell_sum img (half_gravity side img).
Proof.
  intros Hs. apply cell_sum_mono. intros x y Hx Hy.
  pose proof (half_gravity_nonneg side x y Hs Hy) as Hn. unfold wedge_gravity, half_gravity in Hn |- *.
  destruct (side (ih img) y); cbn [andb]; [destruct in_wedge|]; lia.
Qed.

(** A wedge is not empty: its first row is complete. *)
Lemma wedge_positive : 2 <= H -> 0 < cell_sum img (wedge upper img).
Proof.
  intros HH2. pose proof sz as (HW & HH & Ha & K0 & K2 & K3).
  rewrite cells_wedge.
  assert (E : rmargin true 0 = 0).
  { unfold rmargin, row_margin. fold W. replace (1 + 0) with 1 by lia. rewrite Z.div_1_r. lia. }
  assert (W - 2 * rmargin true 0 <= zsum (fun i => W - 2 * rmargin true i) k).
  { apply (zsum_single (fun i => W - 2 * rmargin true i)); [lia|].
    intros i Hi. destruct (row_margin_ok img Hwf Hh1 true i Hi) as (_ & _ & HM).
    unfold rmargin. fold W in HM. lia. }
  lia.
Qed.

Lemma wedge_gravity_positive : 2 <= H -> 0 < cell_sum img (wedge_gravity upper img).
Proof.
  intros HH2. pose proof sz as (HW & HH & Ha & K0 & K2 & K3).
  rewrite cells_wedge_gravity.
  assert (E : rmargin false (k - 1) = 0).
  { unfold rmargin, row_margin. fold W H k. replace (k - (k - 1)) with 1 by lia. rewrite Z.div_1_r. lia. }
  assert ((W - 2 * rmargin false (k - 1)) * (k - 1 + 1) <= zsum (fun i => (W - 2 * rmargin false i) * (i + 1)) k).
  { apply (zsum_single (fun i => (W - 2 * rmargin false i) * (i + 1))); [lia|].
    intros i Hi. destruct (row_margin_ok img Hwf Hh1 false i Hi) as (_ & _ & HM).
    unfold rmargin. fold W in HM. nia. }
  nia.
Qed.

(** Bounds of the ink sums. *)
Lemma ink_half_range : let A := cell_sum img (half upper img) in
  0 <= ink_sum img (half upper img) <= A /\ 0 <= ink_sum img (half lower img) <= A.
Proof.
  cbv zeta. rewrite <- cells_half_lower at 2.
  split; apply ink_le_cell; intros; apply half_nonneg.
Qed.
Lemma ink_half_gravity_range : let A := cell_sum img (half_gravity upper img) in
  0 <= ink_sum img (half_gravity upper img) <= A /\ 0 <= ink_sum img (half_gravity lower img) <= A.
Proof.
  cbv zeta. rewrite <- cells_half_gravity_lower at 2.
  split; apply ink_le_cell; intros; apply half_gravity_nonneg; auto.
Qed.
Lemma ink_wedge_range : let A := cell_sum img (wedge upper img) in
  0 <= ink_sum img (wedge upper img) <= A /\ 0 <= ink_sum img (wedge lower img) <= A.
Proof.
  cbv zeta. rewrite <- cells_wedge_lower at 2.
  split; apply ink_le_cell; intros; apply wedge_nonneg.
Qed.
Lemma ink_wedge_gravity_range : let A := cell_sum img (wedge_gravity upper img) in
  0 <= ink_sum img (wedge_gravity upper img) <= A /\ 0 <= ink_sum img (wedge_gravity lower img) <= A.
Proof.
  cbv zeta. rewrite <- cells_wedge_gravity_lower at 2.
  split; apply ink_le_cell; intros; apply wedge_gravity_nonneg; auto.
Qed.

Lemma half_bound : 2 * cell_sum img (half upper img) <= W * H.
Proof. pose proof sz as (HW & HH & Ha & K0 & K2 & K3). rewrite cells_half. nia. Qed.
Lemma half_gravity_bound : 2 * cell_sum img (half_gravity upper img) <= W * H * H.
Proof.
  pose proof sz as (HW & HH & Ha & K0 & K2 & K3). rewrite cells_half_gravity.
  assert (k * (k + 1) <= H * H) by (clearbody k; clear Ha; nia).
  replace (W * H * H) with (H * H * W) by lia. apply Z.mul_le_mono_nonneg_r; lia.
Qed.

Lemma hdirection_ok : 100 * (W * H) < 4294967296 ->
  let t := ink_sum img (half upper img) in let b := ink_sum img (half lower img) in
  hdirection img = Ok (share t b) /\ 0 <= share t b <= 200.
Proof.
  intros Hb. cbv zeta. destruct ink_half_range as (R1 & R2). pose proof half_bound.
  unfold hdirection, tb_feature, no_pre, balance_post. cbn [bind]. rewrite horizontal_direction_ok by auto. cbn [bind].
  rewrite balance_share by lia. split; [reflexivity|apply share_range; lia].
Qed.

Lemma hdirection2_ok : 100 * (W * H) < 4294967296 ->
  let t := ink_sum img (half upper img) in let b := ink_sum img (half lower img) in
  let A := cell_sum img (half upper img) in
  exists v, hdirection2 img = Ok v /\ 0 <= v <= 100 /\
    v = if H <? 2 then 50 else (A + t - b) * 100 / (2 * A).
Proof.
  intros Hb. cbv zeta. destruct ink_half_range as (R1 & R2). pose proof half_bound.
  pose proof sz as (HW & HH & Ha & K0 & K2 & K3).
  unfold hdirection2, tb_feature, hdirection2_pre, share_post.
  fold H. fold k. cbv zeta. cbn [tb_top tb_bottom].
  destruct (Z.eqb_spec k 0) as [E|E].
  - replace (H <? 2) with true by lia. exists 50. repeat split; lia.
  - replace (H <? 2) with false by lia. cbn [bind].
    rewrite horizontal_direction_ok by auto. cbn [bind tb_top tb_bottom].
    rewrite cells_half in *.
    rewrite (u32_small (k * iw img)) by (fold W; lia). fold W.
    assert (0 < k * W) by nia.
    rewrite (u32_small (_ + _ - _)) by lia. rewrite u32_small by lia.
    rewrite (u32_small (k * W * 2)) by lia. rewrite divu_ok by lia.
    eexists; split; [reflexivity|].
    replace (k * W * 2) with (2 * (k * W)) by lia. split; [|reflexivity].
    apply centred_range; lia.
Qed.

Lemma hgravity_ok : 100 * (W * H * H) < 4294967296 ->
  let t := ink_sum img (half_gravity upper img) in let b := ink_sum img (half_gravity lower img) in
  hgravity img = Ok (share t b) /\ 0 <= share t b <= 200.
Proof.
  intros Hb. cbv zeta. destruct ink_half_gravity_range as (R1 & R2). pose proof half_gravity_bound.
  unfold hgravity, tb_feature, no_pre, balance_post. cbn [bind]. rewrite horizontal_gravity_ok by (auto; fold W H; lia). cbn [bind].
  rewrite balance_share by lia. split; [reflexivity|apply share_range; lia].
Qed.

Lemma hgravity2_ok : 100 * (W * H * H) < 4294967296 ->
  let t := ink_sum img (half_gravity upper img) in let b := ink_sum img (half_gravity lower img) in
  let A := cell_sum img (half_gravity upper img) in
  exists v, hgravity2 img = Ok v /\ 0 <= v <= 100 /\
    v = if H <? 2 then 50 else (A + t - b) * 100 / (2 * A).
Proof.
  intros Hb. cbv zeta. destruct ink_half_gravity_range as (R1 & R2). pose proof half_gravity_bound as HB.
  pose proof sz as (HW & HH & Ha & K0 & K2 & K3).
  unfold hgravity2, tb_feature, hgravity2_pre, share_post.
  fold H. fold k. cbv zeta. cbn [tb_top tb_bottom].
  destruct (Z.eqb_spec k 0) as [E|E].
  - replace (H <? 2) with true by lia. exists 50. repeat split; lia.
  - replace (H <? 2) with false by lia. cbn [bind].
    rewrite horizontal_gravity_ok by (auto; fold W H; lia). cbn [bind tb_top tb_bottom].
    pose proof cells_half_gravity as Ec.
    assert (Hk1 : 0 < k * (k + 1)) by nia.
    assert (Hkb : k * (k + 1) < 4294967296) by nia.
    rewrite (u32_small (k * (k + 1))) by lia.
    assert (E2 : k * (k + 1) / 2 * W = cell_sum img (half_gravity upper img)).
    { destruct (Z.Even_or_Odd k) as [(j & ->)|(j & ->)].
      - replace (2 * j * (2 * j + 1)) with (j * (2 * j + 1) * 2) in * by lia.
        rewrite Z.div_mul by lia. lia.
      - replace ((2 * j + 1) * (2 * j + 1 + 1)) with ((2 * j + 1) * (j + 1) * 2) in * by lia.
        rewrite Z.div_mul by lia. lia. }
    fold W. rewrite E2. set (A := cell_sum img (half_gravity upper img)) in *.
    assert (0 < A) by nia.
    rewrite (u32_small A) by lia.
    rewrite (u32_small (_ + _ - _)) by lia. rewrite u32_small by lia.
    rewrite (u32_small (A * 2)) by lia. rewrite divu_ok by lia.
    eexists; split; [reflexivity|].
    replace (A * 2) with (2 * A) by lia. split; [|reflexivity].
    apply centred_range; lia.
Qed.

Lemma dvdirection_ok : 100 * (W * H) < 4294967296 ->
  let t := ink_sum img (wedge upper img) in let b := ink_sum img (wedge lower img) in
  dvdirection img = Ok (share t b) /\ 0 <= share t b <= 200.
Proof.
  intros Hb. cbv zeta. destruct ink_wedge_range as (R1 & R2). pose proof half_bound.
  pose proof (wedge_le_half upper).
  unfold dvdirection, tb_feature, no_pre, balance_post. cbn [bind]. rewrite diagonal_vertical_direction_ok by auto. cbn [bind].
  rewrite balance_share by lia. split; [reflexivity|apply share_range; lia].
Qed.

Lemma dvgravity_ok : 100 * (W * H * H) < 4294967296 ->
  let t := ink_sum img (wedge_gravity upper img) in let b := ink_sum img (wedge_gravity lower img) in
  dvgravity img = Ok (share t b) /\ 0 <= share t b <= 200.
Proof.
  intros Hb. cbv zeta. destruct ink_wedge_gravity_range as (R1 & R2). pose proof half_gravity_bound.
  pose proof (wedge_gravity_le_half upper (or_introl eq_refl)).
  unfold dvgravity, tb_feature, no_pre, balance_post. cbn [bind]. rewrite diagonal_vertical_gravity_ok by (auto; fold W H; lia). cbn [bind].
  rewrite balance_share by lia. split; [reflexivity|apply share_range; lia].
Qed.

Lemma wedge_zero_small wt : (forall x y, 0 <= x < W -> 0 <= y < H -> wt x y = 0) -> cell_sum img wt = 0.
Proof.
  intros E. unfold cell_sum. apply zsum_zero; intros y Hy. apply zsum_zero; intros x Hx. auto.
Qed.

Lemma dvdirection2_ok : 100 * (W * H) < 4294967296 ->
  let t := ink_sum img (wedge upper img) in
  let A := cell_sum img (wedge upper img) in
  exists v, dvdirection2 img = Ok v /\ 0 <= v <= 100 /\
    v = if H <? 2 then 50 else 100 * t / A.
Proof.
  intros Hb. cbv zeta. destruct ink_wedge_range as (R1 & R2). pose proof half_bound.
  pose proof (wedge_le_half upper). pose proof sz as (HW & HH & Ha & K0 & K2 & K3).
  unfold dvdirection2, tb_feature, dvdirection2_pre, balance2_post.
  rewrite dv_direction_area_ok. cbn [bind].
  destruct (Z.ltb_spec H 2) as [E|E].
  - rewrite (wedge_zero_small (wedge upper img)).
    + exists 50. repeat split; lia.
    + intros x y Hx Hy. unfold wedge, upper. fold H k. replace (y <? k) with false by lia. reflexivity.
  - pose proof (wedge_positive E).
    destruct (Z.eqb_spec (2 * cell_sum img (wedge upper img)) 0); [lia|].
    cbn [bind]. rewrite diagonal_vertical_direction_ok by auto. cbn [bind].
    rewrite balance2_ok by lia. eexists; split; [reflexivity|]. split; [|reflexivity].
    apply pct_range; lia.
Qed.

Lemma dvgravity2_ok : 100 * (W * H * H) < 4294967296 ->
  let t := ink_sum img (wedge_gravity upper img) in
  let A := cell_sum img (wedge_gravity upper img) in
  exists v, dvgravity2 img = Ok v /\ 0 <= v <= 100 /\
    v = if H <? 2 then 50 else 100 * t / A.
Proof.
  intros Hb. cbv zeta. destruct ink_wedge_gravity_range as (R1 & R2). pose proof half_gravity_bound.
  pose proof (wedge_gravity_le_half upper (or_introl eq_refl)). pose proof sz as (HW & HH & Ha & K0 & K2 & K3).
  unfold dvgravity2, tb_feature, dvgravity2_pre, balance2_post.
  rewrite dv_gravity_area_ok by lia. cbn [bind].
  destruct (Z.ltb_spec H 2) as [E|E].
  - rewrite (wedge_zero_small (wedge_gravity upper img)).
    + exists 50. repeat split; lia.
    + intros x y Hx Hy. unfold wedge_gravity, upper. fold H k. replace (y <? k) with false by lia. reflexivity.
  - pose proof (wedge_gravity_positive E).
    destruct (Z.eqb_spec (2 * cell_sum img (wedge_gravity upper img)) 0); [lia|].
    cbn [bind]. rewrite diagonal_vertical_gravity_ok by (auto; fold W H; lia). cbn [bind].
    rewrite balance2_ok by lia. eexists; split; [reflexivity|]. split; [|reflexivity].
    apply pct_range; lia.
Qed.

End Features.
