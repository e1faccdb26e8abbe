(** The features of an image that is enlarged. *)
From Verif Require Import Base BaseProofs ImageModel ImageSpec ImageProofs StratModel StratSpec StratProofs StratFeatures StratFeatures2 StratFeatures3
  SortModel SortProofs ZoneModel ZoneSpec ZoneProofs2 ZoneProofs3 TurnSpec TurnProofs ScaleSpec.
From Coq Require Import Permutation Sorted.

(** * Blocks *)
Lemma div_block k q r : 0 <= r < k -> (k * q + r) / k = q.
Proof. intros H. symmetry. apply (Z.div_unique_pos _ _ _ r); lia. Qed.
Lemma mul_bound k n i : 0 < k -> 0 <= i / k < n <-> 0 <= i < k * n.
Proof.
  intros Hk. pose proof (Z.div_mod i k). pose proof (Z.mod_pos_bound i k). split; intros (A & B).
  - split; [nia|]. assert (k * (i / k + 1) <= k * n) by (apply Z.mul_le_mono_nonneg_l; lia). lia.
  - split; [apply Z.div_pos; lia|]. apply Z.div_lt_upper_bound; lia.
Qed.
Lemma zsum_blocks f k n : 0 < k -> 0 <= n -> zsum f (k * n) = zsum (fun q => zsum (fun r => f (k * q + r)) k) n.
Proof.
  intros Hk. revert n. refine (zsum_ind _ _ _).
  - intros n H1 H2. replace n with 0 by lia. now rewrite Z.mul_0_r, !zsum_0 by lia.
  - intros n Hn IH _. rewrite zsum_S by lia. rewrite <- IH by lia. replace (k * (n + 1)) with (k * n + k) by lia. apply zsum_split; nia.
Qed.
Lemma zsum_scaled f k n : 0 < k -> 0 <= n -> zsum (fun i => f (i / k)) (k * n) = k * zsum f n.
Proof.
  intros Hk Hn. rewrite zsum_blocks, <- zsum_mul by assumption. apply zsum_ext. intros q Hq.
  rewrite (zsum_ext _ (fun _ => f q)) by (intros r Hr; now rewrite div_block). rewrite zsum_const by lia. lia.
Qed.
Lemma zsum_only f k r : 0 <= r < k -> (forall i, 0 <= i < k -> i <> r -> f i = 0) -> zsum f k = f r.
Proof.
  intros Hr Z0. replace k with (r + (1 + (k - r - 1))) by lia. rewrite !zsum_split by lia. rewrite zsum_1.
  rewrite (zsum_zero f r) by (intros i Hi; apply Z0; lia). rewrite (zsum_zero _ (k - r - 1)) by (intros i Hi; apply Z0; lia). rewrite !Z.add_0_r. reflexivity.
Qed.

Lemma ink_combined img f g h p q r : (forall x y, 0 <= x < iw img -> 0 <= y < ih img -> p * f x y = q * g x y + r * h x y) -> p * ink_sum img f = q * ink_sum img g + r * ink_sum img h.
Proof.
  intros E. unfold ink_sum. rewrite <- !zsum_mul, <- zsum_add. apply zsum_ext. intros y Hy. rewrite <- !zsum_mul, <- zsum_add. apply zsum_ext. intros x Hx. destruct (ink img x y); [now apply E|lia].
Qed.
Section Scaled.
Context (j k : Z) (a b : image) (Hj : 0 < j) (Hk : 0 < k) (Ha : 1 <= iw a) (Hb : 1 <= ih a) (HS : scaled j k a b).
Notation W := (iw a). Notation D := (ih a).
Lemma sw : iw b = j * W. Proof. apply HS. Qed.
Lemma sh : ih b = k * D. Proof. apply HS. Qed.
Lemma scaled_ink x y : ink b x y = ink a (x / j) (y / k).
Proof. unfold ink. destruct HS as (_ & _ & P). now rewrite P. Qed.
Lemma scaled_paper x y : paper b x y = paper a (x / j) (y / k).
Proof. unfold paper. destruct HS as (_ & _ & P). now rewrite P. Qed.

(** ** Sums *)
Lemma scaled_sum f : ink_sum b f = ink_sum a (fun x y => zsum (fun r => zsum (fun c => f (j * x + c) (k * y + r)) j) k).
Proof.
  unfold ink_sum. rewrite sw, sh. rewrite zsum_blocks by lia. apply zsum_ext. intros y Hy.
  rewrite (zsum_ext _ (fun r => zsum (fun x => zsum (fun c => if ink a x y then f (j * x + c) (k * y + r) else 0) j) W)).
  - rewrite TurnProofs.zsum_swap. apply zsum_ext. intros x Hx. destruct (ink a x y); [reflexivity|]. apply zsum_zero. intros r Hr. now apply zsum_zero.
  - intros r Hr. rewrite zsum_blocks by lia. apply zsum_ext. intros x Hx. apply zsum_ext. intros c Hc. rewrite scaled_ink, !div_block by lia. reflexivity.
Qed.
Lemma scaled_weight f g : (forall x y c r, 0 <= x < W -> 0 <= y < D -> 0 <= c < j -> 0 <= r < k -> f (j * x + c) (k * y + r) = g x y) -> ink_sum b f = j * k * ink_sum a g.
Proof.
  intros E. rewrite scaled_sum. unfold ink_sum. rewrite <- zsum_mul. apply zsum_ext. intros y Hy. rewrite <- zsum_mul. apply zsum_ext. intros x Hx. destruct (ink a x y); [|lia].
  rewrite (zsum_ext _ (fun _ => j * g x y)); [rewrite zsum_const by lia; lia|]. intros r Hr. rewrite (zsum_ext _ (fun _ => g x y)) by (intros c Hc; now apply E). rewrite zsum_const by lia. lia.
Qed.
Lemma upper_block y r : Z.even D = true -> 0 <= r < k -> upper (k * D) (k * y + r) = upper D y.
Proof.
  intros Ev Hr. apply Z.even_spec in Ev as (m & Em). unfold upper. rewrite Em. replace (k * (2 * m)) with (k * m * 2) by lia. rewrite Z.mul_comm with (n := 2), !Z.div_mul by lia.
  destruct (Z.ltb_spec (k * y + r) (k * m)), (Z.ltb_spec y m); try reflexivity; exfalso.
  - assert (k * m <= k * y) by (apply Z.mul_le_mono_nonneg_l; lia). lia.
  - assert (k * (y + 1) <= k * m) by (apply Z.mul_le_mono_nonneg_l; lia). lia.
Qed.
Lemma lower_block y r : Z.even D = true -> 0 <= r < k -> lower (k * D) (k * y + r) = lower D y.
Proof.
  intros Ev Hr. pose proof (upper_block y r Ev Hr) as U. apply Z.even_spec in Ev as (m & Em). unfold lower, upper in *. rewrite Em in *. replace (k * (2 * m)) with (k * m * 2) in * by lia. rewrite Z.mul_comm with (n := 2) (m := m) in *.
  rewrite !Z.div_mul in * by lia. replace (k * m * 2 - k * m) with (k * m) by lia. replace (m * 2 - m) with m by lia. rewrite !Z.leb_antisym, U. reflexivity.
Qed.
Lemma scaled_half side : (forall y r, 0 <= y < D -> 0 <= r < k -> side (k * D) (k * y + r) = side D y) -> ink_sum b (half side b) = j * k * ink_sum a (half side a).
Proof. intros E. apply scaled_weight. intros x y c r Hx Hy Hc Hr. unfold half. rewrite sh, E by assumption. reflexivity. Qed.

Lemma share_scaled c t u : 0 < c -> 0 <= t -> 0 <= u -> share (c * t) (c * u) = share t u.
Proof.
  intros Hc Ht Hu. unfold share. rewrite <- Z.mul_add_distr_l. destruct (Z.eqb_spec (t + u) 0) as [E|E].
  - rewrite E, Z.mul_0_r. reflexivity.
  - destruct (Z.eqb_spec (c * (t + u)) 0) as [E'|_]; [apply Z.mul_eq_0 in E'; lia|]. replace (200 * (c * t)) with (c * (200 * t)) by lia. rewrite Z.div_mul_cancel_l by lia. reflexivity.
Qed.
Lemma area_scaled : iw b * ih b = j * k * (W * D).
Proof. rewrite sw, sh. lia. Qed.
Lemma area_le : W * D <= iw b * ih b.
Proof. rewrite area_scaled. assert (1 <= j * k) by nia. assert (0 <= W * D) by nia. nia. Qed.

Lemma scaled_density : measurable a (W * D) -> measurable b (iw b * ih b) -> density b = density a.
Proof.
  intros Ma Mb. destruct (density_ok a Ma) as (v & -> & _ & ->). destruct (density_ok b Mb) as (u & -> & _ & ->). rewrite (scaled_weight (fun _ _ => 1) (fun _ _ => 1)) by reflexivity. rewrite area_scaled.
  f_equal. replace (100 * (j * k * ink_sum a (fun _ _ => 1))) with (j * k * (100 * ink_sum a (fun _ _ => 1))) by lia. apply Z.div_mul_cancel_l; nia.
Qed.
Lemma scaled_hdirection : Z.even D = true -> measurable a (W * D) -> measurable b (iw b * ih b) -> hdirection b = hdirection a.
Proof.
  intros Ev (A1 & A2 & A3 & A4) (B1 & B2 & B3 & B4). rewrite (proj1 (hdirection_ok a A1 A2 A3 A4)), (proj1 (hdirection_ok b B1 B2 B3 B4)).
  rewrite (scaled_half upper), (scaled_half lower) by (intros; (now apply upper_block) || (now apply lower_block)). f_equal. apply share_scaled; [nia|apply half_nonneg; lia|apply half_nonneg; lia].
Qed.
Lemma scaled_cells f g : (forall x y c r, 0 <= x < W -> 0 <= y < D -> 0 <= c < j -> 0 <= r < k -> f (j * x + c) (k * y + r) = g x y) -> cell_sum b f = j * k * cell_sum a g.
Proof.
  intros E. unfold cell_sum. rewrite sw, sh, zsum_blocks by lia. rewrite <- zsum_mul. apply zsum_ext. intros y Hy.
  rewrite (zsum_ext _ (fun _ => j * zsum (fun x => g x y) W)); [rewrite zsum_const by lia; lia|]. intros r Hr. rewrite zsum_blocks by lia. rewrite <- zsum_mul. apply zsum_ext. intros x Hx.
  rewrite (zsum_ext _ (fun _ => g x y)) by (intros c Hc; now apply E). rewrite zsum_const by lia. lia.
Qed.
Lemma scaled_hdirection2 : Z.even D = true -> measurable a (W * D) -> measurable b (iw b * ih b) -> hdirection2 b = hdirection2 a.
Proof.
  intros Ev (A1 & A2 & A3 & A4) (B1 & B2 & B3 & B4). destruct (hdirection2_ok a A1 A2 A3 A4) as (v & -> & _ & ->). destruct (hdirection2_ok b B1 B2 B3 B4) as (u & -> & _ & ->).
  rewrite (scaled_half upper), (scaled_half lower) by (intros; (now apply upper_block) || (now apply lower_block)).
  rewrite (scaled_cells (half upper b) (half upper a)) by (intros; unfold half; rewrite sh, upper_block by assumption; reflexivity). rewrite sh.
  assert (H2 : 2 <= D) by (apply Z.even_spec in Ev as (m & Em); lia). assert (K2 : 2 <= k * D) by nia. rewrite !(proj2 (Z.ltb_ge _ 2)) by assumption. f_equal.
  set (A := cell_sum a (half upper a)). set (t := ink_sum a (half upper a)). set (u := ink_sum a (half lower a)).
  replace ((j * k * A + j * k * t - j * k * u) * 100) with (j * k * ((A + t - u) * 100)) by lia. replace (2 * (j * k * A)) with (j * k * (2 * A)) by lia.
  assert (PA : 0 < A).
  { unfold A. apply cell_sum_pos; [lia|lia| |]; unfold half; [intros x y Hx Hy; destruct (upper D y); lia|rewrite upper_0 by lia; lia]. }
  apply Z.div_mul_cancel_l; nia.
Qed.

(** ** The ranks of the rows *)
Lemma zsum_descending m n : 0 <= n -> 2 * zsum (fun r => m - r) n = 2 * n * m - n * (n - 1).
Proof. revert n. refine (zsum_ind _ _ _); [intros n H1 H2; replace n with 0 by lia; reflexivity|]. intros n Hn IH _. rewrite zsum_S by lia. specialize (IH Hn). lia. Qed.
Lemma zsum_ascending m n : 0 <= n -> 2 * zsum (fun r => m + r) n = 2 * n * m + n * (n - 1).
Proof. revert n. refine (zsum_ind _ _ _); [intros n H1 H2; replace n with 0 by lia; reflexivity|]. intros n Hn IH _. rewrite zsum_S by lia. specialize (IH Hn). lia. Qed.
Lemma rank_upper h y : 2 * y < h -> center_rank h y = h / 2 - y.
Proof. intros B. unfold center_rank, border_rank. rewrite Z.min_l by lia. lia. Qed.
Lemma rank_lower m y : m <= y -> center_rank (m * 2) y = y + 1 - m.
Proof. intros B. unfold center_rank, border_rank. rewrite Z.min_r by lia. rewrite Z.div_mul by lia. lia. Qed.
Lemma scaled_gravity side : (side = upper \/ side = lower) -> Z.even D = true ->
  2 * ink_sum b (half_gravity side b) = j * k * (2 * k * ink_sum a (half_gravity side a) - (k - 1) * ink_sum a (half side a)).
Proof.
  intros Sd Ev. rewrite scaled_sum. replace (j * k * (2 * k * ink_sum a (half_gravity side a) - (k - 1) * ink_sum a (half side a)))
    with (j * k * (2 * k) * ink_sum a (half_gravity side a) + - (j * k * (k - 1)) * ink_sum a (half side a)) by ring.
  apply ink_combined. intros x y Hx Hy.
  rewrite (zsum_ext _ (fun r => j * half_gravity side b 0 (k * y + r))) by (intros r Hr; unfold half_gravity; rewrite zsum_const by lia; lia).
  rewrite zsum_mul. unfold half_gravity, half. rewrite sh.
  assert (SB : forall r, 0 <= r < k -> side (k * D) (k * y + r) = side D y) by (intros r Hr; destruct Sd as [-> | ->]; [now apply upper_block|now apply lower_block]).
  rewrite (zsum_ext _ (fun r => if side D y then center_rank (k * D) (k * y + r) else 0)) by (intros r Hr; now rewrite SB).
  destruct (side D y) eqn:Sy; [|rewrite zsum_zero by reflexivity; lia].
  apply Z.even_spec in Ev as (m & Em). rewrite Em in *. replace (k * (2 * m)) with (k * m * 2) in * by lia. replace (2 * m) with (m * 2) in * by lia.
  destruct Sd as [-> | ->]; unfold upper, lower in Sy; rewrite Z.div_mul in Sy by lia.
  - apply Z.ltb_lt in Sy. assert (B : forall r, 0 <= r < k -> k * y + r < k * m) by (intros r Hr; assert (k * (y + 1) <= k * m) by (apply Z.mul_le_mono_nonneg_l; lia); lia).
    rewrite (zsum_ext _ (fun r => k * (m - y) - r)) by (intros r Hr; specialize (B r Hr); rewrite rank_upper by lia; rewrite Z.div_mul by lia; lia). rewrite rank_upper by lia. rewrite Z.div_mul by lia.
    pose proof (zsum_descending (k * (m - y)) k ltac:(lia)) as E. replace (2 * (j * zsum (fun r => k * (m - y) - r) k)) with (j * (2 * zsum (fun r => k * (m - y) - r) k)) by lia. rewrite E. ring.
  - apply Z.leb_le in Sy. assert (B : k * m <= k * y) by (apply Z.mul_le_mono_nonneg_l; lia).
    rewrite (zsum_ext _ (fun r => k * (y - m) + 1 + r)) by (intros r Hr; rewrite rank_lower by lia; lia). rewrite rank_lower by lia.
    pose proof (zsum_ascending (k * (y - m) + 1) k ltac:(lia)) as E. replace (2 * (j * zsum (fun r => k * (y - m) + 1 + r) k)) with (j * (2 * zsum (fun r => k * (y - m) + 1 + r) k)) by lia. rewrite E. ring.
Qed.

(** ** Bars *)
Lemma full_scaled y : full_row b y = full_row a (y / k).
Proof.
  unfold full_row. rewrite sw. apply Bool.eq_true_iff_eq. rewrite !forallb_forall. split; intros F x Hx; apply zrange_In in Hx.
  - specialize (F (j * x)). rewrite scaled_ink in F. replace (j * x / j) with x in F by (rewrite Z.mul_comm, Z.div_mul; lia). apply F. apply zrange_In. nia.
  - rewrite scaled_ink. apply F. apply zrange_In. apply mul_bound; lia.
Qed.
Lemma scaled_bars : bar_count b = bar_count a.
Proof.
  unfold bar_count. rewrite sh, zsum_blocks by lia. apply zsum_ext. intros y Hy. rewrite (zsum_only _ k 0); [|lia|].
  - rewrite !full_scaled, div_block by lia. replace (k * y + 0 - 1) with (k * (y - 1) + (k - 1)) by lia. rewrite div_block by lia. reflexivity.
  - intros r Hr N. rewrite !full_scaled, div_block by lia. replace (k * y + r - 1) with (k * y + (r - 1)) by lia. rewrite div_block by lia. destruct (full_row a y); reflexivity.
Qed.

(** ** Lines *)
Lemma line_scaled f g n m : 0 < m -> 1 <= n -> (forall i, 0 <= i -> g i = f (i / m)) -> line_alternation g (m * n) = line_alternation f n.
Proof.
  intros Hm Hn E. unfold line_alternation. rewrite E by lia. rewrite Z.div_0_l by lia. f_equal. unfold run_count. f_equal.
  change (zsum (change g) (m * n - 1) = zsum (change f) (n - 1)).
  assert (T : zsum (change g) (m * n) = zsum (change f) n).
  { rewrite zsum_blocks by lia. apply zsum_ext. intros q Hq. assert (0 <= m * q) by (apply Z.mul_nonneg_nonneg; lia). rewrite (zsum_only _ m (m - 1)); [|lia|].
    - unfold change. rewrite !E by lia. replace (m * q + (m - 1) + 1) with (m * (q + 1) + 0) by lia. rewrite !div_block by lia. reflexivity.
    - intros r Hr N. unfold change. rewrite !E by lia. rewrite <- Z.add_assoc, !div_block by lia. now rewrite Bool.eqb_reflx. }
  assert (1 <= m * n) by nia. pose proof (zsum_S (change g) (m * n - 1) ltac:(lia)) as Tg. pose proof (zsum_S (change f) (n - 1) ltac:(lia)) as Tf. rewrite Z.sub_add in Tg, Tf.
  assert (L : change g (m * n - 1) = change f (n - 1)).
  { unfold change. rewrite !E by lia. replace (m * n - 1 + 1) with (m * n + 0) by lia. replace (m * n - 1) with (m * (n - 1) + (m - 1)) by lia. rewrite !div_block by lia. rewrite Z.sub_add. reflexivity. }
  lia.
Qed.
Lemma column_scaled y0 y1 x : 0 <= y0 <= y1 -> column_ink b (k * y0) (k * y1) x = column_ink a y0 y1 (x / j).
Proof.
  intros Hy. unfold column_ink. apply Bool.eq_true_iff_eq. rewrite !existsb_exists. rewrite <- Z.mul_sub_distr_l. split; intros (i & Hi & I); apply zrange_In in Hi.
  - rewrite scaled_ink in I. exists (i / k). split; [apply zrange_In; apply mul_bound; lia|]. rewrite Z.mul_comm, Z.div_add_l in I by lia. exact I.
  - exists (k * i). split; [apply zrange_In; nia|]. rewrite scaled_ink. replace ((k * y0 + k * i) / k) with (y0 + i); [exact I|]. rewrite <- Z.mul_add_distr_l, Z.mul_comm, Z.div_mul; lia.
Qed.
Lemma row_scaled x0 x1 y : 0 <= x0 <= x1 -> row_ink b (j * x0) (j * x1) y = row_ink a x0 x1 (y / k).
Proof.
  intros Hy. unfold row_ink. apply Bool.eq_true_iff_eq. rewrite !existsb_exists. rewrite <- Z.mul_sub_distr_l. split; intros (i & Hi & I); apply zrange_In in Hi.
  - rewrite scaled_ink in I. exists (i / j). split; [apply zrange_In; apply mul_bound; lia|]. rewrite Z.mul_comm, Z.div_add_l in I by lia. exact I.
  - exists (j * i). split; [apply zrange_In; nia|]. rewrite scaled_ink. replace ((j * x0 + j * i) / j) with (x0 + i); [exact I|]. rewrite <- Z.mul_add_distr_l, Z.mul_comm, Z.div_mul; lia.
Qed.
End Scaled.
