(** The features of an image that is turned. *)
From Verif Require Import Base BaseProofs ImageModel ImageSpec ImageProofs StratModel StratSpec StratProofs StratFeatures StratFeatures2 StratFeatures3
  SortModel ZoneModel ZoneSpec ZoneProofs2 ZoneProofs3 TurnSpec.
From Coq Require Import Permutation.

(** ** Half a turn *)
Definition half_turn (a b : image) : Prop :=
  iw b = iw a /\ ih b = ih a /\ forall x y, 0 <= x < iw a -> 0 <= y < ih a -> pix b x y = pix a (iw a - 1 - x) (ih a - 1 - y).

Lemma twice_half a b : wf_image a -> turned_twice a b -> wf_image b /\ half_turn a b.
Proof.
  intros W (q & Hq & Hb). destruct (rotate90_law a W) as (q' & Hq' & Wq & Qw & Qh & Qp). rewrite Hq in Hq'. injection Hq' as <-.
  destruct (rotate90_law q Wq) as (b' & Hb' & Wb & Bw & Bh & Bp). rewrite Hb in Hb'. injection Hb' as <-.
  split; [exact Wb|]. split; [lia|]. split; [lia|]. intros x y Hx Hy.
  rewrite Bp by lia. rewrite Qp by lia. f_equal; lia.
Qed.
Lemma twice_exists a : wf_image a -> exists b, turned_twice a b.
Proof.
  intros W. destruct (rotate90_law a W) as (q & Hq & Wq & _). destruct (rotate90_law q Wq) as (b & Hb & _).
  exists b, q. now split.
Qed.

Section Half.
Context (a b : image) (HT : half_turn a b).
Lemma half_ink x y : 0 <= x < iw a -> 0 <= y < ih a -> ink b x y = ink a (iw a - 1 - x) (ih a - 1 - y).
Proof. intros. unfold ink. destruct HT as (_ & _ & P). rewrite P by lia. reflexivity. Qed.

Lemma half_sum f g : 0 <= iw a -> 0 <= ih a ->
  (forall x y, 0 <= x < iw a -> 0 <= y < ih a -> f x y = g (iw a - 1 - x) (ih a - 1 - y)) ->
  ink_sum b f = ink_sum a g.
Proof.
  intros Hw Hh E. unfold ink_sum. destruct HT as (-> & -> & _).
  rewrite <- (zsum_rev (fun y => zsum (fun x => if ink a x y then g x y else 0) (iw a))) by lia.
  apply zsum_ext. intros y Hy.
  rewrite <- (zsum_rev (fun x => if ink a x (ih a - 1 - y) then g x (ih a - 1 - y) else 0)) by lia.
  apply zsum_ext. intros x Hx. rewrite half_ink by lia. rewrite E by lia. reflexivity.
Qed.
End Half.

Lemma cell_sum_pos img f : 1 <= iw img -> 1 <= ih img ->
  (forall x y, 0 <= x < iw img -> 0 <= y < ih img -> 0 <= f x y) -> 0 < f 0 0 -> 0 < cell_sum img f.
Proof.
  intros Hw Hh N P. unfold cell_sum.
  apply Z.lt_le_trans with (zsum (fun x => f x 0) (iw img)).
  - apply Z.lt_le_trans with (f 0 0); [exact P|]. apply (zsum_single (fun x => f x 0)); [lia|]. intros; apply N; lia.
  - apply (zsum_single (fun y => zsum (fun x => f x y) (iw img)) (ih img) 0); [lia|].
    intros; apply zsum_nonneg; intros; apply N; lia.
Qed.

Lemma share_opposite t b : 0 <= t -> 0 <= b -> 0 <= share t b <= 200 /\ 199 <= share t b + share b t <= 200.
Proof.
  intros Ht Hb. unfold share. rewrite (Z.add_comm b t). destruct (Z.eqb_spec (t + b) 0); [lia|].
  assert (P : 0 < t + b) by lia.
  pose proof (Z.div_mod (200 * t) (t + b) ltac:(lia)). pose proof (Z.mod_pos_bound (200 * t) (t + b) P).
  pose proof (Z.div_mod (200 * b) (t + b) ltac:(lia)). pose proof (Z.mod_pos_bound (200 * b) (t + b) P).
  set (u := 200 * t / (t + b)) in *. set (v := 200 * b / (t + b)) in *. clearbody u v. nia.
Qed.

Lemma rate_opposite A t b : 0 < A -> 99 <= (A + t - b) * 100 / (2 * A) + (A + b - t) * 100 / (2 * A) <= 100.
Proof.
  intros P.
  pose proof (Z.div_mod ((A + t - b) * 100) (2 * A) ltac:(lia)). pose proof (Z.mod_pos_bound ((A + t - b) * 100) (2 * A) ltac:(lia)).
  pose proof (Z.div_mod ((A + b - t) * 100) (2 * A) ltac:(lia)). pose proof (Z.mod_pos_bound ((A + b - t) * 100) (2 * A) ltac:(lia)).
  set (u := (A + t - b) * 100 / (2 * A)) in *. set (v := (A + b - t) * 100 / (2 * A)) in *. clearbody u v. nia.
Qed.

Lemma ink_sum_nonneg img f : (forall x y, 0 <= x < iw img -> 0 <= y < ih img -> 0 <= f x y) -> 0 <= ink_sum img f.
Proof. intros N. apply zsum_nonneg. intros y Hy. apply zsum_nonneg. intros x Hx. destruct (ink img x y); [now apply N|lia]. Qed.

Lemma upper_lower h y : 0 <= y < h -> upper h (h - 1 - y) = lower h y.
Proof. intros. unfold upper, lower. pose proof (Z.div_mod h 2). pose proof (Z.mod_pos_bound h 2). destruct (Z.ltb_spec (h - 1 - y) (h / 2)), (Z.leb_spec (h - h / 2) y); lia. Qed.
Lemma lower_upper h y : 0 <= y < h -> lower h (h - 1 - y) = upper h y.
Proof. intros. unfold upper, lower. pose proof (Z.div_mod h 2). pose proof (Z.mod_pos_bound h 2). destruct (Z.ltb_spec y (h / 2)), (Z.leb_spec (h - h / 2) (h - 1 - y)); lia. Qed.
Lemma rank_turn h y : border_rank h (h - 1 - y) = border_rank h y.
Proof. unfold border_rank. lia. Qed.
Lemma center_turn h y : center_rank h (h - 1 - y) = center_rank h y.
Proof. unfold center_rank. now rewrite rank_turn. Qed.
Lemma wedge_turn w h x y : in_wedge w h (w - 1 - x) (h - 1 - y) = in_wedge w h x y.
Proof. unfold in_wedge, wedge_margin. rewrite rank_turn. set (m := w / 2 - _). lia. Qed.
Lemma center_nonneg h y : 0 <= y < h -> 0 <= center_rank h y.
Proof. intros. unfold center_rank, border_rank. pose proof (Z.div_mod h 2). pose proof (Z.mod_pos_bound h 2). lia. Qed.
Lemma center_0 h : 2 <= h -> 0 < center_rank h 0.
Proof. intros. unfold center_rank, border_rank. pose proof (Z.div_mod h 2). pose proof (Z.mod_pos_bound h 2). lia. Qed.
Lemma upper_0 h : 2 <= h -> upper h 0 = true.
Proof. intros. unfold upper. pose proof (Z.div_mod h 2). pose proof (Z.mod_pos_bound h 2). apply Z.ltb_lt. lia. Qed.

Section Balances.
Context (a b : image) (HT : half_turn a b) (Wa : wf_image a) (Wb : wf_image b) (Hw : 1 <= iw a) (Hh : 1 <= ih a).
Notation W := (iw a). Notation H := (ih a).

Lemma eq_w : iw b = iw a. Proof. apply HT. Qed.
Lemma eq_h : ih b = ih a. Proof. apply HT. Qed.

Lemma half_up : ink_sum b (half upper b) = ink_sum a (half lower a).
Proof. apply half_sum; try lia; [exact HT|]. intros. unfold half. rewrite eq_h. now rewrite lower_upper by lia. Qed.
Lemma half_low : ink_sum b (half lower b) = ink_sum a (half upper a).
Proof. apply half_sum; try lia; [exact HT|]. intros. unfold half. rewrite eq_h. now rewrite upper_lower by lia. Qed.
Lemma gravity_up : ink_sum b (half_gravity upper b) = ink_sum a (half_gravity lower a).
Proof. apply half_sum; try lia; [exact HT|]. intros. unfold half_gravity. rewrite eq_h. now rewrite lower_upper, center_turn by lia. Qed.
Lemma gravity_low : ink_sum b (half_gravity lower b) = ink_sum a (half_gravity upper a).
Proof. apply half_sum; try lia; [exact HT|]. intros. unfold half_gravity. rewrite eq_h. now rewrite upper_lower, center_turn by lia. Qed.
Lemma wedge_up : ink_sum b (wedge upper b) = ink_sum a (wedge lower a).
Proof. apply half_sum; try lia; [exact HT|]. intros. unfold wedge. rewrite eq_h, eq_w. now rewrite lower_upper, wedge_turn by lia. Qed.
Lemma wedge_low : ink_sum b (wedge lower b) = ink_sum a (wedge upper a).
Proof. apply half_sum; try lia; [exact HT|]. intros. unfold wedge. rewrite eq_h, eq_w. now rewrite upper_lower, wedge_turn by lia. Qed.
Lemma wgravity_up : ink_sum b (wedge_gravity upper b) = ink_sum a (wedge_gravity lower a).
Proof. apply half_sum; try lia; [exact HT|]. intros. unfold wedge_gravity. rewrite eq_h, eq_w. now rewrite lower_upper, wedge_turn, center_turn by lia. Qed.
Lemma wgravity_low : ink_sum b (wedge_gravity lower b) = ink_sum a (wedge_gravity upper a).
Proof. apply half_sum; try lia; [exact HT|]. intros. unfold wedge_gravity. rewrite eq_h, eq_w. now rewrite upper_lower, wedge_turn, center_turn by lia. Qed.

Lemma half_nonneg s : 0 <= ink_sum a (half s a).
Proof. apply ink_sum_nonneg. intros. unfold half. destruct (s _ _); lia. Qed.
Lemma gravity_nonneg s : 0 <= ink_sum a (half_gravity s a).
Proof. apply ink_sum_nonneg. intros. unfold half_gravity. destruct (s _ _); [apply center_nonneg; lia|lia]. Qed.
Lemma wedge_nonneg s : 0 <= ink_sum a (wedge s a).
Proof. apply ink_sum_nonneg. intros. unfold wedge. destruct (_ && _); lia. Qed.
Lemma wgravity_nonneg s : 0 <= ink_sum a (wedge_gravity s a).
Proof. apply ink_sum_nonneg. intros. unfold wedge_gravity. destruct (_ && _); [apply center_nonneg; lia|lia]. Qed.

Lemma turn_hdirection : 100 * (W * H) < 4294967296 -> opposite 200 (hdirection a) (hdirection b).
Proof.
  intros B. destruct (hdirection_ok a Wa Hw Hh B) as (Ea & _).
  destruct (hdirection_ok b Wb ltac:(rewrite eq_w; lia) ltac:(rewrite eq_h; lia) ltac:(rewrite eq_w, eq_h; exact B)) as (Eb & _).
  rewrite half_up, half_low in Eb.
  destruct (share_opposite _ _ (half_nonneg upper) (half_nonneg lower)) as (S1 & S2).
  eexists _, _. split; [exact Ea|]. split; [exact Eb|]. split; assumption.
Qed.
Lemma turn_hgravity : 100 * (W * H * H) < 4294967296 -> opposite 200 (hgravity a) (hgravity b).
Proof.
  intros B. destruct (hgravity_ok a Wa Hw Hh B) as (Ea & _).
  destruct (hgravity_ok b Wb ltac:(rewrite eq_w; lia) ltac:(rewrite eq_h; lia) ltac:(rewrite eq_w, eq_h; exact B)) as (Eb & _).
  rewrite gravity_up, gravity_low in Eb.
  destruct (share_opposite _ _ (gravity_nonneg upper) (gravity_nonneg lower)) as (S1 & S2).
  eexists _, _. split; [exact Ea|]. split; [exact Eb|]. split; assumption.
Qed.
Lemma turn_dvdirection : 100 * (W * H) < 4294967296 -> opposite 200 (dvdirection a) (dvdirection b).
Proof.
  intros B. destruct (dvdirection_ok a Wa Hw Hh B) as (Ea & _).
  destruct (dvdirection_ok b Wb ltac:(rewrite eq_w; lia) ltac:(rewrite eq_h; lia) ltac:(rewrite eq_w, eq_h; exact B)) as (Eb & _).
  rewrite wedge_up, wedge_low in Eb.
  destruct (share_opposite _ _ (wedge_nonneg upper) (wedge_nonneg lower)) as (S1 & S2).
  eexists _, _. split; [exact Ea|]. split; [exact Eb|]. split; assumption.
Qed.
Lemma turn_dvgravity : 100 * (W * H * H) < 4294967296 -> opposite 200 (dvgravity a) (dvgravity b).
Proof.
  intros B. destruct (dvgravity_ok a Wa Hw Hh B) as (Ea & _).
  destruct (dvgravity_ok b Wb ltac:(rewrite eq_w; lia) ltac:(rewrite eq_h; lia) ltac:(rewrite eq_w, eq_h; exact B)) as (Eb & _).
  rewrite wgravity_up, wgravity_low in Eb.
  destruct (share_opposite _ _ (wgravity_nonneg upper) (wgravity_nonneg lower)) as (S1 & S2).
  eexists _, _. split; [exact Ea|]. split; [exact Eb|]. split; assumption.
Qed.

Lemma half_area : cell_sum b (half upper b) = cell_sum a (half upper a).
Proof. unfold cell_sum, half. now rewrite eq_w, eq_h. Qed.
Lemma gravity_area : cell_sum b (half_gravity upper b) = cell_sum a (half_gravity upper a).
Proof. unfold cell_sum, half_gravity. now rewrite eq_w, eq_h. Qed.

Lemma turn_hdirection2 : 100 * (W * H) < 4294967296 -> opposite 100 (hdirection2 a) (hdirection2 b).
Proof.
  intros B. destruct (hdirection2_ok a Wa Hw Hh B) as (u & Eu & Ru & Vu).
  destruct (hdirection2_ok b Wb ltac:(rewrite eq_w; lia) ltac:(rewrite eq_h; lia) ltac:(rewrite eq_w, eq_h; exact B)) as (v & Ev & Rv & Vv).
  exists u, v. split; [exact Eu|]. split; [exact Ev|]. split; [exact Ru|].
  rewrite half_up, half_low, half_area, eq_h in Vv. destruct (Z.ltb_spec H 2) as [L|L]; [lia|].
  assert (A : 0 < cell_sum a (half upper a)).
  { apply cell_sum_pos; [lia|lia| |]; unfold half; [intros; destruct (upper _ _); lia|]. rewrite upper_0 by lia. lia. }
  rewrite Vu, Vv. apply rate_opposite. exact A.
Qed.
Lemma turn_hgravity2 : 100 * (W * H * H) < 4294967296 -> opposite 100 (hgravity2 a) (hgravity2 b).
Proof.
  intros B. destruct (hgravity2_ok a Wa Hw Hh B) as (u & Eu & Ru & Vu).
  destruct (hgravity2_ok b Wb ltac:(rewrite eq_w; lia) ltac:(rewrite eq_h; lia) ltac:(rewrite eq_w, eq_h; exact B)) as (v & Ev & Rv & Vv).
  exists u, v. split; [exact Eu|]. split; [exact Ev|]. split; [exact Ru|].
  rewrite gravity_up, gravity_low, gravity_area, eq_h in Vv. destruct (Z.ltb_spec H 2) as [L|L]; [lia|].
  assert (A : 0 < cell_sum a (half_gravity upper a)).
  { apply cell_sum_pos; [lia|lia| |]; unfold half_gravity; [intros; destruct (upper _ _); [apply center_nonneg; lia|lia]|].
    rewrite upper_0 by lia. apply center_0. lia. }
  rewrite Vu, Vv. apply rate_opposite. exact A.
Qed.

Lemma turn_density : 100 * (W * H) < 4294967296 -> density b = density a.
Proof.
  intros B. destruct (density_ok a (conj Wa (conj Hw (conj Hh B)))) as (u & Eu & _ & Vu).
  destruct (density_ok b) as (v & Ev & _ & Vv). { split; [exact Wb|]. rewrite eq_w, eq_h. auto. }
  rewrite Eu, Ev, Vu, Vv, eq_w, eq_h. rewrite (half_sum a b HT (fun _ _ => 1) (fun _ _ => 1)) by (auto; lia). reflexivity.
Qed.
Lemma turn_proportionality : proportionality b = proportionality a.
Proof. unfold proportionality. now rewrite eq_w, eq_h. Qed.

Lemma band_turn x y : 0 <= x < W -> 0 <= y < H -> band b x y = band a (W - 1 - x) (H - 1 - y).
Proof.
  intros Hx Hy. unfold band. rewrite eq_w, eq_h. replace (in_diag_band W H (W - 1 - x) (H - 1 - y)) with (in_diag_band W H x y); [reflexivity|].
  unfold in_diag_band. rewrite andb_comm. f_equal; apply Bool.eq_true_iff_eq; rewrite !Z.leb_le; split; intros; nia.
Qed.
Lemma turn_dzdensity : 100 * (W * H) < 2147483648 -> dzdensity b = dzdensity a.
Proof.
  intros B. destruct (dzdensity_ok a Wa B) as (u & Eu & _ & Vu).
  destruct (dzdensity_ok b Wb ltac:(rewrite eq_w, eq_h; exact B)) as (v & Ev & _ & Vv).
  rewrite Eu, Ev, Vu, Vv, eq_w, eq_h. destruct ((W <? 3) || (H <? 3)); [reflexivity|].
  rewrite (half_sum a b HT (band b) (band a)) by (try apply band_turn; lia).
  replace (cell_sum b (band b)) with (cell_sum a (band a)); [reflexivity|].
  unfold cell_sum, band. now rewrite eq_w, eq_h.
Qed.

(** *** Bars *)
Lemma full_turn y : 0 <= y < H -> full_row b y = full_row a (H - 1 - y).
Proof.
  intros Hy. unfold full_row. rewrite eq_w. apply Bool.eq_true_iff_eq. rewrite !forallb_forall. split; intros F x Hx; apply zrange_In in Hx.
  - specialize (F (W - 1 - x)). rewrite (half_ink a b HT) in F by lia.
    replace (W - 1 - (W - 1 - x)) with x in F by lia. apply F. apply zrange_In. lia.
  - rewrite (half_ink a b HT) by lia. apply F. apply zrange_In. lia.
Qed.
End Balances.

Lemma full_outside img y : 1 <= iw img -> ~ (0 <= y < ih img) -> full_row img y = false.
Proof.
  intros Hw Hy. unfold full_row. destruct (forallb _ _) eqn:E; [|reflexivity]. rewrite forallb_forall in E.
  specialize (E 0 (proj2 (zrange_In (iw img) 0) ltac:(lia))). apply ink_inside in E. lia.
Qed.
Lemma edges (g : Z -> bool) n : 0 <= n ->
  zsum (fun y => if g y && negb (g (y - 1)) then 1 else 0) n + (if g (-1) && g 0 then 1 else 0) =
  zsum (fun y => if g y && negb (g (y + 1)) then 1 else 0) n + (if g (n - 1) && g n then 1 else 0).
Proof.
  revert n. refine (zsum_ind _ _ _).
  - intros n Hn Hn'. replace n with 0 by lia. rewrite !zsum_0 by lia. cbn [Z.sub Z.add Z.opp]. reflexivity.
  - intros n Hn IH _. specialize (IH Hn). rewrite !zsum_S by lia. replace (n + 1 - 1) with n by lia.
    revert IH. generalize (zsum (fun y => if g y && negb (g (y - 1)) then 1 else 0) n)
      (zsum (fun y => if g y && negb (g (y + 1)) then 1 else 0) n) (if g (-1) && g 0 then 1 else 0).
    intros u v c. destruct (g n), (g (n - 1)), (g (n + 1)); cbn [andb negb]; lia.
Qed.

Lemma turn_hbar a b : half_turn a b -> wf_image a -> wf_image b -> 1 <= iw a -> hbar b = hbar a.
Proof.
  intros HT Wa Wb Hw. rewrite (hbar_ok a Wa Hw), (hbar_ok b Wb) by (destruct HT as (-> & _); lia). f_equal.
  assert (Hh : 0 <= ih a) by (destruct Wa; lia). assert (Eh : ih b = ih a) by apply HT. assert (Ew : iw b = iw a) by apply HT.
  unfold bar_count. rewrite Eh. pose proof (edges (full_row a) (ih a) Hh) as E.
  rewrite (full_outside a (ih a)), (full_outside a (-1)), andb_false_r in E by lia. cbn [andb] in E. rewrite !Z.add_0_r in E. rewrite E.
  rewrite <- (zsum_rev (fun y => if full_row a y && negb (full_row a (y + 1)) then 1 else 0)) by lia.
  apply zsum_ext. intros y Hy. rewrite (full_turn a b HT y) by lia.
  replace (ih a - 1 - y + 1) with (ih a - 1 - (y - 1)) by lia.
  destruct (Z.eq_dec y 0) as [-> |].
  - rewrite (full_outside b (0 - 1)), (full_outside a (ih a - 1 - (0 - 1))) by lia. reflexivity.
  - rewrite (full_turn a b HT (y - 1)) by lia. reflexivity.
Qed.

(** *** Alternations *)
Definition change (f : Z -> bool) (i : Z) : Z := if Bool.eqb (f i) (f (i + 1)) then 0 else 1.
Lemma colour_after f n : 0 <= n -> f n = xorb (f 0) (Z.odd (zsum (change f) n)).
Proof.
  revert n. refine (zsum_ind _ _ _).
  - intros n Hn Hn'. replace n with 0 by lia. rewrite zsum_0 by lia. cbn. now rewrite xorb_false_r.
  - intros n Hn IH _. rewrite zsum_S by lia. rewrite Z.odd_add, <- xorb_assoc, <- IH by lia. unfold change.
    destruct (f n), (f (n + 1)); reflexivity.
Qed.
Lemma line_from_end f g n : 1 <= n -> (forall i, 0 <= i < n -> g i = f (n - 1 - i)) ->
  line_alternation g n = from_end (line_alternation f n).
Proof.
  intros Hn E. assert (R : run_count g n = run_count f n).
  { unfold run_count. f_equal. rewrite <- (zsum_rev (fun i => if Bool.eqb (f i) (f (i + 1)) then 0 else 1)) by lia.
    apply zsum_ext. intros i Hi. rewrite !E by lia. replace (n - 1 - (i + 1)) with (n - 1 - 1 - i) by lia.
    replace (n - 1 - 1 - i + 1) with (n - 1 - i) by lia.
    destruct (f (n - 1 - i)), (f (n - 1 - 1 - i)); reflexivity. }
  unfold line_alternation, from_end. cbn [alt_start alt_count]. rewrite R. f_equal.
  rewrite E by lia. replace (n - 1 - 0) with (n - 1) by lia. rewrite (colour_after f (n - 1)) by lia.
  unfold run_count. rewrite Z.odd_add.
  change (zsum (fun i : Z => if Bool.eqb (f i) (f (i + 1)) then 0 else 1) (n - 1)) with (zsum (change f) (n - 1)).
  destruct (Z.odd (zsum (change f) (n - 1))), (f 0); reflexivity.
Qed.

Lemma existsb_turn (P Q : Z -> bool) n : (forall i, 0 <= i < n -> P i = Q (n - 1 - i)) -> existsb P (zrange n) = existsb Q (zrange n).
Proof.
  intros E. apply Bool.eq_true_iff_eq. rewrite !existsb_exists.
  split; intros (i & Hi & X); apply zrange_In in Hi.
  - exists (n - 1 - i). split; [apply zrange_In; lia|]. now rewrite <- E.
  - exists (n - 1 - i). split; [apply zrange_In; lia|]. rewrite E by lia. now replace (n - 1 - (n - 1 - i)) with i by lia.
Qed.

Section Alternations.
Context (a b : image) (HT : half_turn a b).
Notation W := (iw a). Notation H := (ih a).
Lemma column_turn y0 y1 x : 0 <= y0 -> y1 <= H -> 0 <= x < W -> column_ink b y0 y1 x = column_ink a (H - y1) (H - y0) (W - 1 - x).
Proof.
  intros H0 H1 Hx. unfold column_ink. replace (H - y0 - (H - y1)) with (y1 - y0) by lia. apply existsb_turn. intros i Hi.
  rewrite (half_ink a b HT) by lia. f_equal; lia.
Qed.
Lemma row_turn x0 x1 y : 0 <= x0 -> x1 <= W -> 0 <= y < H -> row_ink b x0 x1 y = row_ink a (W - x1) (W - x0) (H - 1 - y).
Proof.
  intros H0 H1 Hx. unfold row_ink. replace (W - x0 - (W - x1)) with (x1 - x0) by lia. apply existsb_turn. intros i Hi.
  rewrite (half_ink a b HT) by lia. f_equal; lia.
Qed.
End Alternations.

Lemma turn_alternations_spec a b : half_turn a b -> 1 <= iw a -> 1 <= ih a ->
  exists r1 r2 t u m l r, alternations_spec a = [r1; r2; t; u; m; l; r] /\
  exists r1' r2' m', alternations_spec b = [r1'; r2'; from_end u; from_end t; m'; from_end r; from_end l] /\
    (ih a mod 3 = 2 -> r1' = from_end r2 /\ r2' = from_end r1) /\
    (Z.odd (iw a) = true -> m' = from_end m).
Proof.
  intros HT Hw Hh. assert (Ew : iw b = iw a) by apply HT. assert (Eh : ih b = ih a) by apply HT.
  unfold alternations_spec. rewrite Ew, Eh. set (w := iw a) in *. set (h := ih a) in *.
  assert (D3 : 0 <= h / 3 <= h) by (pose proof (Z.div_mod h 3); pose proof (Z.mod_pos_bound h 3); lia).
  assert (D3' : 0 <= w / 3 <= w) by (pose proof (Z.div_mod w 3); pose proof (Z.mod_pos_bound w 3); lia).
  do 7 eexists. split; [reflexivity|].
  rewrite (line_from_end (fun x => column_ink a (h - h / 3) h x) (fun x => column_ink b 0 (h / 3) x)) by
    (try exact Hw; intros i Hi; rewrite (column_turn a b HT) by (fold w h; lia); fold w h; f_equal; lia).
  rewrite (line_from_end (fun x => column_ink a 0 (h / 3) x) (fun x => column_ink b (h - h / 3) h x)) by
    (try exact Hw; intros i Hi; rewrite (column_turn a b HT) by (fold w h; lia); fold w h; f_equal; lia).
  rewrite (line_from_end (fun y => row_ink a (w - w / 3) w y) (fun y => row_ink b 0 (w / 3) y)) by
    (try exact Hh; intros i Hi; rewrite (row_turn a b HT) by (fold w h; lia); fold w h; f_equal; lia).
  rewrite (line_from_end (fun y => row_ink a 0 (w / 3) y) (fun y => row_ink b (w - w / 3) w y)) by
    (try exact Hh; intros i Hi; rewrite (row_turn a b HT) by (fold w h; lia); fold w h; f_equal; lia).
  do 3 eexists. split; [reflexivity|]. split.
  - intros M. pose proof (Z.div_mod h 3 ltac:(lia)) as D. set (k := h / 3) in *. rewrite M in D.
    assert (D1 : (h - 2) / 3 = k) by (symmetry; apply (Z.div_unique _ _ _ 0); lia).
    assert (D2 : (2 * h - 1) / 3 = 2 * k + 1) by (symmetry; apply (Z.div_unique _ _ _ 0); lia).
    rewrite D1, D2. destruct (Z.ltb_spec h 2) as [L|L]; [lia|]. split.
    + apply line_from_end; [exact Hw|]. intros i Hi. rewrite (half_ink a b HT) by (fold w h; lia). fold w h. f_equal; lia.
    + apply line_from_end; [exact Hw|]. intros i Hi. rewrite (half_ink a b HT) by (fold w h; lia). fold w h. f_equal; lia.
  - intros O. apply line_from_end; [exact Hh|]. intros i Hi.
    pose proof (Zmod_odd w) as E. rewrite O in E. pose proof (Z.div_mod w 2 ltac:(lia)) as D.
    rewrite (half_ink a b HT) by (fold w h; lia). fold w h. f_equal; lia.
Qed.

(** ** Zones: maps of the pixels of an image into those of another one. *)
Section Map.
Context (a b : image) (f : Z -> Z -> Z * Z).
Context (ka kb : Z) (la lb : Z -> Z -> Z) (Na : zone_numbering a ka la) (Nb : zone_numbering b kb lb) (Ka : 0 <= ka) (Kb : 0 <= kb).
Context (Fp : forall x y, paper a x y = true -> paper b (fst (f x y)) (snd (f x y)) = true).
Context (Fl : forall x y x' y', paper a x y = true -> paper a x' y' = true ->
  (linked a (x, y) (x', y') <-> linked b (f x y) (f x' y'))).

Lemma lb_same x y x' y' : paper a x y = true -> paper a x' y' = true ->
  (la x y = la x' y' <-> lb (fst (f x y)) (snd (f x y)) = lb (fst (f x' y')) (snd (f x' y'))).
Proof.
  intros P Q. destruct Na as (_ & _ & A & _). destruct Nb as (_ & _ & B & _).
  rewrite A by assumption. rewrite B by (apply Fp; assumption). rewrite Fl by assumption.
  now rewrite <- !surjective_pairing.
Qed.

(** There are at most as many zones with a property on the one side as on the other one. *)
Lemma zones_le (P Q : Z -> bool) :
  (forall x y, paper a x y = true -> P (la x y) = true -> Q (lb (fst (f x y)) (snd (f x y))) = true) ->
  count_zones ka P <= count_zones kb Q.
Proof.
  intros PQ. destruct Na as (_ & _ & _ & first & First & _). pose proof (proj1 Nb) as Rb.
  set (s := fun v => lb (fst (f (fst (first v)) (snd (first v)))) (snd (f (fst (first v)) (snd (first v))))).
  assert (C : forall k R, 0 <= k -> count_zones k R = Z.of_nat (List.length (filter R (map (fun i => i + 1) (zrange k))))).
  { intros k R Hk. unfold count_zones. revert k Hk. refine (zsum_ind _ _ _).
    - intros k H1 H2. replace k with 0 by lia. reflexivity.
    - intros k Hk IH _. rewrite zsum_S by lia. rewrite IH by lia. rewrite zrange_S by lia. rewrite map_app, filter_app, app_length.
      cbn [map filter]. destruct (R (k + 1)); cbn [List.length]; lia. }
  rewrite !C by assumption. apply inj_le.
  rewrite <- (map_length s). apply NoDup_incl_length.
  - assert (In1 : forall v, In v (filter P (map (fun i => i + 1) (zrange ka))) -> 1 <= v <= ka).
    { intros v Hv. apply filter_In in Hv as (Hv & _). apply in_map_iff in Hv as (i & <- & Hi). apply zrange_In in Hi. lia. }
    assert (ND : NoDup (filter P (map (fun i => i + 1) (zrange ka)))).
    { apply NoDup_filter. apply FinFun.Injective_map_NoDup; [intros i j E; lia|apply zrange_NoDup]. }
    revert In1 ND. generalize (filter P (map (fun i => i + 1) (zrange ka))). intros l In1 ND.
    induction ND as [|v l Nin ND IH]; cbn [map]; constructor.
    + intros I. apply in_map_iff in I as (v' & E & I). apply Nin.
      destruct (First v (In1 v (or_introl eq_refl))) as (F1 & F2 & _).
      destruct (First v' (In1 v' (or_intror I))) as (G1 & G2 & _).
      unfold s in E. apply lb_same in E; [|assumption|assumption]. rewrite F2, G2 in E. now subst.
    + apply IH. intros v' I. apply In1. now right.
  - intros u Hu. apply in_map_iff in Hu as (v & <- & Hv). apply filter_In in Hv as (Hv & Pv).
    apply in_map_iff in Hv as (i & <- & Hi). apply zrange_In in Hi.
    destruct (First (i + 1) ltac:(lia)) as (F1 & F2 & _).
    apply filter_In. split.
    + apply in_map_iff. pose proof (Rb _ _ (Fp _ _ F1)). exists (s (i + 1) - 1). split; [lia|]. apply zrange_In. unfold s. lia.
    + apply PQ; [exact F1|]. now rewrite F2.
Qed.
End Map.

(** ** A quarter turn *)
Lemma on_side (f : Z -> bool) n : 0 < zsum (fun x => if f x then 1 else 0) n <-> exists x, 0 <= x < n /\ f x = true.
Proof.
  split.
  - revert n. refine (zsum_ind _ _ _).
    + intros n Hn. rewrite zsum_0 by lia. lia.
    + intros n Hn IH. rewrite zsum_S by lia. destruct (f n) eqn:E; intros L; [exists n; split; [lia|exact E]|].
      destruct IH as (x & Hx & F); [lia|]. exists x. split; [lia|exact F].
  - intros (x & Hx & F). pose proof (zsum_single (fun x => if f x then 1 else 0) n x Hx) as L.
    cbv beta in L. rewrite F in L. enough (1 <= zsum (fun x => if f x then 1 else 0) n) by lia. apply L. intros i _. destruct (f i); lia.
Qed.

Lemma paper_inside img x y : paper img x y = true -> 0 <= x < iw img /\ 0 <= y < ih img.
Proof.
  unfold paper, pix. destruct ((0 <=? x) && (x <? iw img) && (0 <=? y) && (y <? ih img)) eqn:E; [lia|discriminate].
Qed.

Definition quarter (a b : image) : Prop :=
  iw b = ih a /\ ih b = iw a /\ forall x y, 0 <= x < ih a -> 0 <= y < iw a -> pix b x y = pix a (iw a - 1 - y) x.

Section Quarter.
Context (a b : image) (QT : quarter a b).
Definition qf (x y : Z) : Z * Z := (y, iw a - 1 - x).
Definition qg (x y : Z) : Z * Z := (iw a - 1 - y, x).

Lemma qf_paper x y : paper a x y = true -> paper b (fst (qf x y)) (snd (qf x y)) = true.
Proof.
  intros P. pose proof (paper_inside _ _ _ P). cbn [qf fst snd]. unfold paper in *. destruct QT as (_ & _ & E).
  rewrite E by lia. now replace (iw a - 1 - (iw a - 1 - x)) with x by lia.
Qed.
Lemma qg_paper x y : paper b x y = true -> paper a (fst (qg x y)) (snd (qg x y)) = true.
Proof.
  intros P. pose proof (paper_inside _ _ _ P) as I. cbn [qg fst snd]. unfold paper in *. destruct QT as (E1 & E2 & E). rewrite E1, E2 in I.
  rewrite E in P by lia. exact P.
Qed.
Lemma qf_linked p q : linked a p q -> linked b (qf (fst p) (snd p)) (qf (fst q) (snd q)).
Proof.
  induction 1 as [x y P|p q x y L IH T P]; cbn [fst snd] in *.
  - apply qf_paper in P. cbn [qf fst snd] in *. now constructor.
  - apply linked_next with (qf (fst q) (snd q)); [exact IH| |now apply qf_paper in P].
    unfold touching, qf in *. cbn [fst snd] in *. lia.
Qed.
Lemma qg_linked p q : linked b p q -> linked a (qg (fst p) (snd p)) (qg (fst q) (snd q)).
Proof.
  induction 1 as [x y P|p q x y L IH T P]; cbn [fst snd] in *.
  - apply qg_paper in P. cbn [qg fst snd] in *. now constructor.
  - apply linked_next with (qg (fst q) (snd q)); [exact IH| |now apply qg_paper in P].
    unfold touching, qg in *. cbn [fst snd] in *. lia.
Qed.
Lemma qgf x y : qg (fst (qf x y)) (snd (qf x y)) = (x, y).
Proof. unfold qf, qg. cbn [fst snd]. f_equal; lia. Qed.
Lemma qfg x y : qf (fst (qg x y)) (snd (qg x y)) = (x, y).
Proof. unfold qf, qg. cbn [fst snd]. f_equal; lia. Qed.
Lemma qf_iff x y x' y' : paper a x y = true -> paper a x' y' = true ->
  (linked a (x, y) (x', y') <-> linked b (qf x y) (qf x' y')).
Proof.
  intros _ _. split; intros L.
  - exact (qf_linked _ _ L).
  - apply qg_linked in L. now rewrite !qgf in L.
Qed.
Lemma qg_iff x y x' y' : paper b x y = true -> paper b x' y' = true ->
  (linked b (x, y) (x', y') <-> linked a (qg x y) (qg x' y')).
Proof.
  intros _ _. split; intros L.
  - exact (qg_linked _ _ L).
  - apply qf_linked in L. now rewrite !qfg in L.
Qed.

Context (ka kb : Z) (la lb : Z -> Z -> Z) (Na : zone_numbering a ka la) (Nb : zone_numbering b kb lb) (Ka : 0 <= ka) (Kb : 0 <= kb).
Notation lf x y := (lb (fst (qf x y)) (snd (qf x y))).

Lemma zones_eq (P Q : Z -> bool) :
  (forall x y, paper a x y = true -> P (la x y) = Q (lf x y)) -> count_zones ka P = count_zones kb Q.
Proof.
  intros E. apply Z.le_antisymm.
  - apply (zones_le a b qf ka kb la lb Na Nb Ka Kb qf_paper qf_iff). intros x y Hp HP. now rewrite <- E.
  - apply (zones_le b a qg kb ka lb la Nb Na Kb Ka qg_paper qg_iff). intros x y Hp HQ.
    rewrite E by now apply qg_paper. now rewrite qfg.
Qed.

Lemma numbered_a x y v : 1 <= v -> la x y = v -> paper a x y = true.
Proof. intros Hv E. destruct (paper a x y) eqn:P; [reflexivity|]. apply (proj1 (proj2 Na)) in P. lia. Qed.
Lemma numbered_b x y v : 1 <= v -> lb x y = v -> paper b x y = true.
Proof. intros Hv E. destruct (paper b x y) eqn:P; [reflexivity|]. apply (proj1 (proj2 Nb)) in P. lia. Qed.

Lemma side_iff (na nb : Z) (sa sb : Z -> Z * Z) (x y : Z) :
  (forall i, 0 <= i < na -> exists j, 0 <= j < nb /\ sb j = qf (fst (sa i)) (snd (sa i))) ->
  (forall j, 0 <= j < nb -> exists i, 0 <= i < na /\ sa i = qg (fst (sb j)) (snd (sb j))) ->
  paper a x y = true ->
  (0 <? zsum (fun i => if la (fst (sa i)) (snd (sa i)) =? la x y then 1 else 0) na) =
  (0 <? zsum (fun j => if lb (fst (sb j)) (snd (sb j)) =? lf x y then 1 else 0) nb).
Proof.
  intros AB BA P. apply Bool.eq_true_iff_eq. rewrite !Z.ltb_lt, !on_side.
  pose proof (proj1 Na _ _ P) as Ra. pose proof (proj1 Nb _ _ (qf_paper _ _ P)) as Rb.
  split; intros (i & Hi & E); apply Z.eqb_eq in E.
  - destruct (AB i Hi) as (j & Hj & Ej). exists j. split; [exact Hj|]. apply Z.eqb_eq. rewrite Ej.
    pose proof (numbered_a _ _ (la x y) ltac:(lia) E) as P'.
    apply (lb_same a b qf ka kb la lb Na Nb qf_paper qf_iff); assumption.
  - destruct (BA i Hi) as (j & Hj & Ej). exists j. split; [exact Hj|]. apply Z.eqb_eq. rewrite Ej.
    pose proof (numbered_b _ _ (lf x y) ltac:(lia) E) as P'.
    apply (lb_same a b qf ka kb la lb Na Nb qf_paper qf_iff); [now apply qg_paper|exact P|]. now rewrite qfg.
Qed.

Lemma top_of x y : paper a x y = true -> (0 <? on_top b lb (lf x y)) = (0 <? on_right a la (la x y)).
Proof.
  intros P. symmetry. unfold on_top, on_right. destruct QT as (Ew & Eh & _). rewrite Ew.
  apply (side_iff (ih a) (ih a) (fun y => (iw a - 1, y)) (fun x => (x, 0))); [| |exact P]; intros i Hi; exists i;
    (split; [exact Hi|]); unfold qf, qg; cbn [fst snd]; f_equal; lia.
Qed.
Lemma right_of x y : paper a x y = true -> (0 <? on_right b lb (lf x y)) = (0 <? on_bottom a la (la x y)).
Proof.
  intros P. symmetry. unfold on_bottom, on_right. destruct QT as (Ew & Eh & _). rewrite Ew, Eh.
  apply (side_iff (iw a) (iw a) (fun x => (x, ih a - 1)) (fun y => (ih a - 1, y))); [| |exact P]; intros i Hi; exists (iw a - 1 - i);
    (split; [lia|]); unfold qf, qg; cbn [fst snd]; f_equal; lia.
Qed.
Lemma bottom_of x y : paper a x y = true -> (0 <? on_bottom b lb (lf x y)) = (0 <? on_left a la (la x y)).
Proof.
  intros P. symmetry. unfold on_bottom, on_left. destruct QT as (Ew & Eh & _). rewrite Ew, Eh.
  apply (side_iff (ih a) (ih a) (fun y => (0, y)) (fun x => (x, iw a - 1))); [| |exact P]; intros i Hi; exists i;
    (split; [exact Hi|]); unfold qf, qg; cbn [fst snd]; f_equal; lia.
Qed.
Lemma left_of x y : paper a x y = true -> (0 <? on_left b lb (lf x y)) = (0 <? on_top a la (la x y)).
Proof.
  intros P. symmetry. unfold on_top, on_left. destruct QT as (Ew & Eh & _). rewrite Eh.
  apply (side_iff (iw a) (iw a) (fun x => (x, 0)) (fun y => (0, y))); [| |exact P]; intros i Hi; exists (iw a - 1 - i);
    (split; [lia|]); unfold qf, qg; cbn [fst snd]; f_equal; lia.
Qed.
End Quarter.

Lemma rotate_quarter a b : wf_image a -> rotate90 a = Ok b -> wf_image b /\ quarter a b.
Proof.
  intros W E. destruct (rotate90_law a W) as (b' & E' & Wb & Bw & Bh & Bp). rewrite E in E'. injection E' as <-.
  split; [exact Wb|]. split; [exact Bw|]. split; [exact Bh|]. intros x y Hx Hy. apply Bp; lia.
Qed.
Lemma quarter_ink a b x y : quarter a b -> 0 <= x < ih a -> 0 <= y < iw a -> ink b x y = ink a (iw a - 1 - y) x.
Proof. intros (_ & _ & P) Hx Hy. unfold ink. now rewrite P. Qed.


Lemma zones_of_ok junk ctx img : wf_image img -> 1 <= iw img -> 1 <= ih img -> iw img * ih img < 1073741824 ->
  exists k lab, 0 <= k /\ zone_numbering img k lab /\
    zones_of junk ctx img = Ok [bool_u (ink img 0 0); bool_u (ink img (iw img - 1) (ih img - 1));
      count_zones k (fun v => 0 <? on_top img lab v);
      count_zones k (fun v => 0 <? on_right img lab v);
      count_zones k (fun v => 0 <? on_bottom img lab v);
      count_zones k (fun v => 0 <? on_left img lab v);
      count_zones k (fun v => negb ((0 <? on_top img lab v) || (0 <? on_right img lab v) ||
                                    (0 <? on_bottom img lab v) || (0 <? on_left img lab v)))].
Proof.
  intros Hwf Hw Hh Hb. destruct (count_zone_ok junk img ctx Hwf Hw Hh Hb) as (k & lab & zc & E & Hk & N & Hm & C & Hg).
  exists k, lab. split; [lia|]. split; [exact N|]. unfold zones_of. rewrite E. cbn [bind].
  apply zone_value_ok; auto; lia.
Qed.

Lemma quarter_zones junk ctx junk' ctx' a b : wf_image a -> 1 <= iw a -> 1 <= ih a -> iw a * ih a < 1073741824 -> rotate90 a = Ok b ->
  exists t r u l e,
    zones_of junk ctx a = Ok [bool_u (ink a 0 0); bool_u (ink a (iw a - 1) (ih a - 1)); t; r; u; l; e] /\
    zones_of junk' ctx' b = Ok [bool_u (ink a (iw a - 1) 0); bool_u (ink a 0 (ih a - 1)); r; u; l; t; e].
Proof.
  intros Wa Hw Hh B R. destruct (rotate_quarter a b Wa R) as (Wb & Q). pose proof Q as (Ew & Eh & _).
  destruct (zones_of_ok junk ctx a Wa Hw Hh B) as (ka & la & Ka & Na & Za).
  destruct (zones_of_ok junk' ctx' b Wb) as (kb & lb & Kb & Nb & Zb); [lia|lia|rewrite Ew, Eh; lia|].
  do 5 eexists. split; [exact Za|]. rewrite Zb. rewrite !(quarter_ink a b) by (try exact Q; lia). rewrite Ew, Eh.
  replace (iw a - 1 - 0) with (iw a - 1) by lia. replace (iw a - 1 - (iw a - 1)) with 0 by lia.
  pose proof (top_of a b Q ka kb la lb Na Nb) as T. pose proof (right_of a b Q ka kb la lb Na Nb) as Rr.
  pose proof (bottom_of a b Q ka kb la lb Na Nb) as U. pose proof (left_of a b Q ka kb la lb Na Nb) as L.
  rewrite (zones_eq a b Q ka kb la lb Na Nb Ka Kb (fun v => 0 <? on_right a la v) (fun v => 0 <? on_top b lb v)) by (intros; now rewrite T).
  rewrite (zones_eq a b Q ka kb la lb Na Nb Ka Kb (fun v => 0 <? on_bottom a la v) (fun v => 0 <? on_right b lb v)) by (intros; now rewrite Rr).
  rewrite (zones_eq a b Q ka kb la lb Na Nb Ka Kb (fun v => 0 <? on_left a la v) (fun v => 0 <? on_bottom b lb v)) by (intros; now rewrite U).
  rewrite (zones_eq a b Q ka kb la lb Na Nb Ka Kb (fun v => 0 <? on_top a la v) (fun v => 0 <? on_left b lb v)) by (intros; now rewrite L).
  rewrite (zones_eq a b Q ka kb la lb Na Nb Ka Kb
    (fun v => negb ((0 <? on_top a la v) || (0 <? on_right a la v) || (0 <? on_bottom a la v) || (0 <? on_left a la v)))
    (fun v => negb ((0 <? on_top b lb v) || (0 <? on_right b lb v) || (0 <? on_bottom b lb v) || (0 <? on_left b lb v)))).
  2: { intros x y P. rewrite T, Rr, U, L by exact P.
       destruct (0 <? on_top a la (la x y)), (0 <? on_right a la (la x y)), (0 <? on_bottom a la (la x y)), (0 <? on_left a la (la x y)); reflexivity. }
  reflexivity.
Qed.

Lemma half_zones junk ctx junk' ctx' a b : wf_image a -> 1 <= iw a -> 1 <= ih a -> iw a * ih a < 1073741824 -> turned_twice a b ->
  exists p q t r u l e,
    zones_of junk ctx a = Ok [p; q; t; r; u; l; e] /\ zones_of junk' ctx' b = Ok [q; p; u; l; t; r; e].
Proof.
  intros Wa Hw Hh B (m & Rm & Rb). destruct (rotate_quarter a m Wa Rm) as (Wm & Q). pose proof Q as (Ew & Eh & _).
  destruct (quarter_zones junk ctx junk ctx a m Wa Hw Hh B Rm) as (t & r & u & l & e & Za & Zm).
  destruct (quarter_zones junk ctx junk' ctx' m b Wm) as (t' & r' & u' & l' & e' & Zm' & Zb); [lia|lia|rewrite Ew, Eh; lia|exact Rb|].
  rewrite Zm in Zm'. inversion Zm'; subst t' r' u' l' e'. do 7 eexists. split; [exact Za|]. rewrite Zb.
  rewrite !(quarter_ink a m) by (try exact Q; lia). rewrite Ew, Eh.
  replace (iw a - 1 - 0) with (iw a - 1) by lia. replace (iw a - 1 - (iw a - 1)) with 0 by lia. reflexivity.
Qed.

(** *** Number of proportions *)
Lemma contact_any img lab v : (0 <? contact img lab v) =
  (0 <? on_top img lab v) || (0 <? on_right img lab v) || (0 <? on_bottom img lab v) || (0 <? on_left img lab v).
Proof.
  unfold contact. destruct (0 <? on_top img lab v) eqn:E1; [exact E1|]. destruct (0 <? on_right img lab v) eqn:E2; [exact E2|].
  destruct (0 <? on_bottom img lab v) eqn:E3; [exact E3|]. reflexivity.
Qed.
Lemma border_count img k lab : 0 <= k -> Z.of_nat (List.length (border_zones img k lab)) = count_zones k (fun v => 0 <? contact img lab v).
Proof.
  unfold border_zones, count_zones. revert k. refine (zsum_ind _ _ _).
  - intros k H1 H2. replace k with 0 by lia. reflexivity.
  - intros k Hk IH _. rewrite zsum_S by lia. rewrite <- IH by lia. rewrite zrange_S by lia. rewrite map_app, filter_app, app_length.
    cbn [map filter]. destruct (0 <? contact img lab (k + 1)); cbn [List.length]; lia.
Qed.
Lemma numbering_max img k lab : zone_numbering img k lab -> zone_numbering img (Z.max 0 k) lab.
Proof.
  intros (A & B & C & first & D & E). split; [intros x y P; specialize (A x y P); lia|]. split; [exact B|]. split; [exact C|].
  exists first. split; [intros v Hv; apply D; lia|intros v v' H1 H2 H3; apply E; lia].
Qed.
Lemma border_zones_max img k lab : border_zones img (Z.max 0 k) lab = border_zones img k lab.
Proof. unfold border_zones. destruct (Z.leb_spec k 0); [rewrite (zrange_0 k) by lia; now rewrite (zrange_0 (Z.max 0 k)) by lia|now replace (Z.max 0 k) with k by lia]. Qed.

Lemma quarter_proportions junk ctx junk' ctx' sort sort' a b : wf_image a -> 1 <= iw a -> 1 <= ih a -> iw a * ih a < 42949672 ->
  is_std_sort Z.ltb sort -> is_std_sort Z.ltb sort' -> rotate90 a = Ok b ->
  exists p q, proportions_of junk ctx sort a = Ok p /\ proportions_of junk' ctx' sort' b = Ok q /\ List.length p = List.length q.
Proof.
  intros Wa Hw Hh B S1 S2 R. destruct (rotate_quarter a b Wa R) as (Wb & Q). pose proof Q as (Ew & Eh & _).
  destruct (proportions_law junk a ctx sort Wa Hw Hh B S1) as (ka & la & za & p & Ea & Na & Pa & _ & Pp & _).
  destruct (proportions_law junk' b ctx' sort' Wb) as (kb & lb & zb & q & Eb & Nb & Pb & _ & Pq & _); [lia|lia|rewrite Ew, Eh; lia|exact S2|].
  exists p, q. unfold proportions_of. rewrite Ea, Eb. cbn [bind]. split; [exact Pa|]. split; [exact Pb|].
  apply Permutation_length in Pp, Pq. rewrite map_length in Pp, Pq. rewrite Pp, Pq. apply Nat2Z.inj.
  apply numbering_max in Na, Nb. rewrite <- (border_zones_max a), <- (border_zones_max b). rewrite !border_count by lia.
  apply (zones_eq a b Q _ _ la lb Na Nb); [lia|lia|]. intros x y P. rewrite !contact_any.
  rewrite (top_of a b Q _ _ la lb Na Nb x y P), (right_of a b Q _ _ la lb Na Nb x y P).
  rewrite (bottom_of a b Q _ _ la lb Na Nb x y P), (left_of a b Q _ _ la lb Na Nb x y P).
  destruct (0 <? on_top a la (la x y)), (0 <? on_right a la (la x y)), (0 <? on_bottom a la (la x y)), (0 <? on_left a la (la x y)); reflexivity.
Qed.

(** *** Density and proportions of the sizes *)
Lemma zsum_swap f n m : zsum (fun i => zsum (fun j => f i j) m) n = zsum (fun j => zsum (fun i => f i j) n) m.
Proof.
  revert n. refine (zsum_ind _ _ _).
  - intros n Hn. rewrite zsum_0 by lia. symmetry. apply zsum_zero. intros. apply zsum_0. lia.
  - intros n Hn IH. rewrite zsum_S by lia. rewrite IH. rewrite <- zsum_add. apply zsum_ext. intros j _. now rewrite zsum_S by lia.
Qed.
Lemma quarter_density a b : measurable a (iw a * ih a) -> rotate90 a = Ok b -> density b = density a.
Proof.
  intros (Wa & Hw & Hh & B) R. destruct (rotate_quarter a b Wa R) as (Wb & Q). pose proof Q as (Ew & Eh & _).
  destruct (density_ok a (conj Wa (conj Hw (conj Hh B)))) as (u & Eu & _ & Vu).
  destruct (density_ok b) as (v & Ev & _ & Vv). { split; [exact Wb|]. rewrite Ew, Eh. repeat split; lia. }
  rewrite Eu, Ev, Vu, Vv, Ew, Eh. replace (ih a * iw a) with (iw a * ih a) by lia.
  replace (ink_sum b (fun _ _ => 1)) with (ink_sum a (fun _ _ => 1)); [reflexivity|].
  unfold ink_sum. rewrite Ew, Eh. rewrite (zsum_swap (fun y x => if ink b x y then 1 else 0)).
  apply zsum_ext. intros y Hy. rewrite <- (zsum_rev (fun x => if ink a x y then 1 else 0)) by lia.
  apply zsum_ext. intros x Hx. rewrite (quarter_ink a b) by (try exact Q; lia). reflexivity.
Qed.
Lemma quarter_proportionality a b : wf_image a -> 1 <= iw a -> 1 <= ih a -> 100 * (iw a + ih a) < 4294967296 -> rotate90 a = Ok b ->
  opposite 100 (proportionality a) (proportionality b).
Proof.
  intros Wa Hw Hh B R. destruct (rotate_quarter a b Wa R) as (Wb & Q). pose proof Q as (Ew & Eh & _).
  destruct (proportionality_ok a) as (u & Eu & Ru & Vu); [lia|lia|lia|lia|].
  destruct (proportionality_ok b) as (v & Ev & Rv & Vv); [lia|lia|lia|lia|].
  exists u, v. split; [exact Eu|]. split; [exact Ev|]. split; [exact Ru|]. rewrite Ew, Eh in Vv.
  rewrite (Z.add_comm (ih a)) in Vv. set (s := iw a + ih a) in *.
  pose proof (Z.div_mod (100 * iw a) s ltac:(lia)). pose proof (Z.mod_pos_bound (100 * iw a) s ltac:(lia)).
  pose proof (Z.div_mod (100 * ih a) s ltac:(lia)). pose proof (Z.mod_pos_bound (100 * ih a) s ltac:(lia)).
  assert (E : s * (u + v) + ((100 * iw a) mod s + (100 * ih a) mod s) = 100 * s) by (subst u v; unfold s in *; lia).
  generalize dependent ((100 * iw a) mod s). generalize dependent ((100 * ih a) mod s). intros. nia.
Qed.

(** ** Ordinary images *)
Lemma ordinary_bounds a : ordinary a ->
  100 * (iw a * ih a) < 2147483648 /\ 100 * (iw a * ih a * ih a) < 4294967296 /\ iw a * ih a < 42949672 /\
  100 * (iw a + ih a) < 4294967296 /\ ih a < 2147483648.
Proof.
  intros (_ & Hw & Hh & B).
  assert (P : 1 <= iw a * ih a) by nia. assert (P1 : iw a <= iw a * ih a) by nia. assert (P2 : ih a <= iw a * ih a) by nia.
  set (m := iw a * ih a) in *. assert (2 * m <= m * (iw a + ih a)) by nia. assert (m * ih a <= m * (iw a + ih a)) by nia.
  repeat split; lia.
Qed.

Lemma turned_features a b : ordinary a -> turned_twice a b ->
  density b = density a /\ proportionality b = proportionality a /\ dzdensity b = dzdensity a /\ hbar b = hbar a /\
  opposite 200 (hdirection a) (hdirection b) /\ opposite 100 (hdirection2 a) (hdirection2 b) /\
  opposite 200 (hgravity a) (hgravity b) /\ opposite 100 (hgravity2 a) (hgravity2 b) /\
  opposite 200 (dvdirection a) (dvdirection b) /\ opposite 200 (dvgravity a) (dvgravity b).
Proof.
  intros O T. pose proof (ordinary_bounds a O) as (B1 & B2 & _). destruct O as (Wa & Hw & Hh & _).
  destruct (twice_half a b Wa T) as (Wb & HT).
  split; [apply turn_density; auto; lia|]. split; [apply turn_proportionality; auto|]. split; [apply turn_dzdensity; auto; lia|].
  split; [apply turn_hbar; auto|]. split; [apply turn_hdirection; auto; lia|]. split; [apply turn_hdirection2; auto; lia|].
  split; [apply turn_hgravity; auto; lia|]. split; [apply turn_hgravity2; auto; lia|].
  split; [apply turn_dvdirection; auto; lia|apply turn_dvgravity; auto; lia].
Qed.

Lemma turned_alternations a b : ordinary a -> turned_twice a b ->
  exists r1 r2 t u m l r, alternations_of a = Ok [r1; r2; t; u; m; l; r] /\
  exists r1' r2' m', alternations_of b = Ok [r1'; r2'; from_end u; from_end t; m'; from_end r; from_end l] /\
    (ih a mod 3 = 2 -> r1' = from_end r2 /\ r2' = from_end r1) /\
    (Z.odd (iw a) = true -> m' = from_end m).
Proof.
  intros O T. pose proof (ordinary_bounds a O) as (_ & _ & _ & _ & B). destruct O as (Wa & Hw & Hh & _).
  destruct (twice_half a b Wa T) as (Wb & HT). pose proof HT as (Ew & Eh & _).
  destruct (alternations_ok a Wa Hw Hh B) as (qa & Ra & Aa).
  destruct (alternations_ok b Wb ltac:(lia) ltac:(lia) ltac:(lia)) as (qb & Rb & Ab).
  destruct (turn_alternations_spec a b HT Hw Hh) as (r1 & r2 & t & u & m & l & r & Sa & r1' & r2' & m' & Sb & E1 & E2).
  exists r1, r2, t, u, m, l, r. unfold alternations_of. rewrite Ra, Rb. cbn [bind]. rewrite Aa, Ab, Sa, Sb. split; [reflexivity|].
  exists r1', r2', m'. auto.
Qed.

Lemma turned_zones junk ctx junk' ctx' a b : ordinary a -> turned_twice a b ->
  exists p q t r u l e,
    zones_of junk ctx a = Ok [p; q; t; r; u; l; e] /\ zones_of junk' ctx' b = Ok [q; p; u; l; t; r; e].
Proof.
  intros O T. pose proof (ordinary_bounds a O) as (_ & _ & B & _). destruct O as (Wa & Hw & Hh & _). apply half_zones; auto; lia.
Qed.

Lemma quarter_features junk ctx junk' ctx' a b : ordinary a -> rotate90 a = Ok b ->
  density b = density a /\ opposite 100 (proportionality a) (proportionality b) /\
  exists p q p' q' t r u l e,
    zones_of junk ctx a = Ok [p; q; t; r; u; l; e] /\ zones_of junk' ctx' b = Ok [p'; q'; r; u; l; t; e].
Proof.
  intros O R. pose proof (ordinary_bounds a O) as (B1 & _ & B & B2 & _). destruct O as (Wa & Hw & Hh & _).
  assert (B1' : 100 * (iw a * ih a) < 4294967296) by lia.
  split; [apply quarter_density; [exact (conj Wa (conj Hw (conj Hh B1')))|exact R]|]. split; [apply quarter_proportionality; auto|].
  destruct (quarter_zones junk ctx junk' ctx' a b Wa Hw Hh ltac:(lia) R) as (t & r & u & l & e & Za & Zb).
  do 9 eexists. split; [exact Za|exact Zb].
Qed.

Lemma quarter_count junk ctx junk' ctx' sort sort' a b : ordinary a -> is_std_sort Z.ltb sort -> is_std_sort Z.ltb sort' -> rotate90 a = Ok b ->
  exists p q, proportions_of junk ctx sort a = Ok p /\ proportions_of junk' ctx' sort' b = Ok q /\ List.length p = List.length q.
Proof.
  intros O S1 S2 R. pose proof (ordinary_bounds a O) as (_ & _ & B & _). destruct O as (Wa & Hw & Hh & _). now apply quarter_proportions.
Qed.
