(** Density, diagonal density, alternations, bars, relationships. *)
From Verif Require Import Base BaseProofs ImageModel ImageSpec ImageProofs StratModel StratSpec StratProofs.

Lemma density_raw img :
  wf_image img -> 1 <= iw img -> 1 <= ih img ->
  density img = Ok (u32 (ink_sum img (fun _ _ => 1) * 100) / (iw img * ih img)) /\
  0 <= ink_sum img (fun _ _ => 1) <= iw img * ih img.
Proof.
  intros Hwf Hw Hh. unfold density. rewrite (end_offset img Hwf).
  change 0 with (0 * iw img) at 1. rewrite scan_rows by (auto; lia). cbn [bind].
  rewrite area_wf by exact Hwf. rewrite divu_ok by nia. split.
  - f_equal. f_equal. f_equal. f_equal. unfold ink_sum. rewrite Z.sub_0_r.
    apply zsum_ext; intros y Hy. apply zsum_ext; intros x Hx.
    rewrite Z.add_0_l. unfold ink01. reflexivity.
  - pose proof (ink_le_cell img (fun _ _ => 1) ltac:(intros; lia)) as (H1 & H2).
    pose proof (cell_sum_le img (fun _ _ => 1) 1 ltac:(lia) ltac:(lia) ltac:(intros; lia)). lia.
Qed.

Lemma density_ok img :
  measurable img (iw img * ih img) ->
  exists v, density img = Ok v /\ 0 <= v <= 100 /\
    v = 100 * ink_sum img (fun _ _ => 1) / (iw img * ih img).
Proof.
  intros (Hwf & Hw & Hh & Hb). destruct (density_raw img Hwf Hw Hh) as (E & R).
  rewrite E. rewrite u32_small by lia. eexists; split; [reflexivity|].
  assert (0 < iw img * ih img) by nia.
  split; [|f_equal; lia]. split; [apply Z.div_pos; lia|apply Z.div_le_upper_bound; lia].
Qed.

Definition full_line (w : Z) : image := mkimage w 1 (repeat 120 (Z.to_nat w)).

Lemma full_line_wf w : 1 <= w < 4294967296 -> wf_image (full_line w).
Proof.
  intros H. repeat split; cbn [iw ih idata full_line]; try lia.
  rewrite repeat_length. lia.
Qed.

Lemma full_line_ink w x : 0 <= x < w -> ink (full_line w) x 0 = true.
Proof.
  intros H. unfold ink, pix. cbn [iw ih idata full_line].
  replace ((0 <=? x) && (x <? w) && (0 <=? 0) && (0 <? 1)) with true by lia.
  rewrite (nth_error_nth' _ 120) by (rewrite repeat_length; lia).
  rewrite nth_repeat. reflexivity.
Qed.

Lemma full_line_sum w : 1 <= w -> ink_sum (full_line w) (fun _ _ => 1) = w.
Proof.
  intros H. unfold ink_sum. cbn [iw ih full_line]. rewrite zsum_1.
  rewrite (zsum_ext _ (fun _ => 1)).
  - rewrite zsum_const; lia.
  - intros x Hx. now rewrite full_line_ink.
Qed.

Lemma full_line_density w : 1 <= w < 4294967296 ->
  density (full_line w) = Ok (u32 (w * 100) / w).
Proof.
  intros H. destruct (density_raw (full_line w)) as (E & _).
  - apply full_line_wf; exact H.
  - cbn [iw full_line]; lia.
  - cbn [ih full_line]; lia.
  - rewrite E, full_line_sum by lia. cbn [iw ih full_line]. f_equal. f_equal. lia.
Qed.

Lemma density_wraps :
  exists img, wf_image img /\ 1 <= iw img /\ 1 <= ih img /\
    exists v, density img = Ok v /\ v <> 100 * ink_sum img (fun _ _ => 1) / (iw img * ih img).
Proof.
  assert (G : forall w, w = 42949673 -> exists img, wf_image img /\ 1 <= iw img /\ 1 <= ih img /\
    exists v, density img = Ok v /\ v <> 100 * ink_sum img (fun _ _ => 1) / (iw img * ih img)).
  { intros w Hw. exists (full_line w). split; [apply full_line_wf; lia|].
    split; [cbn [iw full_line]; lia|]. split; [cbn [ih full_line]; lia|].
    eexists. split; [apply full_line_density; lia|].
    rewrite full_line_sum by lia. cbn [iw ih full_line]. rewrite Hw.
    vm_compute. discriminate. }
  exact (G _ eq_refl).
Qed.

Lemma proportionality_ok img :
  0 <= iw img -> 0 <= ih img -> 1 <= iw img + ih img < 4294967296 -> 100 * iw img < 4294967296 ->
  exists v, proportionality img = Ok v /\ 0 <= v <= 100 /\ v = 100 * iw img / (iw img + ih img).
Proof.
  intros Hw Hh Hs Hb. unfold proportionality. rewrite !u32_small by lia. rewrite divu_ok by lia.
  eexists; split; [reflexivity|]. split; [|f_equal; lia].
  split; [apply Z.div_pos; lia|apply Z.div_le_upper_bound; lia].
Qed.

(** * Diagonal density *)

Lemma i32_ok z : -2147483648 <= z <= 2147483647 -> i32 z = Ok z.
Proof.
  intros H. unfold i32. replace ((-2147483648 <=? z) && (z <=? 2147483647)) with true by lia. reflexivity.
Qed.

Definition dz_xs w h y := Z.max 0 (Z.quot (3 * w + 3 * w * y - w * h + 3 * h - 1) (3 * h)).
Definition dz_xe w h y := Z.min w (Z.quot (3 * w * y + w * h) (3 * h)).

Lemma dz_xe_spec w h y x : 3 <= w -> 3 <= h -> 0 <= y < h -> 0 <= x < w ->
  (x <? dz_xe w h y) = (3 * h * (x + 1) <=? 3 * w * y + w * h).
Proof.
  intros Hw Hh Hy Hx. unfold dz_xe. rewrite Z.quot_div_nonneg by nia.
  set (q := (3 * w * y + w * h) / (3 * h)).
  assert (E : 3 * h * q <= 3 * w * y + w * h < 3 * h * (q + 1)).
  { unfold q. pose proof (Z.mul_div_le (3 * w * y + w * h) (3 * h) ltac:(lia)).
    pose proof (Z.mul_succ_div_gt (3 * w * y + w * h) (3 * h) ltac:(lia)). lia. }
  clearbody q. destruct (Z.leb_spec (3 * h * (x + 1)) (3 * w * y + w * h)) as [L|L].
  - assert (x < q) by nia. lia.
  - assert (q <= x) by nia. lia.
Qed.

Lemma dz_xs_spec w h y x : 3 <= w -> 3 <= h -> 0 <= y < h -> 0 <= x < w ->
  (dz_xs w h y <=? x) = (3 * w * (y + 1) - w * h <=? 3 * h * x).
Proof.
  intros Hw Hh Hy Hx. unfold dz_xs.
  set (N := 3 * w + 3 * w * y - w * h + 3 * h - 1).
  assert (EN : N = 3 * w * (y + 1) - w * h + (3 * h - 1)) by (unfold N; lia).
  clearbody N.
  destruct (Z.leb_spec 0 N) as [HN|HN].
  - rewrite Z.quot_div_nonneg by lia. set (q := N / (3 * h)).
    assert (E : 3 * h * q <= N < 3 * h * (q + 1)).
    { unfold q. pose proof (Z.mul_div_le N (3 * h) ltac:(lia)).
      pose proof (Z.mul_succ_div_gt N (3 * h) ltac:(lia)). lia. }
    assert (0 <= q) by (apply Z.div_pos; lia).
    clearbody q. destruct (Z.leb_spec (3 * w * (y + 1) - w * h) (3 * h * x)) as [L|L].
    + assert (q <= x) by nia. lia.
    + assert (x < q) by nia. lia.
  - assert (Q : Z.quot N (3 * h) <= 0).
    { replace N with (- (- N)) by lia. rewrite Z.quot_opp_l by lia.
      pose proof (Z.quot_pos (- N) (3 * h) ltac:(lia) ltac:(lia)). lia. }
    assert (3 * w * (y + 1) - w * h <= 3 * h * x) by nia. lia.
Qed.

Lemma dz_order w h y : 3 <= w -> 3 <= h -> 0 <= y < h ->
  0 <= dz_xs w h y <= dz_xe w h y /\ dz_xe w h y <= w.
Proof.
  intros Hw Hh Hy. unfold dz_xs, dz_xe.
  rewrite (Z.quot_div_nonneg (3 * w * y + w * h)) by nia.
  set (q := (3 * w * y + w * h) / (3 * h)).
  assert (E : 3 * h * q <= 3 * w * y + w * h < 3 * h * (q + 1)).
  { unfold q. pose proof (Z.mul_div_le (3 * w * y + w * h) (3 * h) ltac:(lia)).
    pose proof (Z.mul_succ_div_gt (3 * w * y + w * h) (3 * h) ltac:(lia)). lia. }
  assert (Hq : 0 <= q) by (apply Z.div_pos; nia).
  clearbody q.
  set (N := 3 * w + 3 * w * y - w * h + 3 * h - 1).
  assert (EN : N = 3 * w + 3 * w * y - w * h + 3 * h - 1) by (unfold N; lia).
  clearbody N.
  destruct (Z.leb_spec 0 N) as [HN|HN].
  - rewrite Z.quot_div_nonneg by lia. set (p := N / (3 * h)).
    assert (E2 : 3 * h * p <= N < 3 * h * (p + 1)).
    { unfold p. pose proof (Z.mul_div_le N (3 * h) ltac:(lia)).
      pose proof (Z.mul_succ_div_gt N (3 * h) ltac:(lia)). lia. }
    assert (0 <= p) by (apply Z.div_pos; lia). clearbody p.
    assert (Hpq : p <= q).
    { assert (Hd : N + 1 <= 3 * w * y + w * h) by nia. nia. }
    assert (Hpw : p <= w).
    { assert (w * y <= w * (h - 1)) by nia. assert (N < 3 * h * (w + 1)) by nia. nia. }
    lia.
  - assert (Q : Z.quot N (3 * h) <= 0).
    { replace N with (- (- N)) by lia. rewrite Z.quot_opp_l by lia.
      pose proof (Z.quot_pos (- N) (3 * h) ltac:(lia) ltac:(lia)). lia. }
    lia.
Qed.

Lemma dz_band w h x y : 3 <= w -> 3 <= h -> 0 <= y < h -> 0 <= x < w ->
  in_diag_band w h x y = (dz_xs w h y <=? x) && (x <? dz_xe w h y).
Proof. intros. unfold in_diag_band. now rewrite dz_xe_spec, dz_xs_spec. Qed.

Lemma dz_first_row w h : 3 <= w -> 3 <= h -> 0 < dz_xe w h 0 - dz_xs w h 0.
Proof.
  intros Hw Hh. pose proof (dz_order w h 0 Hw Hh ltac:(lia)).
  pose proof (dz_xe_spec w h 0 0 Hw Hh ltac:(lia) ltac:(lia)).
  pose proof (dz_xs_spec w h 0 0 Hw Hh ltac:(lia) ltac:(lia)).
  assert (3 * h * (0 + 1) <= 3 * w * 0 + w * h) by nia.
  assert (3 * w * (0 + 1) - w * h <= 3 * h * 0) by nia. lia.
Qed.

Lemma dzdensity_ok img :
  wf_image img -> 100 * (iw img * ih img) < 2147483648 ->
  exists v, dzdensity img = Ok v /\ 0 <= v <= 100 /\
    v = if (iw img <? 3) || (ih img <? 3) then 0
        else 100 * ink_sum img (band img) / cell_sum img (band img).
Proof.
  intros Hwf Hb. assert (Hwf' := Hwf). destruct Hwf' as (Hw & Hh & Ha & Hl).
  unfold dzdensity.
  destruct ((iw img <? 3) || (ih img <? 3)) eqn:Esmall.
  { exists 0. repeat split; lia. }
  set (w := iw img) in *. set (h := ih img) in *.
  assert (Hw3 : 3 <= w) by lia. assert (Hh3 : 3 <= h) by lia.
  assert (Hww : w * 3 <= w * h) by nia. assert (Hhh : h * 3 <= w * h) by nia.
  rewrite area_wf by exact Hwf. fold w h.
  rewrite i32_ok by lia. cbn [bind].
  rewrite (u32_small (h * 3)) by lia. rewrite i32_ok by lia. cbn [bind].
  rewrite (u32_small (w * 3)) by lia. rewrite i32_ok by lia. cbn [bind].
  rewrite i32_ok by lia. cbn [bind].
  set (rowink := fun y => zsum (fun x => if (dz_xs w h y <=? x) && (x <? dz_xe w h y) then ink01 img x y else 0) w).
  set (rowlen := fun y => dz_xe w h y - dz_xs w h y).
  assert (Hrl : forall y, 0 <= y < h -> 0 <= rowlen y <= w).
  { intros y Hy. pose proof (dz_order w h y Hw3 Hh3 Hy). unfold rowlen. lia. }
  assert (Hri : forall y, 0 <= y < h -> 0 <= rowink y <= rowlen y).
  { intros y Hy. pose proof (dz_order w h y Hw3 Hh3 Hy). unfold rowink, rowlen. split.
    - apply zsum_nonneg; intros. pose proof (ink01_range img i y). destruct (_ && _); lia.
    - transitivity (zsum (fun x => if (dz_xs w h y <=? x) && (x <? dz_xe w h y) then 1 else 0) w).
      + apply zsum_le; intros. pose proof (ink01_range img i y). destruct (_ && _); lia.
      + rewrite (zsum_window (fun _ => 1)) by lia. rewrite zsum_const; lia. }
  match goal with |- context [for_up ?n ?i ?body ?s] =>
    pose (I := fun (y : Z) '((yp, cnt, ar, data) : Z * Z * Z * Z) =>
         yp = 3 * w * y /\ cnt = zsum rowink y /\ ar = zsum rowlen y /\ data = y * w /\
         0 <= cnt <= ar /\ 0 <= ar <= w * y);
    assert (L : exists s', for_up n i body s = Ok s' /\ I (i + Z.of_nat n) s');
    [apply (for_up_total body I n i)|]
  end.
  { intros y (((yp & cnt) & ar) & data) Hy (-> & -> & -> & -> & Hc & Har).
    assert (Hy' : 0 <= y < h) by lia. clear Hy.
    pose proof (dz_order w h y Hw3 Hh3 Hy') as Hord.
    assert (Hyw : w * y <= w * (h - 1)) by (apply Z.mul_le_mono_nonneg_l; lia).
    assert (0 <= w * y) by nia.
    rewrite i32_ok by nia. cbn [bind]. rewrite i32_ok by nia. cbn [bind].
    rewrite i32_ok by nia. cbn [bind]. rewrite i32_ok by nia. cbn [bind].
    rewrite i32_ok by nia. cbn [bind]. cbv zeta.
    replace (w * 3 + 3 * w * y - w * h + h * 3 - 1) with (3 * w + 3 * w * y - w * h + 3 * h - 1) by lia.
    replace (h * 3) with (3 * h) by lia.
    fold (dz_xs w h y). fold (dz_xe w h y).
    rewrite (Z.max_r 0 (dz_xs w h y)) by lia. rewrite (Z.min_r w (dz_xe w h y)) by lia.
    destruct (Z.ltb_spec (dz_xe w h y) (dz_xs w h y)); [lia|].
    pose proof (scan_row img y (dz_xs w h y) (dz_xe w h y) 1 0 Hwf Hy') as Es. fold w in Es.
    rewrite Es; try lia. clear Es. cbn [bind].
    rewrite Z.add_0_l, Z.mul_1_l. fold (rowink y).
    specialize (Hrl y Hy'). specialize (Hri y Hy').
    rewrite i32_ok by lia. cbn [bind]. fold (rowlen y).
    rewrite i32_ok by lia. cbn [bind]. rewrite i32_ok by nia. cbn [bind].
    eexists; split; [reflexivity|]. unfold I. cbv beta iota.
    rewrite !zsum_S by lia. lia. }
  { unfold I. cbv beta iota. rewrite !zsum_0 by lia. lia. }
  destruct L as (s' & E & HI).
  destruct s' as (((yp & cnt) & ar) & data). unfold I in HI. destruct HI as (_ & -> & -> & _ & Hc & Har).
  replace (0 + Z.of_nat (Z.to_nat h)) with h in * by lia.
  rewrite E. cbn [bind]. rewrite i32_ok by nia. cbn [bind].
  assert (Hpos : 0 < zsum rowlen h).
  { assert (rowlen 0 <= zsum rowlen h).
    { apply zsum_single; [lia|]. intros; apply Hrl; lia. }
    pose proof (dz_first_row w h Hw3 Hh3). unfold rowlen in H at 1. lia. }
  destruct (Z.eqb_spec (zsum rowlen h) 0); [lia|].
  rewrite Z.quot_div_nonneg by lia.
  assert (Hr : 0 <= zsum rowink h * 100 / zsum rowlen h <= 100).
  { split; [apply Z.div_pos; lia|apply Z.div_le_upper_bound; lia]. }
  rewrite u32_small by lia. eexists; split; [reflexivity|]. split; [exact Hr|].
  assert (E1 : ink_sum img (band img) = zsum rowink h).
  { unfold ink_sum. fold w h. apply zsum_ext; intros y Hy. apply zsum_ext; intros x Hx.
    unfold band. fold w h. rewrite dz_band by lia. unfold ink01.
    destruct (ink img x y), ((dz_xs w h y <=? x) && (x <? dz_xe w h y)); reflexivity. }
  assert (E2 : cell_sum img (band img) = zsum rowlen h).
  { unfold cell_sum. fold w h. apply zsum_ext; intros y Hy.
    pose proof (dz_order w h y Hw3 Hh3 Hy).
    rewrite (zsum_ext _ (fun x => if (dz_xs w h y <=? x) && (x <? dz_xe w h y) then 1 else 0)).
    - rewrite (zsum_window (fun _ => 1)) by lia. rewrite zsum_const; unfold rowlen; lia.
    - intros x Hx. unfold band. fold w h. rewrite dz_band by lia. reflexivity. }
  rewrite E1, E2. f_equal. lia.
Qed.

(** * Alternations *)

Section Alt.
Variable get : Z -> res bool.
Variable first w : Z.
Variable f : Z -> bool.
Hypothesis Hw : 1 <= w < 4294967296.
Hypothesis Hget : forall i, 0 <= i < w -> get (first + i) = Ok (f i).
Let chg i := if Bool.eqb (f i) (f (i + 1)) then 0 else 1.

Lemma next_alternation_ok j :
  0 <= j < w ->
  exists j', next_alternation get (first + j) (first + w) = Ok (negb (j' =? w), first + j') /\
    j < j' <= w /\ (forall i, j <= i < j' -> f i = f j) /\ (j' < w -> f j' <> f j).
Proof.
  intros Hj. unfold next_alternation. rewrite Hget by exact Hj. cbn [bind].
  replace (first + w - (first + j)) with (w - j) by lia.
  match goal with |- context [loop ?n0 ?b0 ?s0] => edestruct (@loop_total Z Z b0) with
    (I := fun it => exists i, it = first + i /\ j <= i <= w /\ forall l, j <= l < i -> f l = f j)
    (m := fun it => Z.to_nat (w - (it - first)))
    (Q := fun it => exists j', it = first + j' /\ j < j' <= w /\ (forall i, j <= i < j' -> f i = f j) /\
                    (j' < w -> f j' <> f j)) (fuel := n0) (s := s0)
    as (r & E & HQ) end.
  { intros it (i & -> & Hi & Hl). destruct (Z.eqb_spec (first + i) (first + w)) as [Eq|Ne].
    - exists i. split; [reflexivity|]. split; [lia|]. split; [exact Hl|lia].
    - rewrite Hget by lia. cbn [bind]. destruct (Bool.eqb (f i) (f j)) eqn:Eb.
      + apply eqb_prop in Eb. split; [|lia]. exists (i + 1). split; [lia|]. split; [lia|].
        intros l Hll. destruct (Z.eq_dec l i) as [->|]; [exact Eb|]. apply Hl; lia.
      + apply eqb_false_iff in Eb. exists i. split; [reflexivity|].
        assert (i <> j) by congruence. split; [lia|]. split; [exact Hl|]. auto. }
  { exists j. split; [reflexivity|]. split; [lia|]. intros; lia. }
  { lia. }
  destruct HQ as (j' & -> & Hj' & H1 & H2). rewrite E. cbn [bind]. exists j'. split; [|auto].
  f_equal. f_equal. lia.
Qed.

Lemma chg_const j j' : j < j' -> (forall i, j <= i < j' -> f i = f j) ->
  0 <= j -> zsum chg (j' - 1) = zsum chg j.
Proof.
  intros Hjj Hc Hj0. replace (j' - 1) with (j + (j' - 1 - j)) by lia.
  rewrite zsum_split by lia. rewrite (zsum_zero _ (j' - 1 - j)); [lia|].
  intros i Hi. unfold chg. rewrite (Hc (j + i)), (Hc (j + i + 1)) by lia. now rewrite eqb_reflx.
Qed.

Lemma chg_bound n : 0 <= n -> 0 <= zsum chg n <= n.
Proof.
  intros Hn. split.
  - apply zsum_nonneg; intros; unfold chg; destruct (Bool.eqb _ _); lia.
  - transitivity (zsum (fun _ => 1) n); [|rewrite zsum_const; lia].
    apply zsum_le; intros; unfold chg; destruct (Bool.eqb _ _); lia.
Qed.

Lemma make_alternations_ok : make_alternations get first w = Ok (line_alternation f w).
Proof.
  unfold make_alternations.
  assert (E0 : get first = Ok (f 0)) by (rewrite <- (Hget 0) by lia; f_equal; lia).
  rewrite E0. cbn [bind].
  match goal with |- loop ?n0 ?b0 ?s0 = _ => edestruct (@loop_total (Z * Z) alternation b0) with
    (I := fun '((it, count) : Z * Z) => exists j, it = first + j /\ 0 <= j < w /\ count = 1 + zsum chg j)
    (m := fun '((it, count) : Z * Z) => Z.to_nat (w - (it - first)))
    (Q := fun a => a = line_alternation f w) (fuel := n0) (s := s0)
    as (r & E & HQ) end.
  4: { rewrite E. now f_equal. }
  2: { exists 0. split; [lia|]. split; [lia|]. rewrite zsum_0; lia. }
  2: { cbv beta iota. lia. }
  intros (it & count) (j & -> & Hj & ->).
  destruct (next_alternation_ok j Hj) as (j' & -> & Hj' & Hc & Hn). cbn [bind].
  destruct (Z.eqb_spec j' w) as [->|Ne]; cbn [negb].
  - unfold line_alternation, run_count. f_equal. fold chg.
    rewrite (chg_const j w) by (auto; lia). reflexivity.
  - split; [|lia]. exists j'. split; [reflexivity|]. split; [lia|].
    pose proof (chg_bound j ltac:(lia)). rewrite u32_small by lia.
    replace j' with (j' - 1 + 1) at 1 by lia. rewrite zsum_S by lia.
    rewrite (chg_const j j') by (auto; lia). unfold chg at 3. replace (j' - 1 + 1) with j' by lia.
    rewrite (Hc (j' - 1)) by lia. destruct (Bool.eqb (f j) (f j')) eqn:Eb; [|lia].
    apply eqb_prop in Eb. specialize (Hn ltac:(lia)). congruence.
Qed.
End Alt.

Lemma line_alternation_ext f g n : 1 <= n -> (forall i, 0 <= i < n -> f i = g i) ->
  line_alternation f n = line_alternation g n.
Proof.
  intros Hn H. unfold line_alternation, run_count. rewrite (H 0) by lia. f_equal. f_equal.
  apply zsum_ext. intros i Hi. now rewrite (H i), (H (i + 1)) by lia.
Qed.

Lemma alt_row_ok img y :
  wf_image img -> 1 <= iw img -> 0 <= y < ih img ->
  alt_row img y = Ok (line_alternation (fun x => ink img x y) (iw img)).
Proof.
  intros Hwf Hw Hy. assert (Hwf' := Hwf). destruct Hwf' as (Hw' & Hh & Ha & Hl).
  unfold alt_row. rewrite to_size_t_wf by (auto; nia).
  apply make_alternations_ok; [lia|]. intros i Hi. unfold normal_pixel.
  replace (y * iw img + 0 + i) with (y * iw img + i) by lia.
  rewrite rd_pix by auto. cbn [bind]. f_equal. symmetry. now apply ink_pget.
Qed.

Lemma existsb_zrange_S (P : Z -> bool) n : 0 <= n ->
  existsb P (zrange (n + 1)) = existsb P (zrange n) || P n.
Proof. intros. rewrite zrange_S by auto. rewrite existsb_app. simpl. now rewrite orb_false_r. Qed.

Lemma any_pixel_ok img y h x :
  wf_image img -> 0 <= x < iw img -> 0 <= y -> 0 <= h -> y + h <= ih img ->
  any_pixel (idata img) h (iw img) (y * iw img + x) = Ok (column_ink img y (y + h) x).
Proof.
  intros Hwf Hx Hy Hh Hyh. assert (Hwf' := Hwf). destruct Hwf' as (Hw' & Hh' & Ha & Hl).
  unfold any_pixel. rewrite u32_small by nia.
  match goal with |- loop ?n0 ?b0 ?s0 = _ => edestruct (@loop_total Z bool b0) with
    (I := fun p => exists i, p = (y + i) * iw img + x /\ 0 <= i <= h /\
            existsb (fun k => ink img x (y + k)) (zrange i) = false)
    (m := fun p => Z.to_nat (h - ((p - x) / iw img - y)))
    (Q := fun r => r = column_ink img y (y + h) x) (fuel := n0) (s := s0)
    as (r & E & HQ) end.
  4: { rewrite E. now f_equal. }
  2: { exists 0. split; [lia|]. split; [lia|reflexivity]. }
  2: { cbv beta. replace (y * iw img + x - x) with (y * iw img) by lia. rewrite Z.div_mul by lia. lia. }
  cbv beta. intros p (i & -> & Hi & Hn). unfold column_ink. replace (y + h - y) with h by lia.
  destruct (Z.eqb_spec ((y + i) * iw img + x) (y * iw img + x + h * iw img)) as [Eq|Ne].
  - assert (i = h) by nia. subst i. symmetry; exact Hn.
  - assert (i <> h) by (intro; subst; lia).
    rewrite rd_pix by (auto; lia). cbn [bind].
    rewrite <- ink_pget by (auto; lia). destruct (ink img x (y + i)) eqn:Ei.
    + symmetry. apply existsb_exists. exists i. split; [apply zrange_In; lia|exact Ei].
    + split.
      * exists (i + 1). split; [lia|]. split; [lia|]. rewrite existsb_zrange_S by lia. now rewrite Hn, Ei.
      * replace ((y + i) * iw img + x + iw img - x) with ((y + i + 1) * iw img) by lia.
        replace ((y + i) * iw img + x - x) with ((y + i) * iw img) by lia.
        rewrite !Z.div_mul by lia. lia.
Qed.

Lemma alt_block_ok img y h :
  wf_image img -> 1 <= iw img -> 0 <= y -> 0 <= h -> y + h <= ih img ->
  alt_block img y h = Ok (line_alternation (fun x => column_ink img y (y + h) x) (iw img)).
Proof.
  intros Hwf Hw Hy Hh Hyh. assert (Hwf' := Hwf). destruct Hwf' as (Hw' & Hh' & Ha & Hl).
  unfold alt_block. rewrite to_size_t_wf by (auto; try lia; nia).
  apply make_alternations_ok; [lia|]. intros i Hi.
  replace (y * iw img + 0 + i) with (y * iw img + i) by lia.
  now apply any_pixel_ok.
Qed.
