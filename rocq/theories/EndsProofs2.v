(** Every run ends: the features. *)
From Verif Require Import Base BaseProofs SortModel ImageModel StratModel ZoneModel DatasModel TrieModel EndsSpec EndsProofs.

(** A walk of step [w]: it stops at the latest after [k] steps. *)
Lemma ends_walk {St R} (pos : St -> Z) (live : Z -> Prop) (body : St -> res (St + R)) p0 w k :
  (forall s, ends (body s)) -> (forall s s', body s = Ok (inl s') -> pos s' = pos s + w /\ live (pos s)) -> 0 <= w -> 0 <= k -> ~ live (p0 + k * w) ->
  forall fuel s, pos s = p0 -> (Z.to_nat k < fuel)%nat -> ends (loop fuel body s).
Proof.
  intros Hb Hs Hw Hk Hd fuel s0 E0 Hf.
  apply (ends_loop (fun s => exists j, 0 <= j <= k /\ pos s = p0 + j * w) (fun s => Z.to_nat (k - (pos s - p0) / w))).
  - intros s _. apply Hb.
  - intros s s' (j & Hj & Ep) H. apply Hs in H as (E & L). rewrite Ep in *.
    assert (j <> k) by (intros ->; contradiction). assert (w <> 0). { intros ->. apply Hd. rewrite !Z.mul_0_r in *. exact L. }
    split; [exists (j + 1); lia|]. rewrite E. replace (p0 + j * w + w - p0) with ((j + 1) * w) by lia. replace (p0 + j * w - p0) with (j * w) by lia.
    rewrite !Z.div_mul by lia. lia.
  - exists 0. lia.
  - rewrite E0. replace (p0 - p0) with 0 by lia. rewrite Zdiv_0_l. lia.
Qed.

Lemma ends_scan data p ep inc acc : p <= ep \/ vsize data <= p -> ends (scan data p ep inc acc).
Proof.
  intros H. unfold scan. destruct (Z.le_gt_cases p ep) as [L|L].
  - apply (ends_walk fst (fun q => q <> ep) _ p 1 (ep - p)); [| |lia|lia|lia|reflexivity|lia].
    + intros (q & a). ends_auto.
    + intros (q & a) (q2 & a2). destruct (Z.eqb_spec q ep) as [E|E]; [discriminate|]. intros H1. apply bind_Ok in H1 as (v & _ & H1). injection H1 as <- _. auto.
  - replace (Z.to_nat (ep - p)) with 0%nat by lia. cbn [loop]. destruct (Z.eqb_spec p ep); [lia|]. rewrite rd_UB by (unfold vsize in H; lia). discriminate.
Qed.
Lemma scan_inside data p ep inc acc r : scan data p ep inc acc = Ok r -> ep = p \/ ep <= vsize data.
Proof.
  unfold scan. apply (loop_inv (fun '(q, _) => q = p \/ q <= vsize data) (fun _ => ep = p \/ ep <= vsize data)); [| |now left].
  - intros (q & a) (q2 & a2) H. destruct (q =? ep); [discriminate|]. intros H1. apply bind_Ok in H1 as (v & E & H1). injection H1 as <- _. apply rd_Ok in E. lia.
  - intros (q & a) x H. destruct (Z.eqb_spec q ep) as [-> |]; [intros _; exact H|]. intros H1. apply bind_Ok in H1 as (v & E & H1). discriminate.
Qed.

Lemma half_range h : 0 <= h < 4294967296 -> 0 <= h / 2 /\ 2 * (h / 2) <= h < 2 * (h / 2) + 2 /\ (Z.odd h = true -> h = 2 * (h / 2) + 1) /\ (Z.odd h = false -> h = 2 * (h / 2)).
Proof.
  intros H. pose proof (Z.div_mod h 2 ltac:(lia)) as E. pose proof (Z.mod_pos_bound h 2 ltac:(lia)). pose proof (Z.div_pos h 2 ltac:(lia) ltac:(lia)).
  split; [lia|]. split; [lia|]. rewrite Zmod_odd in E. destruct (Z.odd h); split; intros; try discriminate; lia.
Qed.
Lemma size_t_0 img y : to_size_t img 0 y = u32 (y * iw img).
Proof. unfold to_size_t. now rewrite Z.add_0_r, u32_u32. Qed.

Lemma ends_horizontal_direction img : sane img -> ends (horizontal_direction img).
Proof.
  intros (Hw & Hh & Hl). unfold horizontal_direction. rewrite size_t_0. pose proof (u32_range (ih img / 2 * iw img)). ends_auto.
  all: apply ends_scan; unfold data_end; lia.
Qed.

Lemma ends_box_gravity data w k p ep b : 0 <= w -> 0 <= k -> (0 < w -> p + k * w + w <= vsize data -> p + k * w = ep) -> (w = 0 -> p = ep) ->
  ends (horizontal_box_gravity data w k p ep b).
Proof.
  intros Hw Hk Hd H0. unfold horizontal_box_gravity.
  apply (ends_walk (fun '(q, _, _) => q) (fun q => q <> ep /\ (w = 0 \/ q + w <= vsize data)) _ p w k); [| |lia|lia|lia|reflexivity|lia].
  - intros ((q & h) & g). ends_auto. apply ends_scan. lia.
  - intros ((q & h) & g) ((q2 & h2) & g2). destruct (Z.eqb_spec q ep) as [E|E]; [discriminate|]. intros H. apply bind_Ok in H as (v & E1 & H). injection H as <- _ _.
    split; [reflexivity|]. split; [exact E|]. apply scan_inside in E1. lia.
Qed.
Lemma ends_horizontal_gravity img : sane img -> ends (horizontal_gravity img).
Proof.
  intros (Hw & Hh & Hl). unfold horizontal_gravity. rewrite size_t_0. pose proof (half_range _ Hh) as (K0 & K1 & K2 & K3).
  set (k := ih img / 2) in *. clearbody k. set (w := iw img) in *. pose proof (area_range img) as Ha. unfold data_end.
  assert (B : forall o, (o = 0 /\ ih img = 2 * k) \/ (o = w /\ ih img = 2 * k + 1) -> 0 < w ->
    u32 (k * w) + o + k * w + w <= vsize (idata img) -> u32 (k * w) + o + k * w = area img).
  { intros o Ho W H. pose proof (u32_range (k * w)). assert (k * w < 4294967296) by nia. rewrite (u32_small (k * w)) in * by nia.
    unfold area in *. fold w in Ha, Hl |- *. assert (0 <= w * ih img < 4294967296) by (destruct Ho as [[-> ->]|[-> ->]]; nia). rewrite u32_small in * by lia. destruct Ho as [[-> E]|[-> E]]; rewrite E in *; nia. }
  ends_auto.
  - apply ends_box_gravity; [lia|lia| |].
    + intros W H. assert (k * w < 4294967296) by nia. rewrite u32_small by nia. lia.
    + intros ->. rewrite Z.mul_0_r. reflexivity.
  - destruct (Z.odd (ih img)); apply ends_box_gravity; [lia|lia| | |lia|lia| |].
    + apply B. right. split; [reflexivity|now apply K2].
    + intros W. unfold area. fold w. rewrite W, Z.mul_0_r. reflexivity.
    + intros W H. specialize (B 0). rewrite Z.add_0_r in B. apply B; [left; split; [reflexivity|now apply K3]|exact W|exact H].
    + intros W. unfold area. fold w. rewrite W, Z.mul_0_r. reflexivity.
Qed.

Lemma ends_margin w n : ends (dv_margin w n).
Proof. unfold dv_margin. ends_auto. Qed.
Lemma margin_half w n x : dv_margin w n = Ok x -> 0 <= w < 4294967296 -> 0 <= n -> n <> 0 /\ 0 <= x /\ 2 * x <= w.
Proof.
  unfold dv_margin, divu. destruct (Z.eqb_spec n 0); [discriminate|]. cbn [bind]. intros E Hw Hn. injection E as <-.
  pose proof (Z.div_le_upper_bound w n w ltac:(lia) ltac:(nia)). pose proof (Z.div_pos w n ltac:(lia) ltac:(lia)).
  pose proof (Z.div_le_mono (w / n) w 2 ltac:(lia) ltac:(lia)). pose proof (Z.div_pos (w / n) 2 ltac:(lia) ltac:(lia)). pose proof (Z.mul_div_le w 2 ltac:(lia)).
  rewrite u32_small; lia.
Qed.
Lemma row_fuel_big w h : 0 <= h -> h < 4294967296 -> (Z.to_nat h < row_fuel w h)%nat.
Proof. intros H1 H2. unfold row_fuel. destruct (w * h <? 4294967296); lia. Qed.

(** A loop over rows whose counter divides: from the top the divisor is the number of
    the row plus one, from the bottom what is left of [k]. *)
Lemma ends_rows {St R} (pos cnt : St -> Z) (body : St -> res (St + R)) (is_top : bool) p0 w k ep :
  (forall s, ends (body s)) ->
  (forall s s', body s = Ok (inl s') -> pos s' = pos s + w /\ pos s <> ep /\ cnt s' = u32 (cnt s + 1) /\ (if is_top then u32 (1 + cnt s) else u32 (k - cnt s)) <> 0) ->
  0 <= w < 4294967296 -> 0 <= k < 4294967296 -> (is_top = true -> w * k < 4294967296 -> p0 + k * w = ep) ->
  forall s, pos s = p0 -> cnt s = 0 -> ends (loop (row_fuel w k) body s).
Proof.
  intros Hb Hs Hw Hk Hd s Ep Ec. destruct is_top.
  - destruct (Z.lt_ge_cases (w * k) 4294967296) as [L|L].
    + apply (ends_walk pos (fun q => q <> ep) _ p0 w k); [exact Hb| |lia|lia|intros N; apply N, Hd; auto|exact Ep|apply row_fuel_big; lia].
      intros s1 s2 H. apply Hs in H as (? & ? & _). auto.
    + apply (ends_loop (fun s => 0 <= cnt s < 4294967296) (fun s => Z.to_nat (4294967296 - cnt s))); [intros s1 _; apply Hb| |lia|].
      * intros s1 s2 H1 H. apply Hs in H as (_ & _ & E & N).
        assert (cnt s1 <> 4294967295). { intros E1. apply N. rewrite E1. reflexivity. }
        rewrite u32_small in E by lia. lia.
      * rewrite Ec. unfold row_fuel. destruct (Z.ltb_spec (w * k) 4294967296); lia.
  - apply (ends_loop (fun s => 0 <= cnt s <= k) (fun s => Z.to_nat (k - cnt s))); [intros s1 _; apply Hb| |lia|].
    + intros s1 s2 H1 H. apply Hs in H as (_ & _ & E & N).
      assert (cnt s1 <> k). { intros E1. apply N. rewrite E1, Z.sub_diag. reflexivity. }
      rewrite u32_small in E by lia. lia.
    + rewrite Ec. apply (Nat.le_lt_trans _ (Z.to_nat k)); [lia|]. apply row_fuel_big; lia.
Qed.

Lemma ends_count_direction data w k p ep b : 0 <= w < 4294967296 -> 0 <= k < 4294967296 -> (b = true -> w * k < 4294967296 -> p + k * w = ep) ->
  ends (count_diagonal_vertical_direction data w k p ep b).
Proof.
  intros Hw Hk Hd. unfold count_diagonal_vertical_direction.
  apply (ends_rows (fun '(q, _, _) => q) (fun '(_, c, _) => c) _ b p w k ep); auto.
  - intros ((q & c) & d). ends_auto; [apply ends_margin|]. apply ends_scan. apply margin_half in E; [|lia|destruct b; apply u32_range]. lia.
  - intros ((q & c) & d) ((q2 & c2) & d2). destruct (Z.eqb_spec q ep) as [E|E]; [discriminate|]. intros H. apply bind_Ok in H as (x & E1 & H). apply bind_Ok in H as (d3 & E2 & H).
    injection H as <- <- _. apply margin_half in E1; [|lia|destruct b; apply u32_range]. destruct b; intuition.
Qed.
Lemma ends_count_gravity data w k p ep b : 0 <= w < 4294967296 -> 0 <= k < 4294967296 -> (b = true -> w * k < 4294967296 -> p + k * w = ep) ->
  ends (count_diagonal_vertical_gravity data w k p ep b).
Proof.
  intros Hw Hk Hd. unfold count_diagonal_vertical_gravity.
  apply (ends_rows (fun '(q, _, _, _) => q) (fun '(_, c, _, _) => c) _ b p w k ep); auto.
  - intros (((q & c) & f) & d). ends_auto; [apply ends_margin|]. apply ends_scan. apply margin_half in E; [|lia|destruct b; apply u32_range]. lia.
  - intros (((q & c) & f) & d) (((q2 & c2) & f2) & d2). destruct (Z.eqb_spec q ep) as [E|E]; [discriminate|]. intros H. apply bind_Ok in H as (x & E1 & H). apply bind_Ok in H as (d3 & E2 & H).
    injection H as <- <- _ _. apply margin_half in E1; [|lia|destruct b; apply u32_range]. destruct b; intuition.
Qed.
Lemma ends_dv_direction img : sane img -> ends (diagonal_vertical_direction img).
Proof.
  intros (Hw & Hh & Hl). unfold diagonal_vertical_direction. rewrite size_t_0. pose proof (half_range _ Hh) as (K0 & K1 & _).
  ends_auto; apply ends_count_direction; try lia; try discriminate. intros _ H. rewrite u32_small; nia.
Qed.
Lemma ends_dv_gravity img : sane img -> ends (diagonal_vertical_gravity img).
Proof.
  intros (Hw & Hh & Hl). unfold diagonal_vertical_gravity. rewrite size_t_0. pose proof (half_range _ Hh) as (K0 & K1 & _).
  ends_auto; apply ends_count_gravity; try lia; try discriminate. intros _ H. rewrite u32_small; nia.
Qed.
Lemma ends_dv_direction_area img : sane img -> ends (diagonal_vertical_direction_area img).
Proof.
  intros (Hw & Hh & Hl). unfold diagonal_vertical_direction_area. rewrite size_t_0. pose proof (half_range _ Hh) as (K0 & K1 & _). ends_auto.
  apply (ends_rows (fun '(q, _, _) => q) (fun '(_, c, _) => c) _ true 0 (iw img) (ih img / 2) (u32 (ih img / 2 * iw img))); auto; try lia.
  - intros ((q & c) & d). ends_auto. apply ends_margin.
  - intros ((q & c) & d) ((q2 & c2) & d2). destruct (Z.eqb_spec q (u32 (ih img / 2 * iw img))) as [E|E]; [discriminate|]. intros H. apply bind_Ok in H as (x & E1 & H).
    injection H as <- <- _. apply margin_half in E1; [|lia|apply u32_range]. intuition.
  - intros _ H. rewrite u32_small; nia.
Qed.
Lemma ends_dv_gravity_area img : sane img -> ends (diagonal_vertical_gravity_area img).
Proof.
  intros (Hw & Hh & Hl). unfold diagonal_vertical_gravity_area. rewrite size_t_0. pose proof (half_range _ Hh) as (K0 & K1 & _). ends_auto.
  set (k := ih img / 2) in *.
  apply (ends_loop (fun '(_, c, _) => 0 <= c <= k) (fun '(_, c, _) => Z.to_nat (k - c))).
  - intros ((q & c) & d) _. ends_auto. apply ends_margin.
  - intros ((q & c) & d) ((q2 & c2) & d2) Hc. destruct (q =? _); [discriminate|]. intros H. apply bind_Ok in H as (x & E1 & H).
    injection H as <- <- _. apply margin_half in E1 as (N & _); [|lia|apply u32_range].
    assert (c <> k) by (intros ->; apply N; rewrite Z.sub_diag; reflexivity). rewrite u32_small by lia. lia.
  - lia.
  - lia.
Qed.

Lemma ends_density img : ends (density img).
Proof. unfold density. ends_auto. apply ends_scan. unfold data_end. pose proof (area_range img). lia. Qed.
Lemma ends_proportionality img : ends (proportionality img).
Proof. unfold proportionality. ends_auto. Qed.
Lemma ends_dzdensity img : ends (dzdensity img).
Proof. unfold dzdensity. ends_auto. apply ends_scan. apply Z.ltb_ge in Heqb0. left. lia. Qed.

Lemma ends_all_letters data p w : 0 <= w -> ends (all_letters data p w).
Proof.
  intros Hw. unfold all_letters. apply (ends_walk (fun q => q) (fun q => q <> p + w) _ p 1 w); [| |lia|lia|lia|reflexivity|lia].
  - intros q. ends_auto.
  - intros q q2. destruct (Z.eqb_spec q (p + w)) as [E|E]; [discriminate|]. intros H. apply bind_Ok in H as (v & _ & H). destruct (is_pix_letter v); [|discriminate]. injection H as <-. auto.
Qed.
Lemma all_letters_read data p w b : all_letters data p w = Ok b -> 0 < w -> 0 <= p < vsize data.
Proof.
  unfold all_letters. cbn [loop]. destruct (Z.eqb_spec p (p + w)); [lia|]. intros H _. destruct (rd data p) as [v| | |] eqn:E; try discriminate H. now apply rd_Ok in E.
Qed.
Lemma ends_hbar img : sane img -> ends (hbar img).
Proof.
  intros (Hw & Hh & Hl). unfold hbar. pose proof (area_range img) as Ha.
  apply (ends_walk (fun '(q, _, _) => q) (fun q => q <> data_end img /\ (iw img = 0 \/ q < vsize (idata img))) _ 0 (iw img) (ih img)); [| |lia|lia| |reflexivity|lia].
  - intros ((q & b) & n). ends_auto. apply ends_all_letters. lia.
  - intros ((q & b) & n) ((q2 & b2) & n2). destruct (Z.eqb_spec q (data_end img)) as [E|E]; [discriminate|]. intros H. apply bind_Ok in H as (v & E1 & H).
    assert (q2 = q + iw img) as -> by (destruct v; injection H as <- _ _; reflexivity). split; [reflexivity|]. split; [exact E|].
    destruct (Z.eq_dec (iw img) 0) as [E0|E0]; [now left|right]. apply all_letters_read in E1; lia.
  - unfold data_end, area in *. intros [N L]. destruct (Z.lt_ge_cases (iw img * ih img) 4294967296) as [S|S].
    + rewrite u32_small in N by nia. lia.
    + destruct L as [L|L]; [rewrite L in S|]; lia.
Qed.

Lemma ends_any_pixel data h step p : 0 <= h -> 0 <= step -> 0 <= p -> vsize data < 4294967296 -> ends (any_pixel data h step p).
Proof.
  intros Hh Hs Hp Hd. unfold any_pixel. pose proof (u32_range (h * step)).
  apply (ends_walk (fun q => q) (fun q => q <> p + u32 (h * step) /\ q < vsize data) _ p step h); [| |lia|lia| |reflexivity|lia].
  - intros q. ends_auto.
  - intros q q2. destruct (Z.eqb_spec q (p + u32 (h * step))) as [E|E]; [discriminate|]. intros H1. apply bind_Ok in H1 as (v & E1 & H1). destruct (is_pix_letter v); [discriminate|].
    injection H1 as <-. apply rd_Ok in E1. repeat split; lia.
  - intros [N L]. destruct (Z.lt_ge_cases (h * step) 4294967296) as [S|S]; [rewrite u32_small in N by nia|]; lia.
Qed.
Lemma ends_next_alternation get it last : (forall i, 0 <= i -> ends (get i)) -> 0 <= it <= last -> ends (next_alternation get it last).
Proof.
  intros Hg Hi. unfold next_alternation. ends_auto; [apply Hg; lia|].
  apply (ends_loop (fun i => it <= i <= last) (fun i => Z.to_nat (last - i))); [| |lia|lia].
  - intros i I. ends_auto. apply Hg. lia.
  - intros i i2 I. destruct (Z.eqb_spec i last) as [E1|E1]; [discriminate|]. intros H. apply bind_Ok in H as (b & _ & H). destruct (Bool.eqb b x); [|discriminate]. injection H as <-. lia.
Qed.
Lemma next_alternation_goes get it last it' : next_alternation get it last = Ok (true, it') -> it <= last -> it < it' <= last.
Proof.
  unfold next_alternation. intros H L. apply bind_Ok in H as (x & E & H). apply bind_Ok in H as (i & E1 & H). injection H as Hm <-. cbn [loop] in E1.
  destruct (Z.eqb_spec it last) as [-> |N].
  - injection E1 as <-. now rewrite Z.eqb_refl in Hm.
  - rewrite E in E1. cbn [bind] in E1. rewrite Bool.eqb_reflx in E1. revert E1.
    apply (loop_inv (fun i => it < i <= last) (fun i => it < i <= last)); [| |lia].
    + intros j j2 J. destruct (Z.eqb_spec j last); [discriminate|]. intros H. apply bind_Ok in H as (b & _ & H). destruct (Bool.eqb b x); [|discriminate]. injection H as <-. lia.
    + intros j r J. destruct (Z.eqb_spec j last); [intros H; injection H as <-; exact J|]. intros H. apply bind_Ok in H as (b & _ & H). destruct (Bool.eqb b x); [discriminate|]. injection H as <-. exact J.
Qed.
Lemma ends_make_alternations get first w : (forall i, 0 <= i -> ends (get i)) -> 0 <= first -> 0 <= w -> ends (make_alternations get first w).
Proof.
  intros Hg Hf Hw. unfold make_alternations. ends_auto; [now apply Hg|].
  apply (ends_loop (fun '(it, _) => first <= it <= first + w) (fun '(it, _) => Z.to_nat (first + w - it))); [| |lia|].
  - intros (it & n) I. ends_auto. apply ends_next_alternation; [exact Hg|lia].
  - intros (it & n) (it2 & n2) I H. apply bind_Ok in H as ((more & it') & E1 & H). destruct more; [|discriminate]. injection H as <- _. apply next_alternation_goes in E1; lia.
  - cbv beta iota. replace (first + w - first) with w by lia. lia.
Qed.
Lemma ends_alt_row img y : sane img -> ends (alt_row img y).
Proof. intros (Hw & _). apply ends_make_alternations; [|apply u32_range|lia]. intros i _. unfold normal_pixel. ends_auto. Qed.
Lemma ends_alt_block img y h : sane img -> 0 <= h -> ends (alt_block img y h).
Proof.
  intros (Hw & Hh & Hl) H0. pose proof (area_range img). apply ends_make_alternations; [|apply u32_range|lia]. intros i Hi. apply ends_any_pixel; lia.
Qed.
Lemma ends_alternations img img90 : sane img -> sane img90 -> ends (alternations img img90).
Proof.
  intros S1 S2. pose proof S1 as (_ & H1 & _). pose proof S2 as (_ & H2 & _). pose proof (Z.div_pos (ih img) 3 ltac:(lia) ltac:(lia)). pose proof (Z.div_pos (ih img90) 3 ltac:(lia) ltac:(lia)).
  unfold alternations. ends_auto; try (apply ends_alt_row; assumption); apply ends_alt_block; assumption.
Qed.
