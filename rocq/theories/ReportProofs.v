From Verif Require Import Base BaseProofs FloatModel FloatSpec FloatProofs DatasModel ZoneModel PipelineModel ReportModel ReportSpec.
From Coq Require Import SpecFloat.

Lemma shift_pos_mul d m : Z.pos (Zpower.shift_pos d m) = Z.pos m * 2 ^ Z.pos d.
Proof. rewrite Zpower.shift_pos_correct, Z.pow_pos_fold. lia. Qed.

(** Rounding what is representable. *)
Lemma round_exact m e : 2 ^ 52 <= Z.pos m < 2 ^ 53 -> -1074 <= e <= 900 ->
  binary_round_aux 53 1024 false (Z.pos m) e loc_Exact = S754_finite false m e.
Proof.
  intros Hm He. assert (D : Z.pos (digits2_pos m) = 53) by (apply digits_unique; exact Hm).
  unfold binary_round_aux, shr_fexp. cbn [Zdigits2 shr_record_of_loc]. rewrite D. fold fexp'.
  replace (fexp' (53 + e) - e) with 0 by (rewrite fexp_eq; lia).
  cbn [shr shr_m loc_of_shr_record round_nearest_even shr_r shr_s Zdigits2]. rewrite D.
  replace (fexp' (53 + e) - e) with 0 by (rewrite fexp_eq; lia).
  cbn [shr shr_m]. change (1024 - 53) with 971. destruct (Z.leb_spec e 971); [reflexivity|lia].
Qed.

(** The double of an integer. *)
Lemma double_of_normal n : 0 < n < 2 ^ 53 ->
  exists m e, double_of n = S754_finite false m e /\ 2 ^ 52 <= Z.pos m < 2 ^ 53 /\ -53 <= e <= 0.
Proof.
  intros Hn. destruct n as [|p|p]; [lia| |lia].
  unfold double_of, binary_normalize, binary_round. fold fexp'. rewrite Z.add_0_r.
  pose proof (digits_bounds p) as B. set (d := Z.pos (digits2_pos p)) in *.
  assert (Hd : 1 <= d <= 53).
  { split; [unfold d; lia|]. destruct (Z.le_gt_cases d 53); [assumption|].
    assert (2 ^ 53 <= 2 ^ (d - 1)) by (apply Z.pow_le_mono_r; lia). lia. }
  replace (fexp' d) with (d - 53) by (rewrite fexp_eq; lia). unfold shl_align.
  destruct (d - 53 - 0) as [|k|k] eqn:Ek; [|lia|].
  - assert (Ed : d = 53) by lia. rewrite Ed in *. exists p, 0. split; [apply round_exact; lia|]. lia.
  - assert (Ed : d = 53 - Z.pos k) by lia. rewrite Ed in *. exists (Zpower.shift_pos k p), (53 - Z.pos k - 53).
    assert (R : 2 ^ 52 <= Z.pos (Zpower.shift_pos k p) < 2 ^ 53).
    { rewrite shift_pos_mul. assert (P : 0 < 2 ^ Z.pos k) by (apply Z.pow_pos_nonneg; lia).
      replace (2 ^ 52) with (2 ^ (53 - Z.pos k - 1) * 2 ^ Z.pos k) by (rewrite <- Z.pow_add_r by lia; f_equal; lia).
      replace (2 ^ 53) with (2 ^ (53 - Z.pos k) * 2 ^ Z.pos k) by (rewrite <- Z.pow_add_r by lia; f_equal; lia).
      split; [apply Z.mul_le_mono_nonneg_r; lia|apply Z.mul_lt_mono_pos_r; lia]. }
    split; [apply round_exact; [exact R|lia]|]. split; [exact R|lia].
Qed.

Lemma div_one m e : 2 ^ 52 <= Z.pos m < 2 ^ 53 -> -53 <= e <= 0 ->
  ddiv (S754_finite false m e) (double_of 1) = S754_finite false m e.
Proof.
  intros Hm He. change (double_of 1) with d1. unfold d1, ddiv, SFdiv, SFdiv_core_binary. cbn [Zdigits2].
  assert (D : Z.pos (digits2_pos m) = 53) by (apply digits_unique; exact Hm). rewrite D.
  change (Z.pos (digits2_pos 4503599627370496)) with 53. fold fexp'.
  replace (Z.min (fexp' (53 + e - (53 + -52))) (e - -52)) with (e - 1) by (rewrite fexp_eq; lia).
  replace (e - -52 - (e - 1)) with 53 by lia. cbv iota beta.
  rewrite Z.shiftl_mul_pow2 by lia.
  replace (Z.pos m * 2 ^ 53) with (2 * Z.pos m * 4503599627370496) by lia.
  assert (E : Z.div_eucl (2 * Z.pos m * 4503599627370496) 4503599627370496 = (2 * Z.pos m, 0)).
  { pose proof (Z_div_mod (2 * Z.pos m * 4503599627370496) 4503599627370496 ltac:(lia)) as M.
    destruct (Z.div_eucl _ _) as [q r]. assert (q = 2 * Z.pos m) by lia. assert (r = 0) by lia. congruence. }
  rewrite E. cbn [xorb]. change (new_location 4503599627370496 0) with loc_Exact.
  change (2 * Z.pos m) with (Z.pos m~0).
  assert (D2 : Z.pos (digits2_pos m~0) = 54) by (apply digits_unique; rewrite Pos2Z.inj_xO; lia).
  destruct (round_aux_ok m~0 (e - 1)) as (q & Rq & Hq & ->); [rewrite D2, fexp_eq; lia|rewrite D2, fexp_eq; lia|].
  rewrite D2 in *. replace (fexp' (54 + (e - 1))) with e in * by (rewrite fexp_eq; lia).
  replace (e - (e - 1)) with 1 in Rq by lia. unfold rounds in Rq. change (2 ^ 1) with 2 in Rq.
  assert (Eq2 : q = Z.pos m).
  { rewrite Pos2Z.inj_xO in Rq. replace (2 * Z.pos m) with (Z.pos m * 2) in Rq by lia. rewrite Z.div_mul, Z.mod_mul in Rq by lia. lia. }
  rewrite Eq2. destruct (Z.eqb_spec (Z.pos m) (2 ^ 53)); [lia|reflexivity].
Qed.

Lemma rate_ok count size : 0 <= count -> count * 100 < 4294967296 -> size <> 0 ->
  unrecognized_rate count size = double_of (100 * count).
Proof.
  intros Hc Hb Hs. unfold unrecognized_rate. rewrite u32_small by lia. destruct (Z.eqb_spec size 0); [contradiction|].
  rewrite (Z.mul_comm count). destruct (Z.eq_dec count 0) as [->|N]; [reflexivity|].
  destruct (double_of_normal (100 * count)) as (m & e & -> & Hm & He); [lia|]. now apply div_one.
Qed.

Lemma rate_percentage count size : 0 <= count -> count * 100 < 4294967296 -> 0 < size < 4294967296 ->
  count = 0 \/ size = 1 -> unrecognized_rate count size = percentage count size.
Proof.
  intros Hc Hb Hs H. rewrite rate_ok by lia. unfold percentage. destruct (Z.eq_dec count 0) as [->|N].
  - destruct (double_of_normal size) as (m & e & -> & _); [lia|]. reflexivity.
  - destruct H as [H|H]; [contradiction|]. subst size.
    destruct (double_of_normal (100 * count)) as (m & e & -> & Hm & He); [lia|]. symmetry. now apply div_one.
Qed.

Lemma report_rate rt cx glyphs datas image lines dict f :
  report rt cx glyphs datas image lines dict = Ok f ->
  0 <= f_unrecognized f -> f_unrecognized f * 100 < 4294967296 -> f_count f <> 0 ->
  f_rate f = double_of (100 * f_unrecognized f).
Proof.
  unfold report. intros H. destruct (extract_text _ _ _ _ _ _ _) as [[[text count] size]| | |]; try discriminate H.
  injection H as <-. cbn [f_unrecognized f_count f_rate]. intros. now apply rate_ok.
Qed.
