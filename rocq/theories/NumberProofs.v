From Verif Require Import Base BaseProofs FloatModel FloatSpec FloatProofs NumberModel NumberSpec.
From Coq Require Import SpecFloat.

(** * almost_equal *)
Lemma sub_self x : finite_double x -> dabs (dsub x x) = d0.
Proof.
  destruct x as [s|s| |s m e]; cbn [finite_double]; try contradiction; intros _.
  - destruct s; reflexivity.
  - unfold dsub, SFsub. rewrite Z.sub_diag. reflexivity.
Qed.
Lemma almost_refl x ulp : finite_double x -> almost_equal x x ulp = true.
Proof. intros H. unfold almost_equal. rewrite (sub_self x H). apply orb_true_r. Qed.

Lemma abs_round s m e : dabs (binary_round 53 1024 s m e) = dabs (binary_round 53 1024 false m e).
Proof.
  unfold binary_round. destruct (shl_align m e _) as [mz ez]. unfold binary_round_aux. destruct (shr_fexp _ _ _ _ _) as [r1 e1].
  destruct (shr_fexp _ _ _ e1 _) as [r2 e2]. destruct (shr_m r2); [reflexivity| |reflexivity]. destruct (_ <=? _); reflexivity.
Qed.
Lemma abs_normalize m e b : dabs (binary_normalize 53 1024 (- m) e b) = dabs (binary_normalize 53 1024 m e b).
Proof. destruct m; cbn [binary_normalize Z.opp]; [reflexivity|apply abs_round|symmetry; apply abs_round]. Qed.

Lemma abs_sub_comm x y : dabs (dsub x y) = dabs (dsub y x).
Proof.
  unfold dsub. destruct x as [s|s| |s m e], y as [s'|s'| |s' m' e']; cbn [SFsub]; try reflexivity; try (destruct s, s'; reflexivity).
  rewrite Z.min_comm. rewrite <- abs_normalize. f_equal. f_equal. lia.
Qed.
Lemma add_comm x y : dadd x y = dadd y x.
Proof.
  unfold dadd. destruct x as [s|s| |s m e], y as [s'|s'| |s' m' e']; cbn [SFadd]; try reflexivity; try (destruct s, s'; reflexivity).
  rewrite Z.min_comm. now rewrite Z.add_comm.
Qed.
Lemma almost_sym x y ulp : almost_equal x y ulp = almost_equal y x ulp.
Proof. unfold almost_equal. now rewrite abs_sub_comm, add_comm. Qed.

Lemma cond_negb s m : cond_Zopp (negb s) m = - cond_Zopp s m.
Proof. destruct s; cbn; lia. Qed.
Lemma abs_opp_sub x y : dabs (dsub (SFopp x) (SFopp y)) = dabs (dsub x y).
Proof.
  unfold dsub. destruct x as [s|s| |s m e], y as [s'|s'| |s' m' e']; cbn [SFsub SFopp]; try reflexivity; try (destruct s, s'; reflexivity).
  rewrite !cond_negb, <- abs_normalize. f_equal. f_equal. lia.
Qed.
Lemma abs_opp_add x y : dabs (dadd (SFopp x) (SFopp y)) = dabs (dadd x y).
Proof.
  unfold dadd. destruct x as [s|s| |s m e], y as [s'|s'| |s' m' e']; cbn [SFadd SFopp]; try reflexivity; try (destruct s, s'; reflexivity).
  rewrite !cond_negb, <- abs_normalize. f_equal. f_equal. lia.
Qed.
Lemma almost_opp x y ulp : almost_equal (SFopp x) (SFopp y) ulp = almost_equal x y ulp.
Proof. unfold almost_equal. now rewrite abs_opp_sub, abs_opp_add. Qed.

Lemma exact_product m e (p : positive) : 2 ^ 52 <= Z.pos m < 2 ^ 53 -> -1074 <= e -> e <= 900 -> Z.pos p = 2 ^ 52 * Z.pos m ->
  binary_round_aux 53 1024 false (Z.pos p) (e - 52) loc_Exact = S754_finite false m e.
Proof.
  intros Hm He He' Ep.
  assert (D : Z.pos (digits2_pos p) = 105).
  { apply digits_unique. rewrite Ep. change (105 - 1) with (52 + 52). change 105 with (52 + 53). rewrite !Z.pow_add_r by lia. nia. }
  assert (F : fexp' (Z.pos (digits2_pos p) + (e - 52)) = e) by (rewrite D, fexp_eq; lia).
  destruct (round_aux_ok p (e - 52)) as (q & R & Hq & E); [rewrite F; lia|rewrite F; lia|]. rewrite F in R, E. replace (e - (e - 52)) with 52 in R by lia.
  assert (Eq : q = Z.pos m).
  { destruct R as [->|(_ & H)].
    - rewrite Ep, Z.mul_comm, Z.div_mul by lia. reflexivity.
    - exfalso. apply H. rewrite Ep, Z.mul_comm. apply Z_mod_mult. }
  rewrite E, Eq. destruct (Z.eqb_spec (Z.pos m) (2 ^ 53)); [lia|reflexivity].
Qed.

Lemma neighbours_almost x y : neighbours x y -> almost_equal x y 1 = true.
Proof.
  intros (m & e & -> & -> & Hm & He). unfold almost_equal.
  assert (Ed : dabs (dsub (S754_finite false m e) (S754_finite false (m + 1) e)) = S754_finite false 4503599627370496 (e - 52)).
  { unfold dsub, SFsub. rewrite Z.min_id. unfold shl_align at 1 2. rewrite Z.sub_diag. cbn [fst cond_Zopp].
    replace (Z.pos m - Z.pos (m + 1)) with (-1) by lia. cbn [binary_normalize]. rewrite abs_round. unfold binary_round. cbn [digits2_pos].
    replace (SpecFloat.fexp 53 1024 (1 + e)) with (e - 52) by (change (SpecFloat.fexp 53 1024 (1 + e)) with (Z.max (1 + e - 53) (-1074)); lia).
    unfold shl_align. replace (e - 52 - e) with (-52) by lia. change (shift_pos 52 1) with 4503599627370496%positive.
    unfold binary_round_aux, shr_fexp. change (Zdigits2 4503599627370496) with 53. cbn [shr_record_of_loc].
    change (SpecFloat.fexp 53 1024 (53 + (e - 52))) with (Z.max (53 + (e - 52) - 53) (-1074)). replace (Z.max (53 + (e - 52) - 53) (-1074) - (e - 52)) with 0 by lia.
    cbn [shr shr_m loc_of_shr_record round_nearest_even]. change (Zdigits2 4503599627370496) with 53. cbn [shr_record_of_loc].
    change (SpecFloat.fexp 53 1024 (53 + (e - 52))) with (Z.max (53 + (e - 52) - 53) (-1074)). replace (Z.max (53 + (e - 52) - 53) (-1074) - (e - 52)) with 0 by lia.
    cbn [shr shr_m]. change (1024 - 53) with 971. destruct (Z.leb_spec (e - 52) 971); [reflexivity|lia]. }
  assert (Ea : exists m', dabs (dadd (S754_finite false m e) (S754_finite false (m + 1) e)) = S754_finite false m' (e + 1) /\ 2 ^ 52 <= Z.pos m' < 2 ^ 53).
  { unfold dadd, SFadd. rewrite Z.min_id. unfold shl_align at 1 2. rewrite Z.sub_diag. cbn [fst cond_Zopp].
    replace (Z.pos m + Z.pos (m + 1)) with (Z.pos (2 * m + 1)) by lia. cbn [binary_normalize]. unfold binary_round.
    assert (D : Z.pos (digits2_pos (2 * m + 1)) = 54) by (apply digits_unique; change (54 - 1) with (1 + 52); change 54 with (1 + 53); rewrite !Z.pow_add_r by lia; lia).
    change (SpecFloat.fexp 53 1024) with fexp'.
    assert (F : fexp' (Z.pos (digits2_pos (2 * m + 1)) + e) = e + 1) by (rewrite D, fexp_eq; lia).
    rewrite F. unfold shl_align. replace (e + 1 - e) with 1 by lia.
    destruct (round_aux_ok (2 * m + 1) e) as (q & R & Hq & E); [rewrite F; lia|rewrite F; lia|]. rewrite F in R, E. replace (e + 1 - e) with 1 in R by lia. rewrite E.
    assert (Q : Z.pos m <= q <= Z.pos m + 1).
    { replace (Z.pos (2 * m + 1)) with (1 + Z.pos m * 2) in R by lia. destruct R as [->|(-> & _)]; change (2 ^ 1) with 2; rewrite Z.div_add by lia; change (1 / 2) with 0; lia. }
    destruct q as [|m'|]; [lia| |lia]. exists m'. destruct (Z.eqb_spec (Z.pos m') (2 ^ 53)); [lia|]. split; [reflexivity|lia]. }
  destruct Ea as (m' & Ea & Hm'). rewrite Ed, Ea.
  assert (E1 : dmul depsilon (S754_finite false m' (e + 1)) = S754_finite false m' (e - 51)).
  { unfold dmul, depsilon, SFmul. cbn [xorb]. replace (-104 + (e + 1)) with (e - 51 - 52) by lia. apply exact_product; [exact Hm'|lia|lia|]. rewrite Pos2Z.inj_mul. reflexivity. }
  assert (E2 : dmul (S754_finite false m' (e - 51)) (double_of 1) = S754_finite false m' (e - 51)).
  { change (double_of 1) with (S754_finite false 4503599627370496 (-52)). unfold dmul, SFmul. cbn [xorb]. replace (e - 51 + -52) with (e - 51 - 52) by lia.
    apply exact_product; [exact Hm'|lia|lia|]. rewrite Pos2Z.inj_mul. change (Z.pos 4503599627370496) with (2 ^ 52). lia. }
  rewrite E1, E2. unfold dlt, SFltb. cbn [SFcompare]. destruct (Z.compare_spec (e - 52) (e - 51)); [lia|reflexivity|lia].
Qed.

(** ** Without a tolerance: the subnormal differences *)
Lemma shift_pos_ok d m : Z.pos (shift_pos d m) = Z.pos m * 2 ^ Z.pos d.
Proof.
  rewrite shift_pos_correct. rewrite Zpower_pos_nat, Zpower_nat_Z, positive_nat_Z. lia.
Qed.
Lemma pos_ltb m n : (m <? n)%positive = (Z.pos m <? Z.pos n).
Proof. reflexivity. Qed.
Lemma dlt_same m n k : dlt (S754_finite false m k) (S754_finite false n k) = (m <? n)%positive.
Proof. unfold dlt, SFltb. cbn [SFcompare]. rewrite Z.compare_refl. unfold Pos.ltb, Pos.compare. destruct (Pos.compare_cont Eq m n); reflexivity. Qed.
Lemma dlt_less m n k k' : k' < k -> dlt (S754_finite false m k) (S754_finite false n k') = false.
Proof. intros H. unfold dlt, SFltb. cbn [SFcompare]. destruct (Z.compare_spec k k'); [lia|lia|reflexivity]. Qed.
Lemma round_tiny p e : -1074 <= e -> dlt (binary_round 53 1024 false p e) dmin = (Z.pos p * 2 ^ (e + 1074) <? 2 ^ 52).
Proof.
  intros He. unfold binary_round. change (SpecFloat.fexp 53 1024) with fexp'. set (d := Z.pos (digits2_pos p)). pose proof (digits_bounds p) as Db. fold d in Db.
  set (e' := fexp' (d + e)). assert (F : e' = Z.max (d + e - 53) (-1074)) by reflexivity.
  assert (Big : -1074 < e' -> (Z.pos p * 2 ^ (e + 1074) <? 2 ^ 52) = false).
  { intros H. apply Z.ltb_ge. transitivity (2 ^ (d - 1) * 2 ^ (e + 1074)).
    - rewrite <- Z.pow_add_r by lia. apply Z.pow_le_mono_r; lia.
    - apply Z.mul_le_mono_nonneg_r; [apply Z.pow_nonneg; lia|lia]. }
  assert (Lt : forall m k, -1074 <= k -> dlt (if k <=? 971 then S754_finite false m k else S754_infinity false) dmin =
     if -1074 <? k then false else (m <? 4503599627370496)%positive).
  { intros m k Hk. destruct (Z.leb_spec k 971).
    - unfold dmin. destruct (Z.ltb_spec (-1074) k).
      + now apply dlt_less.
      + assert (k = -1074) as -> by lia. apply dlt_same.
    - destruct (Z.ltb_spec (-1074) k); [reflexivity|lia]. }
  destruct (Z.le_gt_cases e' e) as [L|L].
  - assert (Al : exists mz, shl_align p e e' = (mz, e') /\ Z.pos mz = Z.pos p * 2 ^ (e - e')).
    { unfold shl_align. destruct (e' - e) as [|n|n] eqn:En; [|lia|].
      - exists p. split; [f_equal; lia|]. replace (e - e') with 0 by lia. lia.
      - exists (shift_pos n p). split; [reflexivity|]. rewrite shift_pos_ok. f_equal. f_equal. lia. }
    destruct Al as (mz & -> & Emz).
    assert (Dz : Z.pos (digits2_pos mz) = d + e - e').
    { apply digits_unique. rewrite Emz. replace (d + e - e' - 1) with (d - 1 + (e - e')) by lia. replace (d + e - e') with (d + (e - e')) by lia.
      rewrite !Z.pow_add_r by (unfold d; lia). assert (0 < 2 ^ (e - e')) by (apply Z.pow_pos_nonneg; lia). nia. }
    assert (Fz : fexp' (Z.pos (digits2_pos mz) + e') - e' = 0) by (rewrite Dz, fexp_eq; lia).
    assert (R : binary_round_aux 53 1024 false (Z.pos mz) e' loc_Exact = if e' <=? 971 then S754_finite false mz e' else S754_infinity false).
    { unfold binary_round_aux, shr_fexp. cbn [Zdigits2 shr_record_of_loc]. change (SpecFloat.fexp 53 1024) with fexp'. rewrite Fz.
      cbn [shr shr_m loc_of_shr_record round_nearest_even Zdigits2 shr_record_of_loc]. rewrite Fz. cbn [shr shr_m]. reflexivity. }
    rewrite R, Lt by lia. destruct (Z.ltb_spec (-1074) e') as [G|G]; [symmetry; now apply Big|].
    replace (Z.pos p * 2 ^ (e + 1074)) with (Z.pos mz) by (rewrite Emz; f_equal; f_equal; lia). change (2 ^ 52) with (Z.pos 4503599627370496). apply pos_ltb.
  - assert (shl_align p e e' = (p, e)) as ->. { unfold shl_align. destruct (e' - e) eqn:En; [reflexivity|reflexivity|lia]. }
    rewrite (Big ltac:(lia)). destruct (round_aux_gen p e L) as (q & R & Hq & ->). fold d e'. fold d e' in R.
    assert (Q : 2 ^ 52 <= q).
    { assert (2 ^ 52 <= Z.pos p / 2 ^ (e' - e)).
      { apply Z.div_le_lower_bound; [apply Z.pow_pos_nonneg; lia|]. rewrite <- Z.pow_add_r by lia. etransitivity; [|apply Db]. apply Z.pow_le_mono_r; lia. }
      destruct R as [->|(-> & _)]; lia. }
    destruct q as [|m|m]; [lia| |lia]. destruct (Z.pos m =? 2 ^ 53); rewrite Lt by lia.
    + destruct (Z.ltb_spec (-1074) (e' + 1)); [reflexivity|lia].
    + destruct (Z.ltb_spec (-1074) e'); [reflexivity|lia].
Qed.
Lemma align_units m e ez : ez <= e -> Z.pos (fst (shl_align m e ez)) = Z.pos m * 2 ^ (e - ez).
Proof.
  intros H. unfold shl_align. destruct (ez - e) as [|n|n] eqn:En; [|lia|]; cbn [fst].
  - replace (e - ez) with 0 by lia. lia.
  - rewrite shift_pos_ok. f_equal. f_equal. lia.
Qed.
Lemma normal_tiny s m e : -1074 <= e <= 971 -> Z.pos m < 2 ^ 53 -> (e = -1074 \/ 2 ^ 52 <= Z.pos m) ->
  dlt (dabs (S754_finite s m e)) dmin = (Z.abs (units (S754_finite s m e)) <? 2 ^ 52).
Proof.
  intros He Hm Hn. assert (P : 0 < 2 ^ (e + 1074)) by (apply Z.pow_pos_nonneg; lia). unfold dmin. cbn [dabs SFabs units].
  replace (Z.abs _) with (Z.pos m * 2 ^ (e + 1074)) by (destruct s; nia). destruct (Z.eq_dec e (-1074)) as [->|L].
  - rewrite dlt_same. change (2 ^ (-1074 + 1074)) with 1. rewrite Z.mul_1_r. change (2 ^ 52) with (Z.pos 4503599627370496). apply pos_ltb.
  - rewrite dlt_less by lia. symmetry. apply Z.ltb_ge. destruct Hn as [Hn|Hn]; nia.
Qed.
Lemma sub_tiny x y : format_double x -> format_double y -> dlt (dabs (dsub x y)) dmin = (Z.abs (units x - units y) <? 2 ^ 52).
Proof.
  destruct x as [s|s| |s m e], y as [s'|s'| |s' m' e']; cbn [format_double]; try contradiction.
  - intros _ _. destruct s, s'; reflexivity.
  - intros _ (H1 & H2 & H3). change (dabs (dsub (S754_zero s) (S754_finite s' m' e'))) with (dabs (S754_finite s' m' e')).
    rewrite normal_tiny by assumption. f_equal. change (units (S754_zero s)) with 0. lia.
  - intros (H1 & H2 & H3) _. change (dabs (dsub (S754_finite s m e) (S754_zero s'))) with (dabs (S754_finite s m e)).
    rewrite normal_tiny by assumption. f_equal. change (units (S754_zero s')) with 0. lia.
  - intros (H1 & _) (H1' & _). unfold dsub, SFsub. set (ez := Z.min e e').
    rewrite !align_units by lia.
    assert (E : forall s m e, ez <= e -> -1074 <= ez -> units (S754_finite s m e) = cond_Zopp s (Z.pos m * 2 ^ (e - ez)) * 2 ^ (ez + 1074)).
    { intros s0 m0 e0 L L'. cbn [units]. replace (e0 + 1074) with (e0 - ez + (ez + 1074)) by lia. rewrite Z.pow_add_r by lia. destruct s0; cbn [cond_Zopp]; lia. }
    rewrite (E s m e) by lia. rewrite (E s' m' e') by lia. rewrite <- Z.mul_sub_distr_r, Z.abs_mul.
    assert (Hz : -1074 <= ez) by lia. assert (P : 0 < 2 ^ (ez + 1074)) by (apply Z.pow_pos_nonneg; lia). rewrite (Z.abs_eq (2 ^ (ez + 1074))) by lia.
    generalize (cond_Zopp s (Z.pos m * 2 ^ (e - ez)) - cond_Zopp s' (Z.pos m' * 2 ^ (e' - ez))). clear E. intros v.
    assert (Ab : forall p, dabs (binary_round 53 1024 false p ez) = binary_round 53 1024 false p ez).
    { intros p. unfold binary_round. destruct (shl_align p ez _) as [mz k]. unfold binary_round_aux. destruct (shr_fexp _ _ _ _ _) as [r1 e1].
      destruct (shr_fexp _ _ _ e1 _) as [r2 e2]. destruct (shr_m r2); [reflexivity| |reflexivity]. destruct (_ <=? _); reflexivity. }
    destruct v as [|p|p]; cbn [binary_normalize].
    + rewrite Z.abs_0, Z.mul_0_l. reflexivity.
    + rewrite Ab. now apply round_tiny.
    + rewrite abs_round, Ab. now apply round_tiny.
Qed.
Lemma abs_not_less x y : dlt (dabs x) (S754_zero y) = false.
Proof. destruct x; reflexivity. Qed.
Lemma almost_exact x y : format_double x -> format_double y -> (almost_equal x y 0 = true <-> Z.abs (units x - units y) < 2 ^ 52).
Proof.
  intros Hx Hy. unfold almost_equal. rewrite (sub_tiny x y Hx Hy).
  assert (dlt (dabs (dsub x y)) (dmul (dmul depsilon (dabs (dadd x y))) (double_of 0)) = false) as ->.
  { change (double_of 0) with (S754_zero false). destruct (dmul depsilon (dabs (dadd x y))) as [s|s| |s m e];
      try (cbn [dmul SFmul]; apply abs_not_less); change (dmul (S754_infinity s) (S754_zero false)) with S754_nan || change (dmul S754_nan (S754_zero false)) with S754_nan;
      destruct (dabs (dsub x y)) as [| | |[|]]; reflexivity. }
  cbn [orb]. apply Z.ltb_lt.
Qed.
Lemma almost_more x y ulp : almost_equal x y 0 = true -> format_double x -> format_double y -> almost_equal x y ulp = true.
Proof.
  intros H Hx Hy. apply almost_exact in H; [|assumption|assumption]. unfold almost_equal. rewrite (sub_tiny x y Hx Hy). apply orb_true_iff. right. now apply Z.ltb_lt.
Qed.

(** * integer_iterator *)
Lemma it_minus_exact n other : 0 <= n < 4294967296 -> 0 <= other < 4294967296 -> (it_minus n other = n - other <-> other <= n).
Proof.
  intros H1 H2. unfold it_minus, u32. split; intros H.
  - pose proof (Z.mod_pos_bound (n - other) 4294967296 ltac:(lia)). lia.
  - apply Z.mod_small. lia.
Qed.
Lemma it_add_sub n d : 0 <= n < 4294967296 -> it_sub (it_add n d) d = n /\ it_add (it_sub n d) d = n.
Proof.
  intros H. unfold it_sub, it_add, u32. split.
  - rewrite Zminus_mod_idemp_l. replace (n + d - d) with n by lia. apply Z.mod_small. exact H.
  - rewrite Zplus_mod_idemp_l. replace (n - d + d) with n by lia. apply Z.mod_small. exact H.
Qed.
Lemma it_add_minus n d : 0 <= n < 4294967296 -> 0 <= d < 4294967296 -> it_minus (it_add n d) n = d /\ it_add n (it_minus d n) = d.
Proof.
  intros H1 H2. unfold it_minus, it_add, u32. split.
  - rewrite Zminus_mod_idemp_l. replace (n + d - n) with d by lia. apply Z.mod_small. exact H2.
  - rewrite Zplus_mod_idemp_r. replace (n + (d - n)) with d by lia. apply Z.mod_small. exact H2.
Qed.
Lemma it_le_exact n other : it_le n other = (n <=? other) <-> n <> other.
Proof. unfold it_le. destruct (Z.ltb_spec n other), (Z.leb_spec n other); intuition (try congruence; lia). Qed.

Lemma it_range a b : 0 <= a < 4294967296 -> 0 <= b < 4294967296 -> vector_of_range a b = Ok (from a (it_minus b a)).
Proof.
  intros Ha Hb. unfold vector_of_range. set (room := it_minus b a). pose proof (Z.mod_pos_bound (b - a) 4294967296 ltac:(lia)) as R. change ((b - a) mod 4294967296) with room in R.
  assert (G : forall n k, 0 <= k -> Z.of_nat n = room - k ->
    loop (S n) (fun '(i, l) => if it_ne i b then l <- emit room l i ;; Ok (inl (it_next i, l)) else Ok (inr l)) (it_add a k, from a k) = Ok (from a room)).
  { induction n as [|n IH]; intros k Hk Hn.
    - assert (k = room) as -> by lia. cbn [loop]. destruct (it_add_minus a b Ha Hb) as (_ & E). fold room in E. rewrite E. unfold it_ne. rewrite Z.eqb_refl. reflexivity.
    - remember (S n) as n' eqn:En. cbn [loop]. unfold it_ne at 1. destruct (Z.eqb_spec (it_add a k) b) as [E|N].
      { exfalso. assert (it_minus (it_add a k) a = k) by (apply it_add_minus; lia). rewrite E in H. fold room in H. lia. }
      cbn [negb]. unfold emit. replace (Z.of_nat (List.length (from a k))) with k by (unfold from, zrange; rewrite !map_length, seq_length; lia).
      destruct (Z.ltb_spec k room); [|lia]. cbn [bind]. subst n'. etransitivity; [|apply (IH (k + 1)); lia].
      replace (it_next (it_add a k)) with (it_add a (k + 1)). 1: replace (from a k ++ [it_add a k]) with (from a (k + 1)); [reflexivity|].
      2:{ unfold it_next, it_add, u32. rewrite Zplus_mod_idemp_l. f_equal. lia. }
      unfold from, zrange. replace (Z.to_nat (k + 1)) with (S (Z.to_nat k)) by lia. rewrite seq_S, !map_app. cbn [map]. rewrite Nat.add_0_l, Z2Nat.id by lia. reflexivity. }
  specialize (G (Z.to_nat room) 0 ltac:(lia) ltac:(lia)). replace (it_add a 0) with a in G by (unfold it_add, u32; rewrite Z.add_0_r, Z.mod_small; lia). exact G.
Qed.
Lemma it_indexes n : 0 <= n < 4294967296 -> vector_of_range 0 n = Ok (zrange n).
Proof.
  intros H. rewrite it_range by lia. replace (it_minus n 0) with n by (unfold it_minus, u32; rewrite Z.sub_0_r, Z.mod_small; lia). f_equal.
  unfold from. rewrite <- (map_id (zrange n)) at 2. apply map_ext_in. intros i Hi. apply zrange_In in Hi. apply Z.mod_small. lia.
Qed.
