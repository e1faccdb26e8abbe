(** Proofs about the printing of numbers. *)
From Verif Require Import Base BaseProofs StreamModel StreamProofs TrieModel TrieProofs FloatModel FormatModel FormatSpec.
From Coq Require Import SpecFloat QArith Qabs Qpower Lqa Lia ZArith.
Local Open Scope Z_scope.

(** * Rounding *)
Lemma div_even_spec n d : 0 < d -> let q := div_even n d in 2 * Z.abs (q * d - n) <= d /\ (2 * Z.abs (q * d - n) = d -> Z.even q = true).
Proof.
  intros Hd. unfold div_even. pose proof (Z.div_mod n d ltac:(lia)) as D. pose proof (Z.mod_pos_bound n d Hd) as M.
  set (q := n / d) in *. set (r := n mod d) in *. destruct ((d <? 2 * r) || ((d =? 2 * r) && Z.odd q)) eqn:C; cbv zeta.
  - replace ((q + 1) * d - n) with (d - r) by lia. rewrite Z.abs_eq by lia. rewrite orb_true_iff, andb_true_iff, Z.ltb_lt, Z.eqb_eq in C.
    split; [lia|]. intros E. destruct C as [C|[_ C]]; [lia|]. rewrite Z.even_add. rewrite <- Z.negb_odd, C. reflexivity.
  - replace (q * d - n) with (- r) by lia. rewrite Z.abs_opp, Z.abs_eq by lia. rewrite orb_false_iff, andb_false_iff, Z.ltb_ge, Z.eqb_neq in C.
    split; [lia|]. intros E. destruct C as [_ [C|C]]; [lia|]. rewrite <- Z.negb_odd, C. reflexivity.
Qed.
Lemma div_even_best n d z : 0 < d -> let q := div_even n d in z <> q ->
  Z.abs (q * d - n) < Z.abs (z * d - n) \/ Z.abs (q * d - n) = Z.abs (z * d - n) /\ Z.even q = true.
Proof.
  intros Hd q Hz. destruct (div_even_spec n d Hd) as [B T]. fold q in B, T.
  assert (G : d <= Z.abs (z * d - q * d)) by (replace (z * d - q * d) with ((z - q) * d) by ring; rewrite Z.abs_mul, (Z.abs_eq d) by lia; nia).
  destruct (Z.eq_dec (2 * Z.abs (q * d - n)) d) as [E|N]; [|left; lia]. specialize (T E).
  destruct (Z.eq_dec (Z.abs (q * d - n)) (Z.abs (z * d - n))); [right; auto|left; lia].
Qed.

Lemma pow10_pos k : 0 <= k -> 0 < 10 ^ k.
Proof. intros H. apply Z.pow_pos_nonneg; lia. Qed.
Lemma exponent_up_spec : forall f n d, 0 < d <= n -> n < 10 ^ Z.of_nat f * d ->
  0 <= exponent_up f n d /\ 10 ^ exponent_up f n d * d <= n < 10 ^ (exponent_up f n d + 1) * d.
Proof.
  induction f as [|f IH]; intros n d Hd Hn; [change (10 ^ Z.of_nat 0) with 1 in Hn; lia|]. cbn [exponent_up].
  destruct (Z.ltb_spec n (10 * d)); [change (10 ^ 0) with 1; change (10 ^ (0 + 1)) with 10; lia|].
  rewrite Nat2Z.inj_succ, Z.pow_succ_r in Hn by lia. destruct (IH n (10 * d)) as [P [L U]]; [lia|lia|].
  set (x := exponent_up f n (10 * d)) in *. split; [lia|].
  replace (10 ^ (1 + x)) with (10 * 10 ^ x) by (rewrite <- Z.pow_succ_r by lia; f_equal; lia).
  replace (10 ^ (1 + x + 1)) with (10 * 10 ^ (x + 1)) by (rewrite <- Z.pow_succ_r by lia; f_equal; lia). lia.
Qed.
Lemma exponent_down_spec : forall f n d, 0 < n < d -> d <= 10 ^ Z.of_nat f * n ->
  exponent_down (S f) n d < 0 /\ d <= 10 ^ (- exponent_down (S f) n d) * n < 10 * d.
Proof.
  induction f as [|f IH]; intros n d Hd Hn; [change (10 ^ Z.of_nat 0) with 1 in Hn; lia|].
  remember (S f) as g. cbn [exponent_down]. destruct (Z.leb_spec d n); [lia|]. subst g.
  destruct (Z_le_gt_dec d (10 * n)) as [L|L].
  - cbn [exponent_down]. destruct (Z.leb_spec d (10 * n)); [|lia]. change (10 ^ (- (0 - 1))) with 10. lia.
  - rewrite Nat2Z.inj_succ, Z.pow_succ_r in Hn by lia. destruct (IH (10 * n) d) as [P [A B]]; [lia|lia|].
    set (x := exponent_down (S f) (10 * n) d) in *. split; [lia|].
    replace (10 ^ (- (x - 1))) with (10 * 10 ^ (- x)) by (rewrite <- Z.pow_succ_r by lia; f_equal; lia). lia.
Qed.
Lemma pow2_10 k : 0 <= k -> 2 ^ k <= 10 ^ k.
Proof. intros H. apply Z.pow_le_mono_l. lia. Qed.
Lemma exponent_of_spec n d : 0 < n -> 0 < d -> let x := exponent_of n d in
  (0 <= x /\ 10 ^ x * d <= n < 10 ^ (x + 1) * d) \/ (x < 0 /\ d <= 10 ^ (- x) * n < 10 * d).
Proof.
  intros Hn Hd. unfold exponent_of. destruct (Z.leb_spec d n) as [L|L]; cbv zeta.
  - left. apply exponent_up_spec; [lia|]. pose proof (Z.log2_spec n Hn) as [_ B]. pose proof (Z.log2_nonneg n) as N.
    rewrite Nat2Z.inj_succ, Z2Nat.id by lia. pose proof (pow2_10 (Z.succ (Z.log2 n)) ltac:(lia)). nia.
  - right. pose proof (Z.log2_spec d Hd) as [_ B]. pose proof (Z.log2_nonneg d) as N.
    destruct (Z.to_nat (Z.log2 d)) as [|f] eqn:F.
    + assert (Z.log2 d = 0) by lia. rewrite H in B. change (2 ^ Z.succ 0) with 2 in B. lia.
    + rewrite <- F. apply exponent_down_spec; [lia|]. rewrite Z2Nat.id by lia. rewrite Z.pow_succ_r in B by lia.
      assert (2 * 2 ^ Z.log2 d <= 10 ^ Z.log2 d); [|nia].
      assert (1 <= Z.log2 d) by lia. replace (Z.log2 d) with (1 + (Z.log2 d - 1)) by lia. rewrite !Z.pow_add_r by lia.
      pose proof (pow2_10 (Z.log2 d - 1) ltac:(lia)). change (2 ^ 1) with 2. change (10 ^ 1) with 10. lia.
Qed.

(** * Powers of ten *)
Lemma ten_nz : ~ (10 # 1 == 0)%Q.
Proof. intros H. discriminate. Qed.
Lemma ten_pos k : (0 < (10 # 1) ^ k)%Q.
Proof. apply Qpower_0_lt. reflexivity. Qed.
Lemma decimal_mono a a' k : (a < a')%Z -> (decimal a k < decimal a' k)%Q.
Proof. intros H. unfold decimal. apply Qmult_lt_compat_r; [apply ten_pos|]. rewrite <- Zlt_Qlt. exact H. Qed.
Lemma decimal_le a a' k : (a <= a')%Z -> (decimal a k <= decimal a' k)%Q.
Proof. intros H. unfold decimal. apply Qmult_le_compat_r; [|apply Qlt_le_weak, ten_pos]. rewrite <- Zle_Qle. exact H. Qed.
Lemma decimal_shift a j k : (0 <= j)%Z -> (decimal a (j + k) == decimal (a * 10 ^ j) k)%Q.
Proof.
  intros H. unfold decimal. rewrite Qpower_plus by exact ten_nz. rewrite inject_Z_mult, Zpower_Qpower by exact H.
  rewrite Qmult_assoc. reflexivity.
Qed.
Lemma decimal_one_le j k : (j <= k)%Z -> (decimal 1 j <= decimal 1 k)%Q.
Proof.
  intros H. replace k with ((k - j) + j)%Z by lia. rewrite decimal_shift by lia. apply decimal_le.
  pose proof (pow10_pos (k - j) ltac:(lia)). lia.
Qed.
Lemma decimal_one_lt j k : (j < k)%Z -> (decimal 1 j < decimal 1 k)%Q.
Proof.
  intros H. replace k with ((k - j) + j)%Z by lia. rewrite decimal_shift by lia. apply decimal_mono.
  assert (10 ^ 1 <= 10 ^ (k - j))%Z by (apply Z.pow_le_mono_r; lia). change (10 ^ 1)%Z with 10%Z in *. lia.
Qed.
Lemma decimal_pos a k : (0 < a)%Z -> (0 < decimal a k)%Q.
Proof. intros H. assert (E : (0 == decimal 0 k)%Q) by (unfold decimal; ring). rewrite E. apply decimal_mono. exact H. Qed.

(** * The nearest number with six digits *)
(** The number n / d, and the two numbers that [six_round] divides. *)
Definition ratio (n d : Z) : Q := (inject_Z n / inject_Z d)%Q.
Lemma inject_nz d : 0 < d -> ~ (inject_Z d == 0)%Q.
Proof. intros H. change 0%Q with (inject_Z 0). rewrite inject_Z_injective. lia. Qed.
Lemma inject_pos d : 0 < d -> (0 < inject_Z d)%Q.
Proof. intros H. change 0%Q with (inject_Z 0). rewrite <- Zlt_Qlt. exact H. Qed.
Lemma scaled n d x : 0 < n -> 0 < d -> exists N D, 0 < N /\ 0 < D /\ (ratio n d == ratio N D * (10 # 1) ^ (x - 5))%Q /\
  (if x <=? 5 then div_even (n * 10 ^ (5 - x)) d else div_even n (d * 10 ^ (x - 5))) = div_even N D /\
  (N = n * 10 ^ (5 - x) /\ D = d /\ x <= 5 \/ N = n /\ D = d * 10 ^ (x - 5) /\ 5 < x).
Proof.
  intros Hn Hd. destruct (Z.leb_spec x 5) as [L|L].
  - exists (n * 10 ^ (5 - x)), d. pose proof (pow10_pos (5 - x) ltac:(lia)). split; [nia|]. split; [exact Hd|]. split; [|split; [reflexivity|auto]].
    unfold ratio. rewrite inject_Z_mult, Zpower_Qpower by lia. replace (x - 5) with (- (5 - x)) by lia. rewrite Qpower_opp.
    pose proof (Qpower_not_0 (10 # 1) (5 - x) ten_nz). pose proof (inject_nz d Hd). change (inject_Z 10) with (10 # 1). field. auto.
  - exists n, (d * 10 ^ (x - 5)). pose proof (pow10_pos (x - 5) ltac:(lia)). split; [exact Hn|]. split; [nia|]. split; [|split; [reflexivity|auto with zarith]].
    unfold ratio. rewrite inject_Z_mult, Zpower_Qpower by lia.
    pose proof (Qpower_not_0 (10 # 1) (x - 5) ten_nz). pose proof (inject_nz d Hd). change (inject_Z 10) with (10 # 1). field. auto.
Qed.
Lemma distance N D k z x : 0 < D -> (x == ratio N D * (10 # 1) ^ k)%Q ->
  (Qabs (decimal z k - x) == (10 # 1) ^ k / inject_Z D * inject_Z (Z.abs (z * D - N)))%Q.
Proof.
  intros HD E. rewrite E. unfold decimal, ratio. pose proof (inject_nz D HD) as NZ. pose proof (inject_pos D HD) as PD. pose proof (ten_pos k) as PT.
  assert (F : (inject_Z z * (10 # 1) ^ k - inject_Z N / inject_Z D * (10 # 1) ^ k == (10 # 1) ^ k / inject_Z D * inject_Z (z * D - N))%Q).
  { unfold Zminus. rewrite inject_Z_plus, inject_Z_opp, inject_Z_mult. field. exact NZ. }
  rewrite F, Qabs_Qmult. rewrite (Qabs_pos ((10 # 1) ^ k / inject_Z D)).
  - apply Qmult_comp; [reflexivity|]. unfold Qabs, inject_Z. reflexivity.
  - apply Qlt_le_weak. unfold Qdiv. apply Qmult_lt_0_compat; [exact PT|]. apply Qinv_lt_0_compat. exact PD.
Qed.
Lemma scaled_bounds n d N D : 0 < n -> 0 < d -> let x := exponent_of n d in
  N = n * 10 ^ (5 - x) /\ D = d /\ x <= 5 \/ N = n /\ D = d * 10 ^ (x - 5) /\ 5 < x -> 100000 * D <= N < 1000000 * D.
Proof.
  intros Hn Hd. pose proof (exponent_of_spec n d Hn Hd) as X. cbv zeta in X |- *. set (x := exponent_of n d) in *. set (k := x - 5) in *. intros C.
destruct C as [(-> & -> & L)|(-> & -> & L)].
  - destruct X as [[P [A B]]|[P [A B]]].
    + replace 100000 with (10 ^ x * 10 ^ (5 - x)) by (rewrite <- Z.pow_add_r by lia; change 100000 with (10 ^ 5); f_equal; lia).
      replace 1000000 with (10 ^ (x + 1) * 10 ^ (5 - x)) by (rewrite <- Z.pow_add_r by lia; change 1000000 with (10 ^ 6); f_equal; lia).
      pose proof (pow10_pos (5 - x) ltac:(lia)). nia.
    + replace (5 - x) with (5 + - x) by lia. rewrite Z.pow_add_r by lia. change (10 ^ 5) with 100000. nia.
  - destruct X as [[P [A B]]|[P _]]; [|lia].
    replace (10 ^ x) with (100000 * 10 ^ k) in A by (change 100000 with (10 ^ 5); rewrite <- Z.pow_add_r by (unfold k; lia); f_equal; unfold k; lia).
    replace (10 ^ (x + 1)) with (1000000 * 10 ^ k) in B by (change 1000000 with (10 ^ 6); rewrite <- Z.pow_add_r by (unfold k; lia); f_equal; unfold k; lia).
    lia.
Qed.
Lemma six_round_nearest n d : 0 < n -> 0 < d -> exists q x, six_round n d = (q, x) /\ 100000 <= q < 1000000 /\
  nearest_six (ratio n d) (decimal q (x - 5)) /\ (exponent_of n d <= x <= exponent_of n d + 1).
Proof.
  intros Hn Hd. unfold six_round. set (x := exponent_of n d). cbv zeta.
  destruct (scaled n d x Hn Hd) as (N & D & HN & HD & E & -> & C). set (k := x - 5) in *.
  assert (B : 100000 * D <= N < 1000000 * D) by (exact (scaled_bounds n d N D Hn Hd C)).
  set (q := div_even N D). destruct (div_even_spec N D HD) as [R T]. fold q in R, T.
  assert (Q : 100000 <= q <= 1000000) by nia.
  assert (V : six_digits (decimal q k) -> (Z.even q = true -> sixth_even (decimal q k)) -> nearest_six (ratio n d) (decimal q k)).
  { intros S6 Ev. split; [exact S6|]. intros w (a & b & Ha & Ew) Nw.
    pose proof (distance N D k q _ HD E) as Dq.
    assert (C0 : (0 < (10 # 1) ^ k / inject_Z D)%Q).
    { unfold Qdiv. apply Qmult_lt_0_compat; [apply ten_pos|]. apply Qinv_lt_0_compat. apply inject_pos. exact HD. }
    destruct (Z_le_gt_dec k b) as [L|L].
    - assert (Ew' : (w == decimal (a * 10 ^ (b - k)) k)%Q) by (rewrite Ew, <- decimal_shift by lia; replace (b - k + k) with b by lia; reflexivity).
      set (z := a * 10 ^ (b - k)) in *. assert (Nz : z <> q) by (intros Ez; apply Nw; rewrite Ew', Ez; reflexivity).
      rewrite Ew'. rewrite Dq, (distance N D k z _ HD E).
      destruct (div_even_best N D z HD Nz) as [Lt|[Eq2 Even]].
      + left. apply Qmult_lt_l; [exact C0|]. rewrite <- Zlt_Qlt. exact Lt.
      + right. split; [|apply Ev; exact Even]. apply Qmult_comp; [reflexivity|]. rewrite inject_Z_injective. exact Eq2.
    - left. assert (Lw : (w < decimal 100000 k)%Q).
      { rewrite Ew. apply Qlt_le_trans with (decimal 1000000 b); [apply decimal_mono; lia|].
        change 1000000 with (1 * 10 ^ 6). change 100000 with (1 * 10 ^ 5). rewrite <- !decimal_shift by lia. apply decimal_one_le. lia. }
      assert (Lx : (decimal 100000 k <= ratio n d)%Q).
      { rewrite E. unfold decimal, ratio. apply Qmult_le_compat_r; [|apply Qlt_le_weak, ten_pos].
        apply Qle_shift_div_l; [apply inject_pos; exact HD|]. rewrite <- inject_Z_mult, <- Zle_Qle. lia. }
      assert (D5 : (Qabs (decimal q k - ratio n d) <= Qabs (decimal 100000 k - ratio n d))%Q).
      { rewrite Dq, (distance N D k 100000 _ HD E). apply Qmult_le_l; [exact C0|]. rewrite <- Zle_Qle.
        destruct (Z.eq_dec 100000 q) as [E5|Nq]; [rewrite E5; lia|]. destruct (div_even_best N D 100000 HD Nq) as [G|[G _]]; unfold q; lia. }
      apply Qle_lt_trans with (1 := D5). rewrite !Qabs_neg by lra. lra. }
  destruct (Z.eqb_spec q 1000000) as [Eq1|Nq].
  - exists 100000, (x + 1). split; [reflexivity|]. split; [lia|]. split; [|lia].
    assert (Ed : (decimal 100000 (x + 1 - 5) == decimal q k)%Q).
    { replace (x + 1 - 5) with (1 + k) by (unfold k; lia). rewrite decimal_shift by lia. rewrite Eq1. reflexivity. }
    assert (S6 : six_digits (decimal q k)) by (exists 100000, (x + 1 - 5); split; [lia|symmetry; exact Ed]).
    destruct V as [_ V']; [exact S6| |].
    { intros _. exists 100000, (x + 1 - 5). split; [lia|]. split; [reflexivity|symmetry; exact Ed]. }
    split; [exists 100000, (x + 1 - 5); split; [lia|reflexivity]|].
    assert (F : (Qabs (decimal 100000 (x + 1 - 5) - ratio n d) == Qabs (decimal q k - ratio n d))%Q).
    { apply Qabs_wd. apply Qplus_comp; [exact Ed|reflexivity]. }
    intros w Hw Nw. specialize (V' w Hw). rewrite Ed in Nw. specialize (V' Nw). destruct V' as [V'|[V' (a & b & Ha & He & Hv)]].
    + left. apply Qle_lt_trans with (2 := V'). rewrite F. apply Qle_refl.
    + right. split; [exact (Qeq_trans _ _ _ F V')|]. exists a, b. split; [exact Ha|]. split; [exact He|]. exact (Qeq_trans _ _ _ Ed Hv).
  - exists q, x. split; [reflexivity|]. split; [lia|]. split; [|lia]. apply V.
    + exists q, k. split; [lia|reflexivity].
    + intros Ev. exists q, k. split; [lia|]. split; [exact Ev|reflexivity].
Qed.

(** * Digits *)
Lemma number_from l : forall a, fold_left (fun a c => 10 * a + (c - 48)) l a = a * 10 ^ Z.of_nat (List.length l) + number l.
Proof.
  unfold number. induction l as [|c l IH]; intros a; [cbn [fold_left List.length]; change (10 ^ Z.of_nat 0) with 1; lia|].
  cbn [fold_left List.length]. rewrite IH, (IH (10 * 0 + _)). rewrite Nat2Z.inj_succ, Z.pow_succ_r by lia. ring.
Qed.
Lemma number_app a b : number (a ++ b) = number a * 10 ^ Z.of_nat (List.length b) + number b.
Proof. unfold number at 1. rewrite fold_left_app. rewrite number_from. reflexivity. Qed.
Lemma number_cons c l : number (c :: l) = (c - 48) * 10 ^ Z.of_nat (List.length l) + number l.
Proof. change (c :: l) with ([c] ++ l). rewrite number_app. change (number [c]) with (10 * 0 + (c - 48)). reflexivity. Qed.
Lemma number_value l : number l = digits_value l.
Proof.
  induction l as [|c l IH] using rev_ind; [reflexivity|]. rewrite number_app, digits_value_app, IH.
  change (number [c]) with (10 * 0 + (c - 48)). change (10 ^ Z.of_nat (List.length [c])) with 10. lia.
Qed.
Lemma number_zeros k : number (repeat 48 k) = 0.
Proof. induction k as [|k IH]; [reflexivity|]. cbn [repeat]. rewrite number_cons, IH. lia. Qed.
Lemma digits_bound l : digits l -> 0 <= number l < 10 ^ Z.of_nat (List.length l).
Proof.
  induction 1 as [|c l Hc Hl IH]; [cbn; lia|]. rewrite number_cons. cbn [List.length]. rewrite Nat2Z.inj_succ, Z.pow_succ_r by lia. nia.
Qed.
Lemma print_uint_are n : 0 <= n -> digits (print_uint n).
Proof.
  intros H. eapply Forall_impl; [|exact (print_uint_digits n H)]. intros c Hc. unfold is_digit in Hc. rewrite andb_true_iff, !Z.leb_le in Hc. exact Hc.
Qed.
Lemma print_digits_size : forall f n, 0 < n < 10 ^ Z.of_nat f -> 10 ^ (vsize (print_digits f n) - 1) <= n < 10 ^ vsize (print_digits f n) /\ 1 <= vsize (print_digits f n).
Proof.
  induction f as [|f IH]; intros n Hn; [change (10 ^ Z.of_nat 0) with 1 in Hn; lia|]. cbn [print_digits]. destruct (Z.ltb_spec n 10).
  - change (vsize [48 + n]) with 1. change (10 ^ (1 - 1)) with 1. change (10 ^ 1) with 10. lia.
  - rewrite vsize_app. change (vsize [48 + n mod 10]) with 1. rewrite Nat2Z.inj_succ, Z.pow_succ_r in Hn by lia.
    assert (B : 0 < n / 10 < 10 ^ Z.of_nat f) by (split; [apply Z.div_str_pos; lia|apply Z.div_lt_upper_bound; lia]).
    destruct (IH _ B) as [[L U] P]. set (k := vsize (print_digits f (n / 10))) in *.
    replace (10 ^ (k + 1 - 1)) with (10 * 10 ^ (k - 1)) by (rewrite <- Z.pow_succ_r by lia; f_equal; lia).
    replace (10 ^ (k + 1)) with (10 * 10 ^ k) by (rewrite <- Z.pow_succ_r by lia; f_equal; lia).
    pose proof (Z.div_mod n 10 ltac:(lia)). pose proof (Z.mod_pos_bound n 10 ltac:(lia)). lia.
Qed.
Lemma print_uint_size n : 0 < n < 100000000000000000000 -> 10 ^ (vsize (print_uint n) - 1) <= n < 10 ^ vsize (print_uint n) /\ 1 <= vsize (print_uint n).
Proof. intros H. apply print_digits_size. change (10 ^ Z.of_nat 20) with 100000000000000000000. exact H. Qed.
Lemma print_uint_number n : 0 <= n < 18446744073709551616 -> number (print_uint n) = n.
Proof. intros H. rewrite number_value. apply print_uint_value. exact H. Qed.

Lemma drop_zeros_spec l : exists k, l = repeat 48 k ++ drop_zeros l.
Proof.
  induction l as [|c l [k IH]]; [exists O; reflexivity|]. cbn [drop_zeros]. destruct (Z.eqb_spec c 48) as [->|N]; [|exists O; reflexivity].
  exists (S k). cbn [repeat app]. rewrite <- IH. reflexivity.
Qed.
Lemma drop_zeros_head l l' : drop_zeros l <> 48 :: l'.
Proof.
  induction l as [|c l IH]; [discriminate|]. cbn [drop_zeros]. destruct (Z.eqb_spec c 48) as [->|N]; [exact IH|]. intros E. inversion E. contradiction.
Qed.
Lemma rev_repeat (x : Z) k : rev (repeat x k) = repeat x k.
Proof. induction k as [|k IH]; [reflexivity|]. cbn [repeat rev]. rewrite IH. symmetry. apply repeat_cons. Qed.
Lemma strip_zeros_spec l : exists k, l = strip_zeros l ++ repeat 48 k.
Proof.
  destruct (drop_zeros_spec (rev l)) as [k E]. exists k. unfold strip_zeros. rewrite <- (rev_involutive l) at 1. rewrite E at 1.
  rewrite rev_app_distr, rev_repeat. reflexivity.
Qed.
Lemma strip_zeros_last l l' : strip_zeros l <> l' ++ [48].
Proof.
  unfold strip_zeros. intros E. apply (drop_zeros_head (rev l) (rev l')). rewrite <- (rev_involutive (drop_zeros (rev l))), E, rev_app_distr. reflexivity.
Qed.
Lemma digits_app a b : digits (a ++ b) <-> digits a /\ digits b.
Proof. apply Forall_app. Qed.
Lemma strip_decimals l : digits l -> decimals (strip_zeros l).
Proof.
  intros H. split; [|intros l'; apply strip_zeros_last]. destruct (strip_zeros_spec l) as [k E]. rewrite E in H. apply digits_app in H. apply H.
Qed.
Lemma zeros_digits k : digits (repeat 48 k).
Proof. apply Forall_forall. intros c Hc. apply repeat_spec in Hc. subst c. lia. Qed.

(** * The text of six digits and an exponent *)
Lemma six_print q : 100000 <= q < 1000000 -> exists c l, print_uint q = c :: l /\ 49 <= c <= 57 /\ digits l /\ List.length l = 5%nat /\ number (c :: l) = q.
Proof.
  intros H. pose proof (print_uint_are q ltac:(lia)) as D. pose proof (print_uint_number q ltac:(lia)) as V.
  destruct (print_uint_size q ltac:(lia)) as [[L U] P]. assert (K : vsize (print_uint q) = 6).
  { destruct (Z_lt_le_dec (vsize (print_uint q)) 6) as [A|A].
    - assert (10 ^ vsize (print_uint q) <= 10 ^ 5) by (apply Z.pow_le_mono_r; lia). change (10 ^ 5) with 100000 in *. lia.
    - destruct (Z_lt_le_dec 6 (vsize (print_uint q))) as [A'|A']; [|lia].
      assert (10 ^ 6 <= 10 ^ (vsize (print_uint q) - 1)) by (apply Z.pow_le_mono_r; lia). change (10 ^ 6) with 1000000 in *. lia. }
  destruct (print_uint q) as [|c l]; [discriminate K|]. exists c, l. split; [reflexivity|]. inversion D as [|? ? Hc Hl]. subst.
  assert (Ll : List.length l = 5%nat) by (unfold vsize in K; cbn [List.length] in K; lia).
  split; [|split; [exact Hl|split; [exact Ll|reflexivity]]].
  rewrite number_cons, Ll in H. pose proof (digits_bound l Hl) as B. rewrite Ll in B. change (10 ^ Z.of_nat 5) with 100000 in *. lia.
Qed.
Lemma print_exponent_text x : Z.abs x < 18446744073709551616 -> exponent_text x (print_exponent x).
Proof.
  intros H. unfold print_exponent, exponent_text. destruct (Z.ltb_spec (Z.abs x) 10) as [L|L].
  - exists ([48] ++ print_uint (Z.abs x)). split; [|split; [|split; [reflexivity|]]].
    + apply digits_app. split; [apply (zeros_digits 1)|apply print_uint_are; lia].
    + rewrite number_app, print_uint_number by lia. change (number [48]) with 0. lia.
    + left. replace (print_uint (Z.abs x)) with [48 + Z.abs x]; [reflexivity|]. unfold print_uint. cbn [print_digits].
      destruct (Z.ltb_spec (Z.abs x) 10); [reflexivity|lia].
  - exists (print_uint (Z.abs x)). split; [apply print_uint_are; lia|]. split; [apply print_uint_number; lia|]. split; [reflexivity|].
    destruct (print_uint_size (Z.abs x) ltac:(lia)) as [[A B] P]. unfold vsize in A, B, P.
    set (k := List.length (print_uint (Z.abs x))) in *.
    assert (2 <= Z.of_nat k).
    { destruct (Z_lt_le_dec (Z.of_nat k) 2); [|assumption]. replace (Z.of_nat k) with 1 in B by lia. change (10 ^ 1) with 10 in B. lia. }
    destruct (Z.eq_dec (Z.of_nat k) 2); [left; lia|right; split; [lia|exact A]].
Qed.
Definition six_text (q x : Z) : list Z :=
  let ds := print_uint q in
  if (-4 <=? x) && (x <? 6) then
    if 0 <=? x then firstn (Z.to_nat (x + 1)) ds ++ pointed (strip_zeros (skipn (Z.to_nat (x + 1)) ds))
    else [48] ++ pointed (repeat 48 (Z.to_nat (- x - 1)) ++ strip_zeros ds)
  else firstn 1 ds ++ pointed (strip_zeros (skipn 1 ds)) ++ print_exponent x.
Lemma pointed_with w f : w ++ pointed f = with_point w f.
Proof. destruct f; reflexivity. Qed.
Lemma decimal_cut q k m j : 0 <= j -> q = m * 10 ^ j -> (decimal q k == decimal m (j + k))%Q.
Proof. intros H ->. symmetry. apply decimal_shift. exact H. Qed.
Lemma six_range q x : 100000 <= q < 1000000 -> (decimal 1 x <= decimal q (x - 5))%Q /\ (decimal q (x - 5) < decimal 1 (x + 1))%Q.
Proof.
  intros H. replace (decimal 1 x) with (decimal 1 (5 + (x - 5))) by (f_equal; lia). replace (decimal 1 (x + 1)) with (decimal 1 (6 + (x - 5))) by (f_equal; lia).
  rewrite !decimal_shift by lia. split; [apply decimal_le|apply decimal_mono]; lia.
Qed.
Lemma six_text_ok q x : 100000 <= q < 1000000 -> Z.abs x < 18446744073709551616 -> decimal_text (decimal q (x - 5)) (six_text q x).
Proof.
  intros Hq Hx. destruct (six_print q Hq) as (c & l & E & Hc & Hl & Ll & V). destruct (six_range q x Hq) as [RL RU].
  unfold six_text. rewrite E. destruct ((-4 <=? x) && (x <? 6)) eqn:C.
  - rewrite andb_true_iff, Z.leb_le, Z.ltb_lt in C.
    assert (A : (decimal 1 (-4) <= decimal q (x - 5))%Q) by (apply Qle_trans with (2 := RL); apply decimal_one_le; lia).
    assert (B : (decimal q (x - 5) < decimal 1 6)%Q) by (apply Qlt_le_trans with (1 := RU); apply decimal_one_le; lia).
    destruct (Z.leb_spec 0 x) as [P|P].
    + rewrite pointed_with. replace (Z.to_nat (x + 1)) with (S (Z.to_nat x)) by lia. cbn [firstn skipn].
      set (w := firstn (Z.to_nat x) l). set (r := skipn (Z.to_nat x) l).
      assert (Er : l = w ++ r) by (symmetry; apply firstn_skipn). assert (Dl := Hl). rewrite Er in Dl. apply digits_app in Dl. destruct Dl as [Dw Dr].
      destruct (strip_zeros_spec r) as [k Ek]. set (f := strip_zeros r) in *.
      apply text_fixed; [| |  | exact A | exact B].
      * split; [constructor; [lia|exact Dw]|]. exists c, w. split; [reflexivity|]. lia.
      * apply strip_decimals. exact Dr.
      * assert (Lr : (List.length r = 5 - Z.to_nat x)%nat) by (unfold r; rewrite skipn_length, Ll; reflexivity).
        assert (Lf : (List.length f + k = List.length r)%nat) by (rewrite Ek, app_length, repeat_length; reflexivity).
        rewrite (decimal_cut q (x - 5) (number ((c :: w) ++ f)) (Z.of_nat k)); [|lia|].
        -- replace (Z.of_nat k + (x - 5)) with (- Z.of_nat (List.length f)) by lia. reflexivity.
        -- rewrite <- V, Er, Ek. change (c :: w ++ f ++ repeat 48 k) with ((c :: w) ++ f ++ repeat 48 k). rewrite app_assoc, number_app, number_zeros, repeat_length. lia.
    + rewrite pointed_with. rewrite <- E in *. destruct (strip_zeros_spec (print_uint q)) as [k Ek]. set (s := strip_zeros (print_uint q)) in *.
      pose proof (strip_decimals (print_uint q) ltac:(rewrite E; constructor; [lia|exact Hl])) as [Ds Ns]. fold s in Ds, Ns.
      apply text_fixed; [| |  | exact A | exact B].
      * split; [apply (zeros_digits 1)|]. exists 48, []. auto.
      * split; [apply digits_app; split; [apply zeros_digits|exact Ds]|].
        intros l' E'. destruct s as [|c0 s0] eqn:Es using rev_ind.
        -- assert (q = 0); [|lia]. rewrite <- V, Ek. apply number_zeros.
        -- rewrite app_assoc in E'. apply app_inj_tail in E'. destruct E' as [_ ->]. apply (Ns s0). reflexivity.
      * assert (L6 : (List.length s + k = 6)%nat).
        { pose proof (f_equal (@List.length Z) Ek) as F. rewrite E, app_length, repeat_length in F. cbn [List.length] in F. lia. }
        rewrite app_length, repeat_length.
        rewrite (decimal_cut q (x - 5) (number ([48] ++ repeat 48 (Z.to_nat (- x - 1)) ++ s)) (Z.of_nat k)); [|lia|].
        -- replace (Z.of_nat k + (x - 5)) with (- Z.of_nat (Z.to_nat (- x - 1) + List.length s)) by lia. reflexivity.
        -- rewrite <- V at 1. rewrite Ek at 1. rewrite app_assoc. change ([48] ++ repeat 48 (Z.to_nat (- x - 1))) with (repeat 48 (S (Z.to_nat (- x - 1)))).
           rewrite !number_app, !number_zeros, repeat_length. lia.
  - rewrite app_assoc, pointed_with. cbn [firstn skipn]. destruct (strip_zeros_spec l) as [k Ek]. set (f := strip_zeros l) in *.
    assert (Lf : (List.length f + k = 5)%nat) by (rewrite <- Ll, Ek, app_length, repeat_length; reflexivity).
    apply text_exponent with (x := x); [exact Hc|apply strip_decimals; exact Hl|apply print_exponent_text; exact Hx| |].
    + rewrite (decimal_cut q (x - 5) (number (c :: f)) (Z.of_nat k)); [|lia|].
      * replace (Z.of_nat k + (x - 5)) with (x - Z.of_nat (List.length f)) by lia. reflexivity.
      * rewrite <- V, Ek at 1. change (c :: f ++ repeat 48 k) with ((c :: f) ++ repeat 48 k). rewrite number_app, number_zeros, repeat_length. lia.
    + rewrite andb_false_iff, Z.leb_gt, Z.ltb_ge in C. destruct C as [C|C].
      * left. apply Qlt_le_trans with (1 := RU). apply decimal_one_le. lia.
      * right. apply Qle_trans with (2 := RL). apply decimal_one_le. lia.
Qed.

(** * Doubles *)
Lemma exponent_bound n d a : 0 < n < 10 ^ a -> 0 < d <= 10 ^ a -> 0 <= a -> Z.abs (exponent_of n d) <= a + 1.
Proof.
  intros Hn Hd Ha. destruct (exponent_of_spec n d ltac:(lia) ltac:(lia)) as [[P [A _]]|[P [_ B]]]; set (x := exponent_of n d) in *.
  - assert (10 ^ x < 10 ^ a) by (pose proof (pow10_pos x P); nia). apply Z.pow_lt_mono_r_iff in H; lia.
  - assert (H : 10 ^ (- x) < 10 ^ (a + 1)) by (rewrite Z.pow_add_r by lia; change (10 ^ 1) with 10; pose proof (pow10_pos (- x) ltac:(lia)); nia).
    apply Z.pow_lt_mono_r_iff in H; lia.
Qed.
Lemma nearest_eq x x' v : (x == x')%Q -> nearest_six x v -> nearest_six x' v.
Proof.
  intros E [S6 H]. split; [exact S6|]. intros w Hw Nw. destruct (H w Hw Nw) as [L|[L T]]; [left|right; split; [|exact T]]; rewrite <- E; exact L.
Qed.
Lemma shown_eq x x' t : (x == x')%Q -> number_text x t -> number_text x' t.
Proof.
  intros E [[Z0 ->]|[P (v & N & T)]]; [left; split; [rewrite <- E; exact Z0|reflexivity]|].
  right. split; [rewrite <- E; exact P|]. exists v. split; [exact (nearest_eq _ _ _ E N)|exact T].
Qed.
Lemma ratio_pos n d : 0 < n -> 0 < d -> (0 < ratio n d)%Q.
Proof. intros Hn Hd. unfold ratio, Qdiv. apply Qmult_lt_0_compat; [apply inject_pos; exact Hn|apply Qinv_lt_0_compat, inject_pos; exact Hd]. Qed.
Lemma print_ratio_shown n d : 0 < n < 10 ^ 1100 -> 0 < d <= 10 ^ 1100 -> number_text (ratio n d) (print_ratio n d).
Proof.
  intros Hn Hd. right. split; [apply ratio_pos; lia|].
  destruct (six_round_nearest n d ltac:(lia) ltac:(lia)) as (q & x & E & Hq & N & Hx).
  exists (decimal q (x - 5)). split; [exact N|]. unfold print_ratio. rewrite E. apply six_text_ok; [exact Hq|].
  pose proof (exponent_bound n d 1100 Hn Hd ltac:(lia)). lia.
Qed.
Lemma print_double_shown nan s m e : Z.pos m < 2 ^ 53 -> -1074 <= e <= 971 ->
  exists t, print_double nan (S754_finite s m e) = (if s then [45] else []) ++ t /\ number_text (binary (Z.pos m) e) t.
Proof.
  intros Hm He. cbn [print_double]. eexists. split; [reflexivity|].
  assert (T : 2 ^ 1100 < 10 ^ 1100) by (vm_compute; reflexivity).
  destruct (Z.leb_spec 0 e) as [P|P].
  - apply shown_eq with (ratio (Z.pos m * 2 ^ e) 1).
    + unfold ratio, binary. rewrite inject_Z_mult, Zpower_Qpower by exact P. change (inject_Z 2) with (2 # 1). field.
    + assert (0 < 2 ^ e) by (apply Z.pow_pos_nonneg; lia). apply print_ratio_shown; [|vm_compute; intuition congruence].
      split; [nia|]. apply Z.le_lt_trans with (2 ^ 53 * 2 ^ e); [nia|]. rewrite <- Z.pow_add_r by lia.
      apply Z.le_lt_trans with (2 ^ 1100); [apply Z.pow_le_mono_r; lia|exact T].
  - apply shown_eq with (ratio (Z.pos m) (2 ^ (- e))).
    + unfold ratio, binary. rewrite Zpower_Qpower by lia. change (inject_Z 2) with (2 # 1). rewrite Qpower_opp.
      unfold Qdiv. rewrite Qinv_involutive. reflexivity.
    + apply print_ratio_shown.
      * split; [lia|]. apply Z.lt_trans with (1 := Hm). apply Z.le_lt_trans with (2 ^ 1100); [apply Z.pow_le_mono_r; lia|exact T].
      * split; [apply Z.pow_pos_nonneg; lia|]. apply Z.lt_le_incl. apply Z.le_lt_trans with (2 ^ 1100); [apply Z.pow_le_mono_r; lia|exact T].
Qed.

(** * What the specification says *)
Lemma nearest_le x v w : nearest_six x v -> six_digits w -> (Qabs (v - x) <= Qabs (w - x))%Q.
Proof.
  intros [S6 H] Hw. destruct (Qeq_dec w v) as [E|N]; [rewrite E; apply Qle_refl|]. destruct (H w Hw N) as [L|[L _]]; [apply Qlt_le_weak; exact L|rewrite L; apply Qle_refl].
Qed.
Lemma Qabs_case (a : Q) : ((0 <= a)%Q /\ (Qabs a == a)%Q) \/ ((a <= 0)%Q /\ (Qabs a == - a)%Q).
Proof.
  destruct (Qlt_le_dec a 0) as [L|L]; [right|left]; (split; [lra|]); [apply Qabs_neg; lra|apply Qabs_pos; exact L].
Qed.
Lemma nearest_mono x x' v v' : (x < x')%Q -> nearest_six x v -> nearest_six x' v' -> (v <= v')%Q.
Proof.
  intros L H H'. apply Qnot_lt_le. intros G. pose proof (nearest_le _ _ _ H (proj1 H')) as A. pose proof (nearest_le _ _ _ H' (proj1 H)) as B.
  destruct (Qabs_case (v - x)) as [[? E1]|[? E1]], (Qabs_case (v' - x)) as [[? E2]|[? E2]], (Qabs_case (v - x')) as [[? E3]|[? E3]], (Qabs_case (v' - x')) as [[? E4]|[? E4]];
    rewrite E1, E2 in A; rewrite E3, E4 in B; lra.
Qed.
Lemma nearest_exact x v : six_digits x -> nearest_six x v -> (v == x)%Q.
Proof.
  intros Hx H. pose proof (nearest_le _ _ _ H Hx) as L. destruct (Qabs_case (v - x)) as [[? E1]|[? E1]], (Qabs_case (x - x)) as [[? E2]|[? E2]]; rewrite E1, E2 in L; lra.
Qed.
Lemma nearest_error x v : (0 < x)%Q -> nearest_six x v -> (Qabs (v - x) <= x * (1 # 200000))%Q.
Proof.
  intros P H. assert (E0 : (x == ratio (Qnum x) (Z.pos (Qden x)))%Q) by (unfold ratio; destruct x as [a b]; cbn [Qnum Qden]; apply Qmake_Qdiv).
  assert (Hn : 0 < Qnum x) by (unfold Qlt in P; cbn [Qnum Qden] in P; lia). set (n := Qnum x) in *. set (d := Z.pos (Qden x)) in *.
  assert (Hd : 0 < d) by (unfold d; lia). set (k := exponent_of n d - 5).
  destruct (scaled n d (exponent_of n d) Hn Hd) as (N & D & HN & HD & E & _ & C). fold k in E.
  pose proof (scaled_bounds n d N D Hn Hd C) as B. destruct (div_even_spec N D HD) as [R _]. set (q := div_even N D) in *.
  rewrite E in E0. assert (S6 : six_digits (decimal q k)).
  { assert (Q : 100000 <= q <= 1000000) by nia. destruct (Z.eq_dec q 1000000) as [->|Nq]; [|exists q, k; split; [lia|reflexivity]].
    exists 100000, (1 + k). split; [lia|]. rewrite decimal_shift by lia. reflexivity. }
  apply Qle_trans with (1 := nearest_le _ _ _ H S6). rewrite (distance N D k q x HD E0).
  pose proof (ten_pos k) as PT. pose proof (inject_pos D HD) as PD. pose proof (inject_nz D HD) as NZ.
  assert (L1 : ((10 # 1) ^ k / inject_Z D * inject_Z (Z.abs (q * D - N)) <= (10 # 1) ^ k * (1 # 2))%Q).
  { setoid_replace ((10 # 1) ^ k / inject_Z D * inject_Z (Z.abs (q * D - N)))%Q with ((10 # 1) ^ k * (inject_Z (Z.abs (q * D - N)) / inject_Z D))%Q by (field; exact NZ).
    apply Qmult_le_l; [exact PT|]. apply Qle_shift_div_r; [exact PD|].
    assert (R' : (inject_Z (2 * Z.abs (q * D - N)) <= inject_Z D)%Q) by (rewrite <- Zle_Qle; exact R). rewrite inject_Z_mult in R'. change (inject_Z 2) with (2 # 1) in R'. lra. }
  assert (L2 : ((100000 # 1) * (10 # 1) ^ k <= x)%Q).
  { rewrite E0. apply Qmult_le_compat_r; [|apply Qlt_le_weak; exact PT]. apply Qle_shift_div_l; [exact PD|]. change (100000 # 1) with (inject_Z 100000).
    rewrite <- inject_Z_mult, <- Zle_Qle. lia. }
  lra.
Qed.
Lemma even_gap v v' : sixth_even v -> sixth_even v' -> (v < v')%Q -> exists w, six_digits w /\ (v < w)%Q /\ (w < v')%Q.
Proof.
  intros (a & b & Ha & Ev & E) (a' & b' & Ha' & Ev' & E') L.
  assert (Oa : a <> 999999) by (intros ->; discriminate Ev).
  exists (decimal (a + 1) b). split; [exists (a + 1), b; split; [lia|reflexivity]|].
  split; [rewrite E; apply decimal_mono; lia|]. rewrite E'. rewrite E, E' in L.
  destruct (Z_lt_le_dec b' b) as [Lb|Lb].
  - exfalso. apply (Qlt_not_le _ _ L). apply Qle_trans with (decimal 1 (6 + b')).
    + rewrite decimal_shift by lia. apply decimal_le. lia.
    + apply Qle_trans with (decimal 1 (5 + b)); [apply decimal_one_le; lia|]. rewrite decimal_shift by lia. apply decimal_le. lia.
  - assert (Eb : (decimal a' b' == decimal (a' * 10 ^ (b' - b)) b)%Q) by (rewrite <- decimal_shift by lia; replace (b' - b + b) with b' by lia; reflexivity).
    rewrite Eb in L |- *. set (z := a' * 10 ^ (b' - b)) in *.
    assert (Ez : Z.even z = true) by (unfold z; rewrite Z.even_mul, Ev'; reflexivity).
    assert (Lz : a < z).
    { destruct (Z_lt_le_dec a z) as [|G]; [assumption|]. exfalso. apply (Qlt_not_le _ _ L). apply decimal_le. exact G. }
    apply decimal_mono. assert (z <> a + 1); [|lia]. intros Ez'. rewrite Ez', Z.even_add, Ev in Ez. discriminate Ez.
Qed.
Lemma nearest_unique x v v' : nearest_six x v -> nearest_six x v' -> (v == v')%Q.
Proof.
  intros H H'. destruct (Qeq_dec v v') as [E|N]; [exact E|]. exfalso.
  assert (N' : ~ (v' == v)%Q) by (intros E; apply N; symmetry; exact E).
  destruct (proj2 H v' (proj1 H') N') as [L|[T Ev]].
  { pose proof (nearest_le _ _ _ H' (proj1 H)). lra. }
  destruct (proj2 H' v (proj1 H) N) as [L|[_ Ev']]; [rewrite T in L; apply (Qlt_irrefl _ L)|].
  assert (G : exists w, six_digits w /\ ((v < w)%Q /\ (w < v')%Q \/ (v' < w)%Q /\ (w < v)%Q)).
  { destruct (Qlt_le_dec v v') as [L|L].
    - destruct (even_gap v v' Ev Ev' L) as (w & Sw & B). exists w. auto.
    - assert (L' : (v' < v)%Q) by (apply Qle_lteq in L; destruct L as [L|L]; [exact L|contradiction]).
      destruct (even_gap v' v Ev' Ev L') as (w & Sw & B). exists w. auto. }
  destruct G as (w & Sw & B). pose proof (nearest_le _ _ _ H Sw) as L1. pose proof (nearest_le _ _ _ H' Sw) as L2.
  destruct (Qabs_case (v - x)) as [[? E1]|[? E1]], (Qabs_case (v' - x)) as [[? E2]|[? E2]], (Qabs_case (w - x)) as [[? E3]|[? E3]];
    rewrite E1, E2 in T; rewrite E1, E3 in L1; rewrite E2, E3 in L2; destruct B as [[? ?]|[? ?]]; try lra; apply N; lra.
Qed.

(** * One text for a number *)
Lemma decimal_inj a b k : (decimal a k == decimal b k)%Q -> a = b.
Proof.
  intros E. destruct (Z.lt_trichotomy a b) as [L|[L|L]]; [|exact L|]; exfalso; pose proof (decimal_mono _ _ k L) as Q; rewrite E in Q; apply (Qlt_irrefl _ Q).
Qed.
Lemma digits_inj : forall l l', digits l -> digits l' -> List.length l = List.length l' -> number l = number l' -> l = l'.
Proof.
  induction l as [|c l IH]; intros [|c' l'] D D' L E; [reflexivity|discriminate L|discriminate L|].
  inversion D as [|? ? Hc Dl]; inversion D' as [|? ? Hc' Dl']; subst. cbn [List.length] in L. injection L as L.
  rewrite !number_cons, <- L in E. pose proof (digits_bound l Dl) as B. pose proof (digits_bound l' Dl') as B'. rewrite <- L in B'.
  set (p := 10 ^ Z.of_nat (List.length l)) in *. assert (Ec : c = c') by nia. subst c'. f_equal. apply IH; [assumption|assumption|assumption|lia].
Qed.
Lemma align_lt h f h' f' x : digits f' -> (forall l, f' <> l ++ [48]) -> (List.length f < List.length f')%nat ->
  (decimal (number (h ++ f)) (x - Z.of_nat (List.length f)) == decimal (number (h' ++ f')) (x - Z.of_nat (List.length f')))%Q -> False.
Proof.
  intros D N L E. set (j := Z.of_nat (List.length f') - Z.of_nat (List.length f)).
  assert (Ej : (x - Z.of_nat (List.length f) = j + (x - Z.of_nat (List.length f')))%Z) by (unfold j; lia).
  rewrite Ej, decimal_shift in E by (unfold j; lia). apply decimal_inj in E.
  destruct f' as [|c g _] using rev_ind; [cbn [List.length] in L; lia|]. apply digits_app in D. destruct D as [_ D]. inversion D as [|? ? Hc _]. subst.
  rewrite app_assoc, (number_app (h' ++ g) [c]) in E. change (10 ^ Z.of_nat (List.length [c])) with 10 in E. change (number [c]) with (c - 48) in E.
  replace j with (1 + (j - 1)) in E by lia. rewrite Z.pow_add_r in E by (unfold j; lia). change (10 ^ 1) with 10 in E.
  assert (c = 48) by lia. subst c. apply (N g). reflexivity.
Qed.
Lemma align h f h' f' x : decimals f -> decimals f' ->
  (decimal (number (h ++ f)) (x - Z.of_nat (List.length f)) == decimal (number (h' ++ f')) (x - Z.of_nat (List.length f')))%Q ->
  f = f' /\ number h = number h'.
Proof.
  intros [D N] [D' N'] E. destruct (Nat.lt_trichotomy (List.length f) (List.length f')) as [L|[L|L]].
  - exfalso. exact (align_lt h f h' f' x D' N' L E).
  - rewrite L in E. apply decimal_inj in E. rewrite !number_app, L in E. pose proof (digits_bound f D) as B. pose proof (digits_bound f' D') as B'. rewrite L in B.
    set (p := 10 ^ Z.of_nat (List.length f')) in *. assert (Eh : number h = number h') by nia. split; [|exact Eh]. apply digits_inj; [assumption|assumption|assumption|nia].
  - exfalso. apply (align_lt h' f' h f x D N L). symmetry. exact E.
Qed.
Lemma lead_digit c l : 49 <= c <= 57 -> digits l -> 10 ^ Z.of_nat (List.length l) <= number (c :: l) < 10 ^ (Z.of_nat (List.length l) + 1).
Proof.
  intros Hc D. rewrite number_cons. pose proof (digits_bound l D). rewrite Z.pow_add_r by lia. change (10 ^ 1) with 10. nia.
Qed.
Lemma same_size l l' n : 10 ^ Z.of_nat (List.length l) <= n < 10 ^ (Z.of_nat (List.length l) + 1) ->
  10 ^ Z.of_nat (List.length l') <= n < 10 ^ (Z.of_nat (List.length l') + 1) -> List.length (l : list Z) = List.length (l' : list Z).
Proof.
  intros H H'. assert (A : 10 ^ Z.of_nat (List.length l) < 10 ^ (Z.of_nat (List.length l') + 1)) by lia.
  assert (B : 10 ^ Z.of_nat (List.length l') < 10 ^ (Z.of_nat (List.length l) + 1)) by lia.
  apply Z.pow_lt_mono_r_iff in A; [|lia|lia]. apply Z.pow_lt_mono_r_iff in B; lia.
Qed.
Lemma whole_inj w w' : whole_part w -> whole_part w' -> number w = number w' -> w = w'.
Proof.
  intros (D & c & l & -> & Z0) (D' & c' & l' & -> & Z0') E. inversion D as [|? ? Hc Dl]; inversion D' as [|? ? Hc' Dl']; subst.
  destruct (Z.eq_dec c 48) as [->|N], (Z.eq_dec c' 48) as [->|N'].
  - rewrite Z0, Z0' by reflexivity. reflexivity.
  - exfalso. rewrite Z0 in E by reflexivity. change (number [48]) with 0 in E. pose proof (lead_digit c' l' ltac:(lia) Dl') as B. pose proof (pow10_pos (Z.of_nat (List.length l')) ltac:(lia)). lia.
  - exfalso. rewrite Z0' in E by reflexivity. change (number [48]) with 0 in E. pose proof (lead_digit c l ltac:(lia) Dl) as B. pose proof (pow10_pos (Z.of_nat (List.length l)) ltac:(lia)). lia.
  - pose proof (lead_digit c l ltac:(lia) Dl) as B. pose proof (lead_digit c' l' ltac:(lia) Dl') as B'. rewrite <- E in B'.
    apply digits_inj; [exact D|exact D'| |exact E]. cbn [List.length]. f_equal. exact (same_size _ _ _ B B').
Qed.
Lemma exponent_text_unique x t t' : exponent_text x t -> exponent_text x t' -> t = t'.
Proof.
  intros (ds & D & V & -> & L) (ds' & D' & V' & -> & L'). f_equal. apply digits_inj; [exact D|exact D'| |lia].
  pose proof (digits_bound ds D) as B. pose proof (digits_bound ds' D') as B'. rewrite V in B. rewrite V' in B'.
  assert (G : forall (a b : list Z), (List.length a < List.length b)%nat -> List.length b = 2%nat \/ (2 < List.length b)%nat /\ 10 ^ (Z.of_nat (List.length b) - 1) <= Z.abs x ->
    Z.abs x < 10 ^ Z.of_nat (List.length a) -> (2 <= List.length a)%nat -> False).
  { intros a b Lt [E2|[_ Lb]] U La; [lia|]. assert (P : 10 ^ (Z.of_nat (List.length b) - 1) < 10 ^ Z.of_nat (List.length a)) by lia.
    apply Z.pow_lt_mono_r_iff in P; lia. }
  destruct (Nat.lt_trichotomy (List.length ds) (List.length ds')) as [H|[H|H]]; [exfalso|exact H|exfalso].
  - apply (G ds ds' H L'); lia.
  - apply (G ds' ds H L); lia.
Qed.
Lemma decimal_text_unique v v' t t' : (v == v')%Q -> decimal_text v t -> decimal_text v' t' -> t = t'.
Proof.
  intros Ev H H'. destruct H as [w f Hw Hf V A B|c f x t Hc Hf Ht V R], H' as [w' f' Hw' Hf' V' A' B'|c' f' x' t' Hc' Hf' Ht' V' R'].
  - rewrite V, V' in Ev. destruct (align w f w' f' 0 Hf Hf' Ev) as [-> E]. rewrite (whole_inj w w' Hw Hw' E). reflexivity.
  - exfalso. destruct R' as [R'|R']; rewrite <- Ev in R'; lra.
  - exfalso. destruct R as [R|R]; rewrite Ev in R; lra.
  - rewrite V, V' in Ev.
    assert (G : forall c f x, 49 <= c <= 57 -> decimals f -> (decimal 1 x <= decimal (number (c :: f)) (x - Z.of_nat (List.length f)))%Q /\
      (decimal (number (c :: f)) (x - Z.of_nat (List.length f)) < decimal 1 (x + 1))%Q).
    { intros c0 f0 x0 H0 [D0 _]. pose proof (lead_digit c0 f0 H0 D0) as [L U]. set (n := Z.of_nat (List.length f0)) in *.
      replace (decimal 1 x0) with (decimal 1 (n + (x0 - n))) by (f_equal; lia). replace (decimal 1 (x0 + 1)) with (decimal 1 (n + 1 + (x0 - n))) by (f_equal; lia).
      rewrite !decimal_shift by lia. split; [apply decimal_le|apply decimal_mono]; lia. }
    destruct (G c f x Hc Hf) as [L U]. destruct (G c' f' x' Hc' Hf') as [L' U']. rewrite <- Ev in L', U'.
    assert (Ex : x = x').
    { destruct (Z.lt_trichotomy x x') as [P|[P|P]]; [exfalso|exact P|exfalso].
      - pose proof (decimal_one_le (x + 1) x' ltac:(lia)). lra.
      - pose proof (decimal_one_le (x' + 1) x ltac:(lia)). lra. }
    subst x'. destruct (align [c] f [c'] f' x Hf Hf' Ev) as [-> E]. change (c - 48 = c' - 48) in E. replace c' with c by lia.
    rewrite (exponent_text_unique x t t' Ht Ht'). reflexivity.
Qed.
Lemma shown_unique x t t' : number_text x t -> number_text x t' -> t = t'.
Proof.
  intros [[Z0 ->]|[P (v & N & T)]] [[Z0' ->]|[P' (v' & N' & T')]].
  - reflexivity.
  - exfalso. rewrite Z0 in P'. apply (Qlt_irrefl _ P').
  - exfalso. rewrite Z0' in P. apply (Qlt_irrefl _ P).
  - exact (decimal_text_unique _ _ _ _ (nearest_unique _ _ _ N N') T T').
Qed.
Lemma print_double_special nan s : print_double nan (S754_zero s) = (if s then str "-0" else str "0") /\
  print_double nan (S754_infinity s) = (if s then str "-inf" else str "inf") /\ print_double nan S754_nan = nan.
Proof. destruct s; vm_compute; repeat split. Qed.
