(** Products of a double by a percentage, divided by 100. *)
From Verif Require Import Base BaseProofs FloatModel FloatSpec FloatProofs.
From Coq Require Import SpecFloat.

(** A record after k shifts of the quotient of N by D. *)
Definition shiftedq (N D k : Z) (r : shr_record) : Prop :=
  shr_m r = N / (D * 2 ^ k) /\
  (N mod (D * 2 ^ k) = 0 <-> shr_r r = false /\ shr_s r = false).

Lemma shr_1_q N D k r : 0 <= N -> 0 < D -> 0 <= k -> shiftedq N D k r -> shiftedq N D (k + 1) (shr_1 r).
Proof.
  intros HN HD Hk (Hm & Hr). unfold shiftedq.
  assert (P0 : 0 < 2 ^ k) by (apply Z.pow_pos_nonneg; lia).
  rewrite Z.pow_add_r by lia. change (2 ^ 1) with 2. rewrite Z.mul_assoc.
  set (P := D * 2 ^ k) in *. assert (HP : 0 < P) by (apply Z.mul_pos_pos; assumption). clearbody P.
  rewrite <- Z.div_div by lia. rewrite Z.rem_mul_r by lia.
  assert (Q0 : 0 <= N / P) by (apply Z.div_pos; lia).
  assert (R0 : 0 <= N mod P < P) by (apply Z.mod_pos_bound; lia).
  destruct r as [m rb s]. cbn [shr_m shr_r shr_s] in *. subst m.
  set (q := N / P) in *. set (t := N mod P) in *. clearbody q t.
  pose proof (Z.div_mod q 2 ltac:(lia)) as D2. pose proof (Z.mod_pos_bound q 2 ltac:(lia)) as M.
  unfold shr_1.
  assert (O : (rb || s)%bool = false <-> t = 0) by (rewrite orb_false_iff; tauto).
  destruct q as [|p|p]; [| |lia].
  - cbn [shr_m shr_r shr_s]. change (0 / 2) with 0. change (0 mod 2) with 0. split; [reflexivity|].
    rewrite Z.mul_0_r, Z.add_0_r. tauto.
  - destruct p as [p|p|]; cbn [shr_m shr_r shr_s].
    + assert (E : Z.pos p~1 mod 2 = 1) by (rewrite Pos2Z.inj_xI in *; lia).
      split; [rewrite E in D2; lia|]. rewrite E. split; [intros; nia|intros [C _]; discriminate].
    + assert (E : Z.pos p~0 mod 2 = 0) by (rewrite Pos2Z.inj_xO in *; lia).
      split; [rewrite E in D2; lia|]. rewrite E, Z.mul_0_r, Z.add_0_r. tauto.
    + change (1 / 2) with 0. change (1 mod 2) with 1. split; [reflexivity|].
      split; [intros; nia|intros [C _]; discriminate].
Qed.

Definition roundsq (N D n q : Z) : Prop :=
  q = N / (D * 2 ^ n) \/ (q = N / (D * 2 ^ n) + 1 /\ N mod (D * 2 ^ n) <> 0).
Lemma rne_q N D n r : shiftedq N D n r -> roundsq N D n (round_nearest_even (shr_m r) (loc_of_shr_record r)).
Proof.
  intros (Hm & Hr). destruct r as [m [|] [|]]; cbn [shr_m shr_r shr_s loc_of_shr_record round_nearest_even] in *; subst m.
  - right. split; [reflexivity|]. intros C. apply Hr in C as [C _]. discriminate.
  - destruct (Z.even (N / (D * 2 ^ n))); [now left|]. right. split; [reflexivity|]. intros C. apply Hr in C as [C _]. discriminate.
  - now left.
  - now left.
Qed.
(** Rounding does not pass an integer. *)
Lemma roundsq_le N D n q K : 0 < D -> 0 <= n -> roundsq N D n q -> N <= K * (D * 2 ^ n) -> q <= K.
Proof.
  intros HD Hn R HK. assert (0 < 2 ^ n) by (apply Z.pow_pos_nonneg; lia).
  set (P := D * 2 ^ n) in *. assert (HP : 0 < P) by (apply Z.mul_pos_pos; assumption).
  assert (R' : q = N / P \/ q = N / P + 1 /\ N mod P <> 0) by exact R. clear R. clearbody P.
  destruct R' as [->|[-> Hm]].
  - apply Z.div_le_upper_bound; lia.
  - pose proof (Z.div_mod N P ltac:(lia)) as DM. pose proof (Z.mod_pos_bound N P ltac:(lia)) as MB. nia.
Qed.

Lemma zdigits_bounds q : 0 <= q -> q < 2 ^ Zdigits2 q /\ (0 < q -> 2 ^ (Zdigits2 q - 1) <= q) /\ 0 <= Zdigits2 q.
Proof.
  intros H. destruct q as [|p|p]; cbn [Zdigits2]; [cbn; lia| |lia]. pose proof (digits_bounds p) as B.
  split; [apply B|]. split; [intros _; apply B|lia].
Qed.

(** The result of a rounding. *)
Lemma round_q (N D e : Z) (l : location) :
  0 <= N -> 0 < D -> shiftedq N D 0 (shr_record_of_loc (N / D) l) ->
  let e' := fexp' (Zdigits2 (N / D) + e) in
  e <= e' -> e' <= 900 ->
  exists q, roundsq N D (e' - e) q /\ 0 <= q <= 2 ^ 53 /\
    binary_round_aux 53 1024 false (N / D) e l =
      match q with
      | Z0 => S754_zero false
      | Zneg _ => S754_nan
      | Zpos m => if q =? 2 ^ 53 then S754_finite false 4503599627370496 (e' + 1)
                  else S754_finite false m e'
      end.
Proof.
  intros HN HD S0 e' Hle Hmax. unfold binary_round_aux, shr_fexp. fold fexp' e'.
  assert (HX : exists rec, shr (shr_record_of_loc (N / D) l) e (e' - e) = (rec, e') /\ shiftedq N D (e' - e) rec).
  { destruct (e' - e) as [|n|n] eqn:En; [| |lia].
    - eexists. split; [cbn [shr]; f_equal; lia|exact S0].
    - eexists. split; [cbn [shr]; f_equal; lia|].
      apply (iter_pos_ind shr_1 (fun k r => shiftedq N D k r)) with (k := 0); [|lia|exact S0].
      intros k x Hk Hx. now apply shr_1_q. }
  destruct HX as (rec & Es & Sh). rewrite Es. clear Es S0.
  pose proof (rne_q _ _ _ _ Sh) as Rq.
  set (q := round_nearest_even (shr_m rec) (loc_of_shr_record rec)) in *.
  exists q. clearbody q. clear Sh rec.
  assert (Q0 : 0 <= N / D) by (apply Z.div_pos; lia).
  destruct (zdigits_bounds _ Q0) as (Db & _ & Dp).
  set (n := e' - e) in *. assert (Hn : 0 <= n) by lia.
  assert (Pn : 0 < 2 ^ n) by (apply Z.pow_pos_nonneg; lia).
  assert (F0 : 0 <= N / (D * 2 ^ n)) by (apply Z.div_pos; [lia|apply Z.mul_pos_pos; lia]).
  assert (Dn : Zdigits2 (N / D) - n <= 53) by (unfold n, e'; rewrite fexp_eq; lia).
  assert (Fq : N / (D * 2 ^ n) < 2 ^ 53).
  { rewrite <- Z.div_div by lia. apply Z.div_lt_upper_bound; [lia|]. rewrite <- Z.pow_add_r by lia.
    eapply Z.lt_le_trans; [apply Db|]. apply Z.pow_le_mono_r; lia. }
  assert (Hq : 0 <= q <= 2 ^ 53) by (destruct Rq as [->|[-> _]]; lia).
  split; [exact Rq|]. split; [exact Hq|].
  assert (E1 : -1074 <= e') by (unfold e'; rewrite fexp_eq; lia).
  cbn [shr_record_of_loc].
  destruct q as [|m|m]; [| |lia].
  - cbn [Zdigits2]. replace (fexp' (0 + e') - e') with (Z.max (-53) (-1074 - e')).
    2:{ change (fexp' (0 + e')) with (Z.max (0 + e' - 53) (-1074)). lia. }
    destruct (Z.max (-53) (-1074 - e')) eqn:Em; [reflexivity|lia|reflexivity].
  - cbn [Zdigits2]. destruct (Z.eqb_spec (Z.pos m) (2 ^ 53)) as [Eqq|Nq].
    + change (2 ^ 53) with (Z.pos 9007199254740992) in Eqq. injection Eqq as ->.
      change (Z.pos (digits2_pos 9007199254740992)) with 54.
      replace (fexp' (54 + e') - e') with 1.
      2:{ change (fexp' (54 + e')) with (Z.max (54 + e' - 53) (-1074)). lia. }
      cbn [shr iter_pos shr_1 shr_m]. change (1024 - 53) with 971.
      destruct (Z.leb_spec (e' + 1) 971); [reflexivity|lia].
    + pose proof (digits_bounds m) as Dm.
      assert (Hd : Z.pos (digits2_pos m) <= 53).
      { destruct (Z.le_gt_cases (Z.pos (digits2_pos m)) 53); [assumption|].
        assert (2 ^ 53 <= 2 ^ (Z.pos (digits2_pos m) - 1)) by (apply Z.pow_le_mono_r; lia). lia. }
      assert (N1 : fexp' (Z.pos (digits2_pos m) + e') - e' <= 0).
      { change (fexp' (Z.pos (digits2_pos m) + e')) with (Z.max (Z.pos (digits2_pos m) + e' - 53) (-1074)). lia. }
      destruct (fexp' (Z.pos (digits2_pos m) + e') - e'); [|lia|];
        cbn [shr shr_m]; change (1024 - 53) with 971; (destruct (Z.leb_spec e' 971); [reflexivity|lia]).
Qed.

(** At most K * 2^(-k), with an exponent that is at most -k. *)
Definition upto (K k : Z) (x : double) : Prop :=
  x = d0 \/ exists m e, x = S754_finite false m e /\ normal_form m e /\ e <= - k /\ Z.pos m <= K * 2 ^ (- k - e).

(** The bound of a rounded value. *)
Lemma round_upto (N D e : Z) (l : location) K k :
  0 <= N -> 0 < D -> shiftedq N D 0 (shr_record_of_loc (N / D) l) ->
  let e' := fexp' (Zdigits2 (N / D) + e) in
  e <= e' -> 0 <= k -> e' + 1 <= - k -> 0 <= K -> N <= D * K * 2 ^ (- k - e) ->
  upto K k (binary_round_aux 53 1024 false (N / D) e l).
Proof.
  intros HN HD S0 e' Hle Hk Hmax HK HB.
  destruct (round_q N D e l HN HD S0) as (q & Rq & Hq & E); [exact Hle|fold e'; lia|]. fold e' in Rq, E. rewrite E.
  assert (P1 : 0 < 2 ^ (- k - e')) by (apply Z.pow_pos_nonneg; lia).
  assert (Q : q <= K * 2 ^ (- k - e')).
  { apply (roundsq_le N D (e' - e)); [exact HD|lia|exact Rq|].
    replace (K * 2 ^ (- k - e') * (D * 2 ^ (e' - e))) with (D * K * (2 ^ (- k - e') * 2 ^ (e' - e))) by ring.
    rewrite <- Z.pow_add_r by lia. replace (- k - e' + (e' - e)) with (- k - e) by lia. exact HB. }
  assert (E1 : -1074 <= e') by (unfold e'; rewrite fexp_eq; lia).
  destruct q as [|m|m]; [left; reflexivity| |lia]. right.
  destruct (Z.eqb_spec (Z.pos m) (2 ^ 53)) as [Em|Nm].
  - exists 4503599627370496%positive, (e' + 1). split; [reflexivity|]. split; [split; [lia|split; [reflexivity|right; reflexivity]]|].
    split; [lia|].
    replace (- k - e') with (- k - (e' + 1) + 1) in Q by lia. rewrite Z.pow_add_r in Q by lia. rewrite Em in Q. clear - Q.
    change (Z.pos 4503599627370496) with (2 ^ 52). change (2 ^ 53) with (2 * 2 ^ 52) in Q. lia.
  - exists m, e'. split; [reflexivity|]. split; [|split; [lia|exact Q]].
    split; [exact E1|]. split; [lia|]. destruct (Z.eq_dec e' (-1074)) as [|Ne]; [now left|right].
    assert (Q0 : 0 <= N / D) by (apply Z.div_pos; lia).
    destruct (zdigits_bounds _ Q0) as (_ & Db & Dp).
    assert (Ed : e' = Zdigits2 (N / D) + e - 53) by (unfold e' in *; rewrite fexp_eq in *; lia).
    assert (Pq : 0 < N / D). { destruct (Z.eq_dec (N / D) 0) as [C|]; [|lia]. rewrite C in Ed. cbn [Zdigits2] in Ed. lia. }
    assert (F : 2 ^ 52 <= N / (D * 2 ^ (e' - e))).
    { rewrite <- Z.div_div by (try apply Z.pow_pos_nonneg; try apply Z.pow_nonzero; lia).
      apply Z.div_le_lower_bound; [apply Z.pow_pos_nonneg; lia|]. rewrite <- Z.pow_add_r by lia.
      replace (e' - e + 52) with (Zdigits2 (N / D) - 1) by lia. now apply Db. }
    destruct Rq as [->|[-> _]]; lia.
Qed.

(** * The integers up to 100 *)
Definition small_double (c : Z) (x : double) : bool :=
  match x with
  | S754_finite false m e => (2 ^ 52 <=? Z.pos m) && (Z.pos m <? 2 ^ 53) && (-52 <=? e) && (e <=? -46) && (Z.pos m =? c * 2 ^ (- e))
  | _ => false
  end.
Lemma double_of_small c : 1 <= c <= 100 -> exists m e, double_of c = S754_finite false m e /\
  2 ^ 52 <= Z.pos m < 2 ^ 53 /\ -52 <= e <= -46 /\ Z.pos m = c * 2 ^ (- e).
Proof.
  intros H. assert (A : forallb (fun c => small_double (c + 1) (double_of (c + 1))) (zrange 100) = true) by (vm_compute; reflexivity).
  rewrite forallb_forall in A. specialize (A (c - 1)). replace (c - 1 + 1) with c in A by lia.
  assert (I : In (c - 1) (zrange 100)) by (apply zrange_In; lia).
  specialize (A I). destruct (double_of c) as [| | |[|] m e]; cbn [small_double] in A; try discriminate.
  exists m, e. split; [reflexivity|]. rewrite !andb_true_iff in A. lia.
Qed.

Lemma digits_le p k : 0 <= k -> Z.pos p < 2 ^ k -> Z.pos (digits2_pos p) <= k.
Proof.
  intros Hk H. pose proof (digits_bounds p) as B. destruct (Z.le_gt_cases (Z.pos (digits2_pos p)) k) as [|G]; [assumption|exfalso].
  assert (2 ^ k <= 2 ^ (Z.pos (digits2_pos p) - 1)) by (apply Z.pow_le_mono_r; lia). lia.
Qed.
Lemma digits_ge p k : 0 <= k -> 2 ^ k <= Z.pos p -> k < Z.pos (digits2_pos p).
Proof.
  intros Hk H. pose proof (digits_bounds p) as B. destruct (Z.le_gt_cases (Z.pos (digits2_pos p)) k) as [G|]; [exfalso|assumption].
  assert (2 ^ Z.pos (digits2_pos p) <= 2 ^ k) by (apply Z.pow_le_mono_r; lia). lia.
Qed.

Lemma exact_shift N : shiftedq N 1 0 (shr_record_of_loc (N / 1) loc_Exact).
Proof.
  split; cbn [shr_record_of_loc shr_m shr_r shr_s]; [rewrite Z.pow_0_r, Z.mul_1_r; reflexivity|]. rewrite Z.pow_0_r, Z.mul_1_r, Z.mod_1_r. tauto.
Qed.
Lemma mul_upto b c p : 0 <= b <= 2 ^ 40 -> 0 <= c <= 100 -> upto b 40 p -> upto (b * c) 40 (dmul p (double_of c)).
Proof.
  intros Hb Hc [->|(m & e & -> & Nm & He & Hm)].
  { left. destruct (Z.eq_dec c 0) as [->|]; [reflexivity|].
    destruct (double_of_small c) as (mc & ec & -> & _); [lia|]. reflexivity. }
  destruct (Z.eq_dec c 0) as [->|]; [left; reflexivity|].
  destruct (double_of_small c) as (mc & ec & -> & Bc & Ec & Vc); [lia|].
  unfold dmul, SFmul. cbn [xorb]. rewrite <- (Z.div_1_r (Z.pos (m * mc))).
  assert (P1 : 0 < 2 ^ (-40 - e)) by (apply Z.pow_pos_nonneg; lia).
  assert (P2 : 0 < 2 ^ (- ec)) by (apply Z.pow_pos_nonneg; lia).
  assert (HB : Z.pos (m * mc) <= b * c * 2 ^ (-40 - (e + ec))).
  { replace (-40 - (e + ec)) with (-40 - e + - ec) by lia. rewrite Z.pow_add_r by lia. rewrite Pos2Z.inj_mul, Vc.
    replace (b * c * (2 ^ (-40 - e) * 2 ^ (- ec))) with (b * 2 ^ (-40 - e) * (c * 2 ^ (- ec))) by ring.
    apply Z.mul_le_mono_nonneg_r; [apply Z.mul_nonneg_nonneg; lia|exact Hm]. }
  apply round_upto; rewrite ?Z.div_1_r.
  - lia.
  - lia.
  - rewrite <- (Z.div_1_r (Z.pos (m * mc))) at 2. apply exact_shift.
  - cbn [Zdigits2]. rewrite fexp_eq. assert (52 < Z.pos (digits2_pos (m * mc))); [|lia]. apply digits_ge; [lia|]. rewrite Pos2Z.inj_mul. nia.
  - lia.
  - cbn [Zdigits2]. rewrite fexp_eq. assert (Z.pos (digits2_pos (m * mc)) <= 7 - (e + ec)); [|lia]. apply digits_le; [lia|].
    eapply Z.le_lt_trans; [exact HB|]. replace (7 - (e + ec)) with (47 + (-40 - (e + ec))) by lia. rewrite (Z.pow_add_r 2 47) by lia.
    apply Zmult_lt_compat_r; [apply Z.pow_pos_nonneg; lia|]. change (2 ^ 47) with (128 * 2 ^ 40). nia.
  - nia.
  - change (- (40)) with (-40). lia.
Qed.

(** The place of the remainder of a division. *)
Lemma location_ok N D r : (exists n e, D = n * 2 ^ (- e) /\ e <= -46 /\ 1 <= n) -> r = N mod D ->
  shiftedq N D 0 (shr_record_of_loc (N / D) (new_location D r)).
Proof.
  intros (n & e & Ed & He & Hn) R. assert (Ev : Z.even D = true).
  { rewrite Ed. replace (- e) with (Z.succ (- e - 1)) by lia. rewrite Z.pow_succ_r by lia.
    replace (n * (2 * 2 ^ (- e - 1))) with (2 * (n * 2 ^ (- e - 1))) by ring. rewrite Z.even_mul. reflexivity. }
  split; rewrite Z.pow_0_r, Z.mul_1_r.
  - unfold new_location. rewrite Ev. unfold new_location_even. destruct (Zeq_bool r 0); [reflexivity|]. now destruct (2 * r ?= D).
  - rewrite <- R. unfold new_location. rewrite Ev. unfold new_location_even. destruct (Zeq_bool r 0) eqn:Er.
    + apply Zeq_bool_eq in Er. cbn. tauto.
    + apply Zeq_bool_neq in Er. split; [intros; contradiction|].
      destruct (2 * r ?= D); cbn [shr_record_of_loc shr_r shr_s]; intros [A B]; discriminate.
Qed.
Lemma div_upto K n b y : 0 <= b <= 2 ^ 40 -> 1 <= n <= 100 -> K <= n * b -> upto K 40 y -> upto b 40 (ddiv y (double_of n)).
Proof.
  intros Hb Hn HK Hy. destruct (double_of_small n Hn) as (mn & en & -> & Bn & En & Vn).
  destruct Hy as [->|(m & e & -> & Nm & He & Hm)]; [left; reflexivity|].
  unfold ddiv, SFdiv. cbn [xorb]. unfold SFdiv_core_binary.
  destruct (normal_digits _ _ Nm) as (_ & D53). destruct Nm as (N1 & N2 & N3).
  cbn [Zdigits2]. rewrite (digits_unique mn 53) by (change (53 - 1) with 52; lia). fold fexp'.
  pose proof (digits_bounds m) as Dm. set (d := Z.pos (digits2_pos m)) in *. assert (D1 : 1 <= d) by (unfold d; lia).
  rewrite fexp_eq. set (e0 := Z.min (Z.max (d + e - (53 + en) - 53) (-1074)) (e - en)).
  assert (E0 : e0 = Z.max (d + e - 106 - en) (-1074)) by (unfold e0; lia). clearbody e0.
  set (s := e - en - e0). assert (Hs : 0 < s) by (unfold s; lia).
  replace (match s with 0 => Z.pos m | Z.pos _ => Z.shiftl (Z.pos m) s | Z.neg _ => 0 end) with (Z.pos m * 2 ^ s).
  2:{ destruct s eqn:Es; [lia| |lia]. rewrite Z.shiftl_mul_pow2 by lia. reflexivity. }
  destruct (Z.div_eucl (Z.pos m * 2 ^ s) (Z.pos mn)) as (q, r) eqn:Eq0.
  assert (P2 : 0 < 2 ^ s) by (apply Z.pow_pos_nonneg; lia).
  set (N := Z.pos m * 2 ^ s) in *. assert (HN : 0 < N) by (apply Z.mul_pos_pos; lia).
  assert (Q : q = N / Z.pos mn) by (unfold Z.div; now rewrite Eq0).
  assert (R : r = N mod Z.pos mn) by (unfold Z.modulo; now rewrite Eq0).
  rewrite Q. clear Eq0.
  assert (HB : N <= Z.pos mn * b * 2 ^ (-40 - e0)).
  { unfold N, s. rewrite Vn. replace (n * 2 ^ (- en) * b * 2 ^ (-40 - e0)) with (n * b * (2 ^ (- en) * 2 ^ (-40 - e0))) by ring.
    rewrite <- Z.pow_add_r by lia. apply Z.le_trans with (K * (2 ^ (-40 - e) * 2 ^ (e - en - e0))).
    - rewrite Z.mul_assoc. apply Z.mul_le_mono_nonneg_r; [lia|exact Hm].
    - rewrite <- Z.pow_add_r by lia. replace (-40 - e + (e - en - e0)) with (- en + (-40 - e0)) by lia.
      apply Z.mul_le_mono_nonneg_r; [apply Z.pow_nonneg; lia|exact HK]. }
  assert (Q0 : 0 <= N / Z.pos mn) by (apply Z.div_pos; lia).
  destruct (zdigits_bounds _ Q0) as (Zb1 & Zb2 & Zb3).
  apply round_upto.
  - lia.
  - lia.
  - now apply location_ok; [exists n, en; repeat split; lia|].
  - rewrite fexp_eq. destruct (Z.eq_dec e0 (-1074)) as [->|Ne]; [lia|].
    assert (Ed : e0 = d + e - 106 - en) by lia. assert (53 <= Zdigits2 (N / Z.pos mn)); [|lia].
    destruct (Z.le_gt_cases 53 (Zdigits2 (N / Z.pos mn))) as [|G]; [assumption|exfalso].
    assert (F : 2 ^ 52 <= N / Z.pos mn).
    { apply Z.div_le_lower_bound; [lia|]. apply Z.le_trans with (2 ^ 53 * 2 ^ 52); [apply Z.mul_le_mono_nonneg_r; lia|].
      rewrite <- Z.pow_add_r by lia. unfold N. apply Z.le_trans with (2 ^ (d - 1) * 2 ^ s).
      - rewrite <- Z.pow_add_r by lia. apply Z.pow_le_mono_r; lia.
      - apply Z.mul_le_mono_nonneg_r; lia. }
    assert (2 ^ Zdigits2 (N / Z.pos mn) <= 2 ^ 52) by (apply Z.pow_le_mono_r; lia). lia.
  - lia.
  - rewrite fexp_eq. assert (Zdigits2 (N / Z.pos mn) <= 1 - e0); [|lia].
    destruct (Z.eq_dec (N / Z.pos mn) 0) as [C|]; [rewrite C; cbn [Zdigits2]; lia|].
    destruct (Z.le_gt_cases (Zdigits2 (N / Z.pos mn)) (1 - e0)) as [|G]; [assumption|exfalso].
    assert (B1 : N / Z.pos mn <= 2 ^ (- e0)).
    { apply Z.div_le_upper_bound; [lia|]. eapply Z.le_trans; [exact HB|]. rewrite <- Z.mul_assoc. apply Z.mul_le_mono_nonneg_l; [lia|].
      replace (- e0) with (40 + (-40 - e0)) by lia. rewrite (Z.pow_add_r 2 40) by lia. apply Z.mul_le_mono_nonneg_r; [apply Z.pow_nonneg; lia|lia]. }
    assert (2 ^ (- e0 + 1) <= 2 ^ (Zdigits2 (N / Z.pos mn) - 1)) by (apply Z.pow_le_mono_r; lia).
    rewrite (Z.pow_add_r 2 (- e0)) in H by lia. assert (0 < 2 ^ (- e0)) by (apply Z.pow_pos_nonneg; lia). lia.
  - lia.
  - exact HB.
Qed.

(** * A percentage of a score *)
Lemma unit_upto x : unit_double x -> upto (2 ^ 40) 40 x.
Proof.
  intros [->|(m & e & -> & N & He & L)]; [now left|]. right. exists m, e. split; [reflexivity|]. split; [exact N|].
  assert (He52 : e <= -52).
  { destruct N as (_ & _ & [->|H]); [lia|]. destruct (Z.le_gt_cases e (-52)) as [|G]; [assumption|exfalso].
    assert (2 ^ (- e) <= 2 ^ 51) by (apply Z.pow_le_mono_r; lia). assert (2 ^ 51 < 2 ^ 52) by (apply Z.pow_lt_mono_r; lia). lia. }
  split; [lia|]. rewrite <- Z.pow_add_r by lia. replace (40 + (- (40) - e)) with (- e) by lia. exact L.
Qed.
Lemma upto_unit b x : 0 <= b <= 2 ^ 40 -> upto b 40 x -> unit_double x.
Proof.
  intros Hb [->|(m & e & -> & N & He & L)]; [now left|]. right. exists m, e. split; [reflexivity|]. split; [exact N|]. split; [lia|].
  eapply Z.le_trans; [exact L|]. replace (- e) with (40 + (- (40) - e)) by lia. rewrite (Z.pow_add_r 2 40) by lia.
  apply Z.mul_le_mono_nonneg_r; [apply Z.pow_nonneg; lia|lia].
Qed.
(** No bound is passed. *)
Lemma share_upto b p x n : 0 <= b <= 2 ^ 40 -> 0 <= x <= n -> 1 <= n <= 100 -> upto b 40 p -> upto b 40 (share p x n).
Proof. intros Hb Hx Hn H. apply (div_upto (b * x) n); [exact Hb|exact Hn|nia|]. apply mul_upto; [exact Hb|lia|exact H]. Qed.
Lemma share_unit p x n : unit_double p -> 0 <= x <= n -> 1 <= n <= 100 -> unit_double (share p x n).
Proof. intros H Hx Hn. apply (upto_unit (2 ^ 40)); [lia|]. apply share_upto; [lia|exact Hx|exact Hn|]. now apply unit_upto. Qed.
(** 99 hundredths, rounded up. *)
Definition b99 : Z := 1088516511499.
Lemma share_99 p c : unit_double p -> 0 <= c <= 99 -> upto b99 40 (share p c 100).
Proof.
  intros H Hc. apply (div_upto (2 ^ 40 * c)); [unfold b99; lia|lia|unfold b99; lia|]. apply mul_upto; [lia|lia|now apply unit_upto].
Qed.
Lemma upto_99_not_1 x : upto b99 40 x -> dle d1 x = false.
Proof.
  intros H. pose proof (upto_unit b99 x ltac:(unfold b99; lia) H) as U.
  rewrite dle_key by (assumption || apply unit_d1). apply Z.leb_gt.
  pose proof (dkey_le_1 _ U) as L. destruct (Z.eq_dec (dkey x) (dkey d1)) as [C|]; [exfalso|lia].
  apply dkey_inj in C; [|exact U|apply unit_d1]. subst x. destruct H as [H|(m & e & E & _ & _ & H)]; [discriminate|].
  injection E as <- <-. revert H. unfold b99. vm_compute. intros H. apply H. reflexivity.
Qed.
Lemma share_100_1 : share d1 100 100 = d1.
Proof. vm_compute. reflexivity. Qed.

(** The whole. *)
Lemma exact_q N D n q m : roundsq N D n q -> 0 < D -> 0 <= n -> N = m * (D * 2 ^ n) -> q = m.
Proof.
  intros R HD Hn ->. assert (P : 0 < D * 2 ^ n) by (apply Z.mul_pos_pos; [lia|apply Z.pow_pos_nonneg; lia]).
  unfold roundsq in R. rewrite Z.div_mul, Z.mod_mul in R by lia. destruct R as [->|[_ C]]; [reflexivity|congruence].
Qed.
Lemma share_1_1 p : unit_double p -> share p 1 1 = p.
Proof.
  intros [->|(m & e & -> & N & He & L)]; [reflexivity|]. unfold share. change (double_of 1) with d1.
  destruct (normal_digits _ _ N) as (F & D53). pose proof N as (N1 & N2 & N3). pose proof (digits_bounds m) as Dm. set (d := Z.pos (digits2_pos m)) in *.
  assert (D1 : 1 <= d) by (unfold d; lia). rewrite fexp_eq in F.
  assert (E1 : dmul (S754_finite false m e) d1 = S754_finite false m e).
  { unfold dmul, d1, SFmul. cbn [xorb]. rewrite <- (Z.div_1_r (Z.pos (m * 4503599627370496))).
    assert (Dg : Zdigits2 (Z.pos (m * 4503599627370496) / 1) = d + 52).
    { rewrite Z.div_1_r. cbn [Zdigits2]. apply digits_unique. rewrite Pos2Z.inj_mul. change (Z.pos 4503599627370496) with (2 ^ 52).
      replace (d + 52 - 1) with (d - 1 + 52) by lia. rewrite !Z.pow_add_r by lia. split; [apply Z.mul_le_mono_nonneg_r; lia|apply Zmult_lt_compat_r; lia]. }
    destruct (round_q (Z.pos (m * 4503599627370496)) 1 (e + -52) loc_Exact) as (q & Rq & Hq & E); rewrite ?Dg, ?fexp_eq.
    - lia.
    - lia.
    - apply exact_shift.
    - lia.
    - lia.
    - rewrite Dg, fexp_eq in Rq, E. replace (Z.max (d + 52 + (e + -52) - 53) (-1074)) with e in Rq, E by lia.
      assert (Eq1 : q = Z.pos m).
      { apply (exact_q _ _ _ _ (Z.pos m) Rq); [lia|lia|]. replace (e - (e + -52)) with 52 by lia. rewrite Pos2Z.inj_mul. change (Z.pos 4503599627370496) with (2 ^ 52). ring. }
      subst q. rewrite E. destruct (Z.eqb_spec (Z.pos m) (2 ^ 53)); [lia|reflexivity]. }
  rewrite E1. clear E1. unfold ddiv, d1, SFdiv. cbn [xorb]. unfold SFdiv_core_binary. cbn [Zdigits2]. change (Z.pos (digits2_pos 4503599627370496)) with 53. fold fexp' d.
  rewrite fexp_eq. set (e0 := Z.min (Z.max (d + e - (53 + -52) - 53) (-1074)) (e - -52)). assert (E0 : e0 = Z.max (d + e - 54) (-1074)) by (unfold e0; lia). clearbody e0.
  set (s := e - -52 - e0). assert (Hs : 52 <= s) by (unfold s; lia).
  replace (match s with 0 => Z.pos m | Z.pos _ => Z.shiftl (Z.pos m) s | Z.neg _ => 0 end) with (Z.pos m * 2 ^ s).
  2:{ destruct s eqn:Es; [lia| |lia]. rewrite Z.shiftl_mul_pow2 by lia. reflexivity. }
  destruct (Z.div_eucl (Z.pos m * 2 ^ s) 4503599627370496) as (q0, r) eqn:Eq0.
  assert (P2 : 0 < 2 ^ s) by (apply Z.pow_pos_nonneg; lia). set (M := Z.pos m * 2 ^ s) in *.
  assert (Q : q0 = M / 4503599627370496) by (unfold Z.div; now rewrite Eq0).
  assert (R : r = M mod 4503599627370496) by (unfold Z.modulo; now rewrite Eq0).
  rewrite Q. clear Eq0.
  assert (EM : M = Z.pos m * 2 ^ (s - 52) * 4503599627370496).
  { unfold M. rewrite <- Z.mul_assoc. f_equal. change 4503599627370496 with (2 ^ 52). rewrite <- Z.pow_add_r by lia. f_equal. lia. }
  assert (Dg : Zdigits2 (M / 4503599627370496) = d + (s - 52)).
  { rewrite EM, Z.div_mul by lia. assert (P3 : 0 < 2 ^ (s - 52)) by (apply Z.pow_pos_nonneg; lia). set (P := Z.pos m * 2 ^ (s - 52)) in *.
    assert (HP : 0 < P) by (apply Z.mul_pos_pos; lia). assert (BP : 2 ^ (d + (s - 52) - 1) <= P < 2 ^ (d + (s - 52))).
    { unfold P. replace (d + (s - 52) - 1) with (d - 1 + (s - 52)) by lia. rewrite !Z.pow_add_r by lia. split; [apply Z.mul_le_mono_nonneg_r; lia|apply Zmult_lt_compat_r; lia]. }
    clearbody P. destruct P as [|pp|pp]; [lia| |lia]. cbn [Zdigits2]. now apply digits_unique. }
  destruct (round_q M 4503599627370496 e0 (new_location 4503599627370496 r)) as (q & Rq & Hq & E); rewrite ?Dg, ?fexp_eq.
  - unfold M. lia.
  - lia.
  - apply location_ok; [exists 1, (-52); repeat split; lia|exact R].
  - lia.
  - lia.
  - rewrite Dg, fexp_eq in Rq, E. replace (Z.max (d + (s - 52) + e0 - 53) (-1074)) with e in Rq, E by lia.
    assert (Eq1 : q = Z.pos m).
    { apply (exact_q _ _ _ _ (Z.pos m) Rq); [lia|lia|]. replace (e - e0) with (s - 52) by lia. rewrite EM. ring. }
    subst q. rewrite E. destruct (Z.eqb_spec (Z.pos m) (2 ^ 53)); [lia|reflexivity].
Qed.
