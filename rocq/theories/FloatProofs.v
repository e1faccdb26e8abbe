(** Products of doubles between 0 and 1. *)
From Verif Require Import Base BaseProofs FloatModel FloatSpec.
From Coq Require Import SpecFloat.

Lemma digits_bounds m : 2 ^ (Z.pos (digits2_pos m) - 1) <= Z.pos m < 2 ^ Z.pos (digits2_pos m).
Proof.
  induction m as [m IH|m IH|]; cbn [digits2_pos]; [| |cbn; lia];
    rewrite Pos2Z.inj_succ; replace (Z.succ (Z.pos (digits2_pos m)) - 1) with (Z.pos (digits2_pos m) - 1 + 1) by lia;
    unfold Z.succ; rewrite !Z.pow_add_r by lia; change (2 ^ 1) with 2; lia.
Qed.

Lemma digits_unique m d : 2 ^ (d - 1) <= Z.pos m < 2 ^ d -> Z.pos (digits2_pos m) = d.
Proof.
  intros H. pose proof (digits_bounds m) as B. set (k := Z.pos (digits2_pos m)) in *.
  assert (K : 0 < k) by (unfold k; lia). clearbody k.
  assert (D : 0 <= d). { destruct (Z.lt_ge_cases d 0); [|assumption]. rewrite (Z.pow_neg_r 2 d) in H by assumption. lia. }
  destruct (Z.lt_trichotomy k d) as [L|[E|L]]; [|exact E|].
  - assert (2 ^ k <= 2 ^ (d - 1)) by (apply Z.pow_le_mono_r; lia). lia.
  - assert (2 ^ d <= 2 ^ (k - 1)) by (apply Z.pow_le_mono_r; lia). lia.
Qed.

Lemma iter_pos_ind {A} (f : A -> A) (P : Z -> A -> Prop) :
  (forall k x, 0 <= k -> P k x -> P (k + 1) (f x)) ->
  forall p k x, 0 <= k -> P k x -> P (k + Z.pos p) (iter_pos f p x).
Proof.
  intros H. induction p as [p IH|p IH|]; intros k x Hk Hx; cbn [iter_pos].
  - replace (k + Z.pos p~1) with (k + 1 + Z.pos p + Z.pos p) by lia. apply IH; [lia|]. apply IH; [lia|]. now apply H.
  - replace (k + Z.pos p~0) with (k + Z.pos p + Z.pos p) by lia. apply IH; [lia|]. now apply IH.
  - now apply H.
Qed.

(** A record after k shifts of N. *)
Definition shifted (N k : Z) (r : shr_record) : Prop :=
  shr_m r = N / 2 ^ k /\
  (N mod 2 ^ k = 0 <-> shr_r r = false /\ shr_s r = false).

Lemma shr_1_ok N k r : 0 <= N -> 0 <= k -> shifted N k r -> shifted N (k + 1) (shr_1 r).
Proof.
  intros HN Hk (Hm & Hr). unfold shifted.
  assert (P : 0 < 2 ^ k) by (apply Z.pow_pos_nonneg; lia).
  rewrite Z.pow_add_r by lia. change (2 ^ 1) with 2.
  rewrite <- Z.div_div by lia. rewrite Z.rem_mul_r by lia.
  assert (Q0 : 0 <= N / 2 ^ k) by (apply Z.div_pos; lia).
  assert (R0 : 0 <= N mod 2 ^ k < 2 ^ k) by (apply Z.mod_pos_bound; lia).
  destruct r as [m rb s]. cbn [shr_m shr_r shr_s] in *. subst m.
  set (q := N / 2 ^ k) in *. set (t := N mod 2 ^ k) in *. clearbody q t.
  pose proof (Z.div_mod q 2 ltac:(lia)) as D. pose proof (Z.mod_pos_bound q 2 ltac:(lia)) as M.
  unfold shr_1.
  assert (O : (rb || s)%bool = false <-> t = 0) by (rewrite orb_false_iff; tauto).
  destruct q as [|p|p]; [| |lia].
  - cbn [shr_m shr_r shr_s]. change (0 / 2) with 0. change (0 mod 2) with 0. split; [reflexivity|].
    rewrite Z.mul_0_r, Z.add_0_r. tauto.
  - assert (X : forall p b, (b = 0 \/ b = 1) -> Z.pos p = 2 * (Z.pos p / 2) + b -> b = Z.pos p mod 2).
    { intros. pose proof (Z.div_mod (Z.pos p0) 2 ltac:(lia)). lia. }
    destruct p as [p|p|]; cbn [shr_m shr_r shr_s].
    + assert (E : Z.pos p~1 mod 2 = 1) by (rewrite Pos2Z.inj_xI in *; lia).
      split; [rewrite E in D; lia|]. rewrite E. split; [intros; nia|intros [C _]; discriminate].
    + assert (E : Z.pos p~0 mod 2 = 0) by (rewrite Pos2Z.inj_xO in *; lia).
      split; [rewrite E in D; lia|]. rewrite E, Z.mul_0_r, Z.add_0_r. tauto.
    + change (1 / 2) with 0. change (1 mod 2) with 1. split; [reflexivity|].
      split; [intros; nia|intros [C _]; discriminate].
Qed.

(** Rounding of a quotient: the integer part, or the next integer when it is not
    exact. *)
Definition rounds (N n q : Z) : Prop :=
  q = N / 2 ^ n \/ (q = N / 2 ^ n + 1 /\ N mod 2 ^ n <> 0).

Lemma rne_ok N n r : shifted N n r -> rounds N n (round_nearest_even (shr_m r) (loc_of_shr_record r)).
Proof.
  intros (Hm & Hr). destruct r as [m [|] [|]]; cbn [shr_m shr_r shr_s loc_of_shr_record round_nearest_even] in *; subst m.
  - right. split; [reflexivity|]. intros C. apply Hr in C as [C _]. discriminate.
  - destruct (Z.even (N / 2 ^ n)); [now left|]. right. split; [reflexivity|]. intros C. apply Hr in C as [C _]. discriminate.
  - now left.
  - now left.
Qed.

Definition fexp' := fexp 53 1024.
Lemma fexp_eq e : fexp' e = Z.max (e - 53) (-1074).
Proof. reflexivity. Qed.

(** The result of a rounding that loses bits. *)
Lemma round_aux_gen (p : positive) (e : Z) :
  let d := Z.pos (digits2_pos p) in
  let e' := fexp' (d + e) in
  e < e' ->
  exists q, rounds (Z.pos p) (e' - e) q /\ 0 <= q <= 2 ^ 53 /\
    binary_round_aux 53 1024 false (Z.pos p) e loc_Exact =
      match q with
      | Z0 => S754_zero false
      | Zneg _ => S754_nan
      | Zpos m => if q =? 2 ^ 53 then (if e' + 1 <=? 971 then S754_finite false 4503599627370496 (e' + 1) else S754_infinity false)
                  else (if e' <=? 971 then S754_finite false m e' else S754_infinity false)
      end.
Proof.
  intros d e' Hlt. unfold binary_round_aux, shr_fexp. cbn [Zdigits2 shr_record_of_loc]. fold fexp' d e'.
  destruct (e' - e) as [|n|n] eqn:En; [lia| |lia].
  cbn [shr].
  set (rec := iter_pos shr_1 n {| shr_m := Z.pos p; shr_r := false; shr_s := false |}).
  assert (Sh : shifted (Z.pos p) (Z.pos n) rec).
  { apply (iter_pos_ind shr_1 (fun k r => shifted (Z.pos p) k r)) with (k := 0); [|lia|].
    - intros k x Hk Hx. apply shr_1_ok; [lia|exact Hk|exact Hx].
    - split; cbn [shr_m shr_r shr_s]; [now rewrite Z.div_1_r|]. rewrite Z.mod_1_r. tauto. }
  pose proof (rne_ok _ _ _ Sh) as Rq.
  set (q := round_nearest_even (shr_m rec) (loc_of_shr_record rec)) in *.
  exists q. clearbody q. clear Sh rec.
  replace (e + Z.pos n) with e' by lia.
  pose proof (digits_bounds p) as Db. fold d in Db.
  assert (Pn : 0 < 2 ^ Z.pos n) by (apply Z.pow_pos_nonneg; lia).
  assert (F0 : 0 <= Z.pos p / 2 ^ Z.pos n) by (apply Z.div_pos; lia).
  assert (Dn : d - Z.pos n <= 53) by (unfold e' in En; rewrite fexp_eq in En; lia).
  assert (Fq : Z.pos p / 2 ^ Z.pos n < 2 ^ 53).
  { apply Z.div_lt_upper_bound; [lia|]. rewrite <- Z.pow_add_r by lia.
    eapply Z.lt_le_trans; [apply Db|]. apply Z.pow_le_mono_r; lia. }
  assert (Hq : 0 <= q <= 2 ^ 53) by (destruct Rq as [->|[-> _]]; lia).
  split; [exact Rq|]. split; [exact Hq|].
  assert (E1 : -1074 <= e') by (unfold e'; rewrite fexp_eq; lia).
  destruct q as [|m|m]; [| |lia].
  - cbn [Zdigits2]. replace (fexp' (0 + e') - e') with (Z.max (-53) (-1074 - e')).
    2:{ change (fexp' (0 + e')) with (Z.max (0 + e' - 53) (-1074)). lia. }
    destruct (Z.max (-53) (-1074 - e')) eqn:Em; [reflexivity|lia|reflexivity].
  - cbn [Zdigits2]. destruct (Z.eqb_spec (Z.pos m) (2 ^ 53)) as [Eqq|Nq].
    + change (2 ^ 53) with (Z.pos 9007199254740992) in Eqq. injection Eqq as ->.
      change (Z.pos (digits2_pos 9007199254740992)) with 54.
      replace (fexp' (54 + e') - e') with 1.
      2:{ change (fexp' (54 + e')) with (Z.max (54 + e' - 53) (-1074)). lia. }
      cbn [shr iter_pos shr_1 shr_m]. change (1024 - 53) with 971.
      reflexivity.
    + pose proof (digits_bounds m) as Dm.
      assert (Hd : Z.pos (digits2_pos m) <= 53).
      { destruct (Z.le_gt_cases (Z.pos (digits2_pos m)) 53); [assumption|].
        assert (2 ^ 53 <= 2 ^ (Z.pos (digits2_pos m) - 1)) by (apply Z.pow_le_mono_r; lia). lia. }
      assert (N : fexp' (Z.pos (digits2_pos m) + e') - e' <= 0).
      { change (fexp' (Z.pos (digits2_pos m) + e')) with (Z.max (Z.pos (digits2_pos m) + e' - 53) (-1074)). lia. }
      destruct (fexp' (Z.pos (digits2_pos m) + e') - e'); [|lia|];
        cbn [shr shr_m]; change (1024 - 53) with 971; reflexivity.
Qed.

Lemma round_aux_ok (p : positive) (e : Z) :
  let d := Z.pos (digits2_pos p) in
  let e' := fexp' (d + e) in
  e < e' -> e' <= 900 ->
  exists q, rounds (Z.pos p) (e' - e) q /\ 0 <= q <= 2 ^ 53 /\
    binary_round_aux 53 1024 false (Z.pos p) e loc_Exact =
      match q with
      | Z0 => S754_zero false
      | Zneg _ => S754_nan
      | Zpos m => if q =? 2 ^ 53 then S754_finite false 4503599627370496 (e' + 1)
                  else S754_finite false m e'
      end.
Proof.
  intros d e' Hlt Hmax. destruct (round_aux_gen p e Hlt) as (q & R & Hq & E). exists q. split; [exact R|]. split; [exact Hq|].
  rewrite E. fold d e'. destruct q as [|m|m]; [reflexivity| |reflexivity].
  destruct (Z.leb_spec (e' + 1) 971), (Z.leb_spec e' 971); try lia. reflexivity.
Qed.

Lemma normal_digits m e : normal_form m e -> fexp' (Z.pos (digits2_pos m) + e) = e /\ Z.pos (digits2_pos m) <= 53.
Proof.
  intros (H1 & H2 & H3). pose proof (digits_bounds m) as D. rewrite fexp_eq.
  assert (Hd : Z.pos (digits2_pos m) <= 53).
  { destruct (Z.le_gt_cases (Z.pos (digits2_pos m)) 53); [assumption|].
    assert (2 ^ 53 <= 2 ^ (Z.pos (digits2_pos m) - 1)) by (apply Z.pow_le_mono_r; lia). lia. }
  split; [|exact Hd]. destruct H3 as [->|H3]; [lia|].
  assert (Z.pos (digits2_pos m) = 53) by (apply digits_unique; change (53 - 1) with 52; lia). lia.
Qed.

(** The product of two of them: it loses bits, and it is at most each of them. *)
Lemma mul_unit_pos mx ex my ey :
  normal_form mx ex -> ex <= 0 -> Z.pos mx <= 2 ^ (- ex) ->
  normal_form my ey -> ey <= 0 -> Z.pos my <= 2 ^ (- ey) ->
  let r := dmul (S754_finite false mx ex) (S754_finite false my ey) in
  (unit_double r /\ dle r (S754_finite false mx ex) = true) /\
  (2 ^ 52 <= Z.pos mx -> 2 ^ 52 <= Z.pos my -> -1074 < ex + ey + 52 ->
   exists m e, r = S754_finite false m e /\ 2 ^ 52 <= Z.pos m /\ ex + ey + 52 <= e).
Proof.
  intros Nx Ex Lx Ny Ey Ly r.
  destruct (normal_digits _ _ Nx) as (Fx & Dx). destruct (normal_digits _ _ Ny) as (Fy & Dy).
  assert (Hx52 : ex <= -52).
  { destruct Nx as (_ & _ & [->|H]); [lia|]. destruct (Z.le_gt_cases ex (-52)) as [|G]; [assumption|exfalso].
    assert (2 ^ (- ex) <= 2 ^ 51) by (apply Z.pow_le_mono_r; lia).
    assert (2 ^ 51 < 2 ^ 52) by (apply Z.pow_lt_mono_r; lia). lia. }
  assert (Hy52 : ey <= -52).
  { destruct Ny as (_ & _ & [->|H]); [lia|]. destruct (Z.le_gt_cases ey (-52)) as [|G]; [assumption|exfalso].
    assert (2 ^ (- ey) <= 2 ^ 51) by (apply Z.pow_le_mono_r; lia).
    assert (2 ^ 51 < 2 ^ 52) by (apply Z.pow_lt_mono_r; lia). lia. }
  pose proof (digits_bounds (mx * my)) as Dp.
  pose proof (digits_bounds mx) as Bx.
  (* the product is at most x *)
  assert (Pxy : Z.pos (mx * my) <= Z.pos mx * 2 ^ (- ey)) by (rewrite Pos2Z.inj_mul; nia).
  assert (Dle : Z.pos (digits2_pos (mx * my)) <= Z.pos (digits2_pos mx) - ey).
  { destruct (Z.le_gt_cases (Z.pos (digits2_pos (mx * my))) (Z.pos (digits2_pos mx) - ey)) as [|G]; [assumption|exfalso].
    assert (A : 2 ^ (Z.pos (digits2_pos mx) - ey) <= 2 ^ (Z.pos (digits2_pos (mx * my)) - 1)) by (apply Z.pow_le_mono_r; lia).
    replace (Z.pos (digits2_pos mx) - ey) with (Z.pos (digits2_pos mx) + (- ey)) in A by lia.
    rewrite Z.pow_add_r in A by lia. assert (0 < 2 ^ (- ey)) by (apply Z.pow_pos_nonneg; lia). nia. }
  assert (Dp1 : 1 <= Z.pos (digits2_pos (mx * my))) by lia.
  set (e' := fexp' (Z.pos (digits2_pos (mx * my)) + (ex + ey))).
  assert (Ee' : e' = Z.max (Z.pos (digits2_pos (mx * my)) + (ex + ey) - 53) (-1074)) by reflexivity.
  assert (Lt' : ex + ey < e').
  { destruct Nx as (X1 & X2 & [X3|X3]); [lia|]. destruct Ny as (Y1 & Y2 & [Y3|Y3]); [lia|].
    assert (105 <= Z.pos (digits2_pos (mx * my))); [|lia].
    destruct (Z.le_gt_cases 105 (Z.pos (digits2_pos (mx * my)))) as [|G]; [assumption|exfalso].
    assert (A : 2 ^ Z.pos (digits2_pos (mx * my)) <= 2 ^ 104) by (apply Z.pow_le_mono_r; lia).
    assert (B : 2 ^ 104 = 2 ^ 52 * 2 ^ 52) by reflexivity. rewrite Pos2Z.inj_mul in Dp.
    assert (C : 2 ^ 52 * 2 ^ 52 <= Z.pos mx * Z.pos my) by (apply Z.mul_le_mono_nonneg; lia). lia. }
  assert (Le' : e' <= ex).
  { rewrite fexp_eq in Fx. lia. }
  destruct (round_aux_ok (mx * my) (ex + ey)) as (q & Rq & Hq & E); [exact Lt'|fold e'; lia|].
  fold e' in Rq, E. unfold r, dmul, SFmul. cbn [xorb]. rewrite E. clear E r.
  set (n := e' - (ex + ey)) in *.
  assert (Pn : 0 < 2 ^ n) by (apply Z.pow_pos_nonneg; lia).
  (* rounding up does not pass a multiple of 2^n *)
  assert (Up : forall K, Z.pos (mx * my) <= K * 2 ^ n -> q <= K).
  { intros K HK. destruct Rq as [->|[-> Hm]].
    - apply Z.div_le_upper_bound; lia.
    - pose proof (Z.div_mod (Z.pos (mx * my)) (2 ^ n) ltac:(lia)) as DM.
      pose proof (Z.mod_pos_bound (Z.pos (mx * my)) (2 ^ n) ltac:(lia)) as MB.
      assert (Z.pos (mx * my) / 2 ^ n < K); [|lia]. nia. }
  assert (U1 : q <= 2 ^ (- e')).
  { apply Up. rewrite <- Z.pow_add_r by lia. replace (- e' + n) with (- ex + - ey) by lia.
    rewrite Z.pow_add_r by lia. rewrite Pos2Z.inj_mul. apply Z.mul_le_mono_nonneg; lia. }
  assert (U2 : q <= Z.pos mx * 2 ^ (ex - e')).
  { apply Up. rewrite <- Z.mul_assoc, <- Z.pow_add_r by lia. replace (ex - e' + n) with (- ey) by lia. exact Pxy. }
  assert (Hd : Z.pos (digits2_pos (mx * my)) - n <= 53) by lia.
  split.
  2:{ intros X52 Y52 He.
      assert (D105 : 105 <= Z.pos (digits2_pos (mx * my))).
      { destruct (Z.le_gt_cases 105 (Z.pos (digits2_pos (mx * my)))) as [|G]; [assumption|exfalso].
        assert (A : 2 ^ Z.pos (digits2_pos (mx * my)) <= 2 ^ 104) by (apply Z.pow_le_mono_r; lia).
        assert (B : 2 ^ 104 = 2 ^ 52 * 2 ^ 52) by reflexivity. rewrite Pos2Z.inj_mul in Dp.
        assert (C : 2 ^ 52 * 2 ^ 52 <= Z.pos mx * Z.pos my) by (apply Z.mul_le_mono_nonneg; lia). lia. }
      assert (Ed : e' = Z.pos (digits2_pos (mx * my)) + (ex + ey) - 53) by lia.
      assert (F : 2 ^ 52 <= Z.pos (mx * my) / 2 ^ n).
      { apply Z.div_le_lower_bound; [lia|]. rewrite <- Z.pow_add_r by lia.
        replace (n + 52) with (Z.pos (digits2_pos (mx * my)) - 1) by lia. lia. }
      assert (Fq : 2 ^ 52 <= q) by (destruct Rq as [->|[-> _]]; lia).
      destruct q as [|m|m]; [lia| |lia].
      destruct (Z.eqb_spec (Z.pos m) (2 ^ 53)) as [Eqq|Nq].
      - exists 4503599627370496%positive, (e' + 1). split; [reflexivity|]. split; [reflexivity|]. lia.
      - exists m, e'. split; [reflexivity|]. split; [exact Fq|]. lia. }
  destruct q as [|m|m]; [| |lia].
  - split; [left; reflexivity|reflexivity].
  - destruct (Z.eqb_spec (Z.pos m) (2 ^ 53)) as [Eqq|Nq].
    + assert (Lt2 : e' < ex).
      { destruct (Z.eq_dec e' ex) as [C|]; [|lia]. exfalso. rewrite C, Z.sub_diag, Z.mul_1_r in U2.
        destruct Nx as (_ & X & _). lia. }
      assert (N52 : 2 ^ 52 <= Z.pos mx) by (destruct Nx as (_ & _ & [X|X]); lia).
      split.
      * right. exists 4503599627370496%positive, (e' + 1). split; [reflexivity|]. split.
        { split; [lia|]. split; [reflexivity|]. right. reflexivity. }
        split; [lia|]. change (Z.pos 4503599627370496) with (2 ^ 52). apply Z.pow_le_mono_r; lia.
      * unfold dle, SFleb, SFcompare. destruct (Z.compare_spec (e' + 1) ex); [|reflexivity|lia].
        assert (P52 : (4503599627370496 <= mx)%positive) by lia.
        change (Pcompare 4503599627370496 mx Eq) with (4503599627370496 ?= mx)%positive.
        destruct (4503599627370496 ?= mx)%positive eqn:D; try reflexivity. apply Pos.compare_gt_iff in D. exfalso. exact (Pos.lt_irrefl _ (Pos.lt_le_trans _ _ _ D P52)).
    + split.
      * right. exists m, e'. split; [reflexivity|]. split.
        { split; [lia|]. split; [lia|]. destruct (Z.eq_dec e' (-1074)) as [|Ne]; [now left|right].
          assert (Ed : e' = Z.pos (digits2_pos (mx * my)) + (ex + ey) - 53) by lia.
          assert (F : 2 ^ 52 <= Z.pos (mx * my) / 2 ^ n).
          { apply Z.div_le_lower_bound; [lia|]. rewrite <- Z.pow_add_r by lia.
            replace (n + 52) with (Z.pos (digits2_pos (mx * my)) - 1) by lia. lia. }
          destruct Rq as [->|[-> _]]; lia. }
        split; [lia|exact U1].
      * unfold dle, SFleb, SFcompare. destruct (Z.compare_spec e' ex) as [C|C|C]; [|reflexivity|lia].
        rewrite C, Z.sub_diag, Z.mul_1_r in U2.
        change (Pcompare m mx Eq) with (m ?= mx)%positive.
        destruct (m ?= mx)%positive eqn:D; try reflexivity. apply Pos.compare_gt_iff in D. clear -U2 D. lia.
Qed.

Lemma dmul_unit x y : unit_double x -> unit_double y -> unit_double (dmul x y) /\ dle (dmul x y) x = true.
Proof.
  intros [->|(mx & ex & -> & Nx & Ex & Lx)] [->|(my & ey & -> & Ny & Ey & Ly)].
  - split; [left; reflexivity|reflexivity].
  - split; [left; reflexivity|reflexivity].
  - split; [left; reflexivity|reflexivity].
  - now apply mul_unit_pos.
Qed.

(** * Comparison *)
(** An integer that orders the doubles between 0 and 1. *)
Definition dkey (x : double) : Z :=
  match x with
  | S754_finite _ m e => (e + 1075) * 2 ^ 53 + Z.pos m
  | _ => 0
  end.

Lemma dkey_0 : dkey d0 = 0.
Proof. reflexivity. Qed.

Lemma compare_finite mx ex my ey : normal_form mx ex -> normal_form my ey ->
  SFcompare (S754_finite false mx ex) (S754_finite false my ey) =
  Some (dkey (S754_finite false mx ex) ?= dkey (S754_finite false my ey)).
Proof.
  intros (X1 & X2 & _) (Y1 & Y2 & _). unfold SFcompare, dkey. f_equal.
  pose proof (Pos2Z.is_pos mx). pose proof (Pos2Z.is_pos my).
  destruct (Z.compare_spec ex ey) as [->|L|L].
  - change (Pcompare mx my Eq) with (mx ?= my)%positive. rewrite Pos2Z.inj_compare. symmetry.
    destruct (Z.compare_spec (Z.pos mx) (Z.pos my)).
    + apply Z.compare_eq_iff. lia.
    + apply Z.compare_lt_iff. lia.
    + apply Z.compare_gt_iff. lia.
  - symmetry. apply Z.compare_lt_iff. set (P := 2 ^ 53) in *. clearbody P. nia.
  - symmetry. apply Z.compare_gt_iff. set (P := 2 ^ 53) in *. clearbody P. nia.
Qed.

Lemma dkey_pos m e : normal_form m e -> 0 < dkey (S754_finite false m e).
Proof.
  intros (X1 & _). unfold dkey. pose proof (Pos2Z.is_pos m).
  assert (0 < 2 ^ 53) by (apply Z.pow_pos_nonneg; lia). set (P := 2 ^ 53) in *. clearbody P. nia.
Qed.

Lemma compare_unit x y : unit_double x -> unit_double y -> SFcompare x y = Some (dkey x ?= dkey y).
Proof.
  intros [->|(mx & ex & -> & Nx & _)] [->|(my & ey & -> & Ny & _)].
  - reflexivity.
  - rewrite dkey_0. pose proof (dkey_pos _ _ Ny) as H. apply Z.compare_lt_iff in H. rewrite H. reflexivity.
  - rewrite dkey_0. pose proof (dkey_pos _ _ Nx) as H. apply Z.compare_gt_iff in H. rewrite H. reflexivity.
  - now apply compare_finite.
Qed.

Lemma dlt_key x y : unit_double x -> unit_double y -> dlt x y = (dkey x <? dkey y).
Proof.
  intros Hx Hy. unfold dlt, SFltb, Z.ltb. rewrite (compare_unit _ _ Hx Hy). now destruct (dkey x ?= dkey y).
Qed.
Lemma dle_key x y : unit_double x -> unit_double y -> dle x y = (dkey x <=? dkey y).
Proof.
  intros Hx Hy. unfold dle, SFleb, Z.leb. rewrite (compare_unit _ _ Hx Hy). now destruct (dkey x ?= dkey y).
Qed.

Lemma unit_d1 : unit_double d1.
Proof. right. exists 4503599627370496%positive, (-52). repeat split; try lia. Qed.

(** 1 is the greatest. *)
Lemma dkey_le_1 x : unit_double x -> dkey x <= dkey d1.
Proof.
  intros [->|(m & e & -> & (N1 & N2 & N3) & E & L)]; [unfold dkey, d0, d1; lia|].
  assert (He : e <= -52).
  { destruct N3 as [->|H]; [lia|]. destruct (Z.le_gt_cases e (-52)) as [|G]; [assumption|exfalso].
    assert (2 ^ (- e) <= 2 ^ 51) by (apply Z.pow_le_mono_r; lia).
    assert (2 ^ 51 < 2 ^ 52) by (apply Z.pow_lt_mono_r; lia). lia. }
  unfold dkey, d1. destruct (Z.eq_dec e (-52)) as [->|Ne].
  - change (2 ^ (- -52)) with 4503599627370496 in L. lia.
  - assert (A : (e + 1075 + 1) * 2 ^ 53 <= (-52 + 1075) * 2 ^ 53) by (apply Z.mul_le_mono_nonneg_r; lia).
    set (P := 2 ^ 53) in *. clearbody P. lia.
Qed.

Lemma dkey_inj x y : unit_double x -> unit_double y -> dkey x = dkey y -> x = y.
Proof.
  intros [->|(mx & ex & -> & Nx & _)] [->|(my & ey & -> & Ny & _)] E.
  - reflexivity.
  - pose proof (dkey_pos _ _ Ny). rewrite dkey_0 in E. lia.
  - pose proof (dkey_pos _ _ Nx). rewrite dkey_0 in E. lia.
  - destruct Nx as (X1 & X2 & _), Ny as (Y1 & Y2 & _). unfold dkey in E.
    pose proof (Pos2Z.is_pos mx). pose proof (Pos2Z.is_pos my).
    assert (ex = ey). { set (P := 2 ^ 53) in *. clearbody P. nia. }
    subst ey. assert (Z.pos mx = Z.pos my) by lia. congruence.
Qed.

(** * Lower bounds *)
(** At least 2^(-k). *)
Definition above (k : Z) (x : double) : Prop :=
  exists m e, x = S754_finite false m e /\ 2 ^ 52 <= Z.pos m /\ -52 - k <= e.

Lemma above_mono k k' x : k <= k' -> above k x -> above k' x.
Proof. intros H (m & e & -> & M & E). exists m, e. repeat split; [exact M|lia]. Qed.

Lemma dmul_above j k x y : unit_double x -> unit_double y -> above j x -> above k y -> j + k < 1000 ->
  above (j + k) (dmul x y).
Proof.
  intros [->|(mx & ex & -> & Nx & Ex & Lx)]; [intros _ (m & e & H & _); discriminate|].
  intros [->|(my & ey & -> & Ny & Ey & Ly)]; [intros _ (m & e & H & _); discriminate|].
  intros (m1 & e1 & E1 & M1 & L1) (m2 & e2 & E2 & M2 & L2) Hjk.
  injection E1 as <- <-. injection E2 as <- <-.
  destruct (mul_unit_pos mx ex my ey Nx Ex Lx Ny Ey Ly) as (_ & K).
  destruct K as (m & e & -> & M & E); [exact M1|exact M2|lia|].
  exists m, e. split; [reflexivity|]. split; [exact M|]. lia.
Qed.

(** * Half of the best *)
Lemma mul_half m e : 2 ^ 52 <= Z.pos m < 2 ^ 53 -> -1073 <= e <= 0 ->
  dmul (S754_finite false m e) dhalf = S754_finite false m (e - 1).
Proof.
  intros Hm He. unfold dmul, dhalf, SFmul. cbn [xorb].
  assert (D : Z.pos (digits2_pos (m * 4503599627370496)) = 105).
  { apply digits_unique. rewrite Pos2Z.inj_mul. change (Z.pos 4503599627370496) with (2 ^ 52).
    change (105 - 1) with (52 + 52). change 105 with (53 + 52). rewrite !Z.pow_add_r by lia.
    split; [apply Z.mul_le_mono_nonneg_r; lia|apply Zmult_lt_compat_r; lia]. }
  destruct (round_aux_ok (m * 4503599627370496) (e + -53)) as (q & Rq & Hq & E).
  { rewrite D, fexp_eq. lia. }
  { rewrite D, fexp_eq. lia. }
  rewrite E. clear E. rewrite D in *. rewrite fexp_eq in *.
  replace (Z.max (105 + (e + -53) - 53) (-1074)) with (e - 1) in * by lia.
  replace (e - 1 - (e + -53)) with 52 in Rq by lia.
  assert (Q : q = Z.pos m).
  { rewrite Pos2Z.inj_mul in Rq. change (Z.pos 4503599627370496) with (2 ^ 52) in Rq.
    unfold rounds in Rq. rewrite Z.div_mul, Z.mod_mul in Rq by (apply Z.pow_nonzero; lia). destruct Rq as [->|[_ C]]; [reflexivity|congruence]. }
  subst q. destruct (Z.eqb_spec (Z.pos m) (2 ^ 53)) as [C|_]; [lia|reflexivity].
Qed.

Lemma half_best x y k : unit_double x -> above k x -> k < 1000 -> unit_double y ->
  dle (dmul x dhalf) y = true -> at_most 2 x y.
Proof.
  intros Hx (m & e & -> & M & E) Hk Hy.
  destruct Hx as [C|(m' & e' & Q & (N1 & N2 & N3) & E' & L)]; [discriminate|]. injection Q as <- <-.
  rewrite mul_half by lia.
  destruct Hy as [->|(my & ey & -> & (Y1 & Y2 & Y3) & Ey & Ly)].
  { intros H. discriminate H. }
  unfold dle, SFleb. rewrite compare_finite; [|split; [lia|split; [exact N2|right; exact M]]|split; [lia|split; [exact Y2|exact Y3]]].
  destruct (Z.compare_spec (dkey (S754_finite false m (e - 1))) (dkey (S754_finite false my ey))) as [C|C|C];
    intros H; try discriminate H; clear H; unfold at_most, dkey in *.
  all: pose proof (Pos2Z.is_pos m); pose proof (Pos2Z.is_pos my).
  all: destruct (Z.le_gt_cases e ey) as [Le|Gt].
  all: try (rewrite Z.min_l by lia; rewrite Z.sub_diag, Z.mul_1_r).
  all: try (assert (My : 2 ^ 52 <= Z.pos my) by lia; assert (P1 : 1 <= 2 ^ (ey - e)) by (apply (Z.pow_le_mono_r 2 0); lia);
    assert (T : 2 ^ 53 = 2 * 2 ^ 52) by reflexivity; set (A := 2 ^ (ey - e)) in *; clearbody A; nia).
  all: assert (Ee : ey = e - 1) by (set (P := 2 ^ 53) in *; clearbody P; nia); subst ey.
  all: rewrite Z.min_r by lia; rewrite Z.sub_diag, Z.mul_1_r; replace (e - (e - 1)) with 1 by lia; change (2 ^ 1) with 2; lia.
Qed.

(** * Percentages *)
Definition unit_doubleb (x : double) : bool :=
  match x with
  | S754_zero false => true
  | S754_finite false m e =>
    (-1074 <=? e) && (Z.pos m <? 2 ^ 53) && ((e =? -1074) || (2 ^ 52 <=? Z.pos m)) && (e <=? 0) && (Z.pos m <=? 2 ^ (- e))
  | _ => false
  end.
Lemma unit_doubleb_ok x : unit_doubleb x = true -> unit_double x.
Proof.
  destruct x as [[|]| | |[|] m e]; cbn [unit_doubleb]; try discriminate; [intros _; left; reflexivity|].
  rewrite !andb_true_iff, orb_true_iff. intros ((((A & B) & C) & D) & E). right. exists m, e.
  split; [reflexivity|]. split; [split; [lia|split; [lia|]]; destruct C; [left|right]; lia|]. split; lia.
Qed.
Definition aboveb (k : Z) (x : double) : bool :=
  match x with S754_finite false m e => (2 ^ 52 <=? Z.pos m) && (-52 - k <=? e) | _ => false end.
Lemma aboveb_ok k x : aboveb k x = true -> above k x.
Proof.
  destruct x as [| | |[|] m e]; cbn [aboveb]; try discriminate. rewrite andb_true_iff. intros (A & B).
  exists m, e. split; [reflexivity|]. split; lia.
Qed.
