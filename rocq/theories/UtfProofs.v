(** Proofs about the UTF-8 decoders. *)
From Verif Require Import Base BaseProofs UtfModel UtfSpec.

Lemma lor_shift a s k : 0 <= k -> 0 <= s < 2 ^ k -> Z.lor (Z.shiftl a k) s = a * 2 ^ k + s.
Proof.
  intros Hk Hs. assert (L : Z.land (Z.shiftl a k) s = 0).
  2: { rewrite <- Z.lxor_lor, <- Z.add_nocarry_lxor by exact L. rewrite Z.shiftl_mul_pow2 by lia. reflexivity. }
  apply Z.bits_inj'. intros n Hn. rewrite Z.land_spec, Z.bits_0.
  destruct (Z.ltb_spec n k).
  - rewrite Z.shiftl_spec_low by lia. reflexivity.
  - assert (Z.testbit s n = false) as ->; [|apply andb_false_r].
    destruct (Z.eq_dec s 0) as [->|Nz]; [apply Z.bits_0|].
    apply Z.bits_above_log2; [lia|]. apply Z.log2_lt_pow2; [lia|].
    apply Z.lt_le_trans with (2 ^ k); [lia|]. apply Z.pow_le_mono_r; lia.
Qed.

Lemma land_low a k : 0 <= k -> Z.land a (2 ^ k - 1) = a mod 2 ^ k.
Proof. intros Hk. replace (2 ^ k - 1) with (Z.ones k) by (rewrite Z.ones_equiv; lia). apply Z.land_ones. exact Hk. Qed.

(** The bytes at a position. *)
Lemma rd_at (a b : list Z) n : n = Z.of_nat (List.length a) -> forall k v, nth_error b k = Some v ->
  rd (a ++ b) (n + Z.of_nat k) = Ok v.
Proof.
  intros -> k v E. apply rd_ok; [lia|].
  rewrite <- Nat2Z.inj_add, Nat2Z.id, nth_error_app2 by lia.
  replace (List.length a + k - List.length a)%nat with k by lia. exact E.
Qed.

Lemma lor_mul a s k : 0 <= k -> 0 <= s < 2 ^ k -> Z.lor (a * 2 ^ k) s = a * 2 ^ k + s.
Proof. intros Hk Hs. rewrite <- Z.shiftl_mul_pow2 by lia. rewrite lor_shift by lia. apply Z.shiftl_mul_pow2 || (rewrite Z.shiftl_mul_pow2 by lia; reflexivity). Qed.

Lemma lor2 a b : 0 <= b < 256 -> Z.lor (Z.shiftl a 8) b = a * 256 + b.
Proof. intros H. apply (lor_shift a b 8); lia. Qed.
Lemma lor3 a b c : 0 <= b < 256 -> 0 <= c < 256 ->
  Z.lor (Z.lor (Z.shiftl a 16) (Z.shiftl b 8)) c = (a * 256 + b) * 256 + c.
Proof.
  intros Hb Hc. rewrite (Z.shiftl_mul_pow2 b) by lia. rewrite (lor_shift a (b * 2 ^ 8) 16) by lia.
  change (2 ^ 16) with 65536. change (2 ^ 8) with 256.
  replace (a * 65536 + b * 256) with ((a * 256 + b) * 2 ^ 8) by lia. rewrite lor_mul by lia. reflexivity.
Qed.
Lemma lor4 a b c d : 0 <= b < 256 -> 0 <= c < 256 -> 0 <= d < 256 ->
  Z.lor (Z.lor (Z.lor (Z.shiftl a 24) (Z.shiftl b 16)) (Z.shiftl c 8)) d = ((a * 256 + b) * 256 + c) * 256 + d.
Proof.
  intros Hb Hc Hd. rewrite (Z.shiftl_mul_pow2 b) by lia. rewrite (lor_shift a (b * 2 ^ 16) 24) by lia.
  change (2 ^ 24) with 16777216. change (2 ^ 16) with 65536.
  replace (a * 16777216 + b * 65536) with ((a * 256 + b) * 2 ^ 16) by lia.
  rewrite (Z.shiftl_mul_pow2 c) by lia. rewrite (lor_mul (a * 256 + b) (c * 2 ^ 8) 16) by lia.
  change (2 ^ 16) with 65536. change (2 ^ 8) with 256.
  replace ((a * 256 + b) * 65536 + c * 256) with (((a * 256 + b) * 256 + c) * 2 ^ 8) by lia. rewrite lor_mul by lia. reflexivity.
Qed.
Lemma mask6 a b : 0 <= b < 64 -> Z.lor (Z.shiftl a 6) b = a * 64 + b.
Proof. intros H. apply (lor_shift a b 6); lia. Qed.
Lemma mask12 a b c : 0 <= b < 64 -> 0 <= c < 64 ->
  Z.lor (Z.lor (Z.shiftl a 12) (Z.shiftl b 6)) c = (a * 64 + b) * 64 + c.
Proof.
  intros Hb Hc. rewrite (Z.shiftl_mul_pow2 b) by lia. rewrite (lor_shift a (b * 2 ^ 6) 12) by lia.
  change (2 ^ 12) with 4096. change (2 ^ 6) with 64.
  replace (a * 4096 + b * 64) with ((a * 64 + b) * 2 ^ 6) by lia. rewrite lor_mul by lia. reflexivity.
Qed.
Lemma mask18 a b c d : 0 <= b < 64 -> 0 <= c < 64 -> 0 <= d < 64 ->
  Z.lor (Z.lor (Z.lor (Z.shiftl a 18) (Z.shiftl b 12)) (Z.shiftl c 6)) d = ((a * 64 + b) * 64 + c) * 64 + d.
Proof.
  intros Hb Hc Hd. rewrite (Z.shiftl_mul_pow2 b) by lia. rewrite (lor_shift a (b * 2 ^ 12) 18) by lia.
  change (2 ^ 18) with 262144. change (2 ^ 12) with 4096.
  replace (a * 262144 + b * 4096) with ((a * 64 + b) * 2 ^ 12) by lia.
  rewrite (Z.shiftl_mul_pow2 c) by lia. rewrite (lor_mul (a * 64 + b) (c * 2 ^ 6) 12) by lia.
  change (2 ^ 12) with 4096. change (2 ^ 6) with 64.
  replace ((a * 64 + b) * 4096 + c * 64) with (((a * 64 + b) * 64 + c) * 2 ^ 6) by lia. rewrite lor_mul by lia. reflexivity.
Qed.

(** The shapes of an encoding. *)
Lemma encode_cases c : is_char c ->
  (exists b, encode c = [b] /\ 1 <= b < 128 /\ c = b) \/
  (exists b s0, encode c = [192 + b; 128 + s0] /\ 2 <= b < 32 /\ 0 <= s0 < 64 /\ c = b * 64 + s0) \/
  (exists b s0 s1, encode c = [224 + b; 128 + s0; 128 + s1] /\ 0 <= b < 16 /\ 0 <= s0 < 64 /\ 0 <= s1 < 64 /\
    c = (b * 64 + s0) * 64 + s1) \/
  (exists b s0 s1 s2, encode c = [240 + b; 128 + s0; 128 + s1; 128 + s2] /\ 0 <= b < 8 /\ 0 <= s0 < 64 /\ 0 <= s1 < 64 /\
    0 <= s2 < 64 /\ c = ((b * 64 + s0) * 64 + s1) * 64 + s2).
Proof.
  intros [Hc _]. unfold encode.
  assert (M : forall a, 0 <= a mod 64 < 64) by (intros a; apply Z.mod_pos_bound; lia).
  pose proof (Z.div_mod c 64 ltac:(lia)) as D1. pose proof (Z.div_mod (c / 64) 64 ltac:(lia)) as D2.
  pose proof (Z.div_mod (c / 4096) 64 ltac:(lia)) as D3.
  assert (E1 : c / 64 / 64 = c / 4096) by (rewrite Z.div_div by lia; reflexivity).
  assert (E2 : c / 4096 / 64 = c / 262144) by (rewrite Z.div_div by lia; reflexivity).
  rewrite E1 in D2. rewrite E2 in D3.
  pose proof (M c) as M1. pose proof (M (c / 64)) as M2. pose proof (M (c / 4096)) as M3.
  destruct (Z.ltb_spec c 128); [left; exists c; split; [reflexivity|lia]|].
  destruct (Z.ltb_spec c 2048); [right; left; do 2 eexists; split; [reflexivity|]; lia|].
  destruct (Z.ltb_spec c 65536); [right; right; left; do 3 eexists; split; [reflexivity|]; lia|].
  right; right; right; do 4 eexists; split; [reflexivity|]; lia.
Qed.

Ltac high b lo :=
  match goal with |- context [Z.shiftr b 4] =>
    let H := fresh in assert (H : Z.shiftr b 4 = b / 16) by (rewrite Z.shiftr_div_pow2 by lia; reflexivity); rewrite H; clear H end.

Lemma shiftr4 b : Z.shiftr b 4 = b / 16.
Proof. rewrite Z.shiftr_div_pow2 by lia. reflexivity. Qed.

Lemma next_char pre c rest n : is_char c -> n = Z.of_nat (List.length pre) ->
  utf8_next (pre ++ encode c ++ rest) n = Ok (packed c, n + Z.of_nat (List.length (encode c))) /\
  unicode_next (pre ++ encode c ++ rest) n = Ok (c, n + Z.of_nat (List.length (encode c))).
Proof.
  intros Hc Hn. unfold utf8_next, unicode_next, packed.
  pose proof (rd_at pre (encode c ++ rest) n Hn) as R.
  assert (R0 : forall v, nth_error (encode c ++ rest) 0 = Some v -> rd (pre ++ encode c ++ rest) n = Ok v)
    by (intros v Hv; rewrite <- (R 0%nat v Hv); f_equal; cbn; lia).
  pose proof (R 1%nat) as R1. pose proof (R 2%nat) as R2. pose proof (R 3%nat) as R3. clear R.
  cbn [Z.of_nat Pos.of_succ_nat Pos.succ] in R1, R2, R3.
  set (mem := pre ++ encode c ++ rest) in *. clearbody mem. clear Hn.
  destruct (encode_cases c Hc) as [(b & E & Hb & Ec)|[(b & s0 & E & Hb & H0 & Ec)|[(b & s0 & s1 & E & Hb & H0 & H1 & Ec)|(b & s0 & s1 & s2 & E & Hb & H0 & H1 & H2 & Ec)]]];
    rewrite E in *; cbn [app nth_error List.length fold_left] in *;
    specialize (R0 _ eq_refl); try specialize (R1 _ eq_refl); try specialize (R2 _ eq_refl); try specialize (R3 _ eq_refl);
    rewrite R0; cbn [bind]; rewrite shiftr4.
  - assert (b / 16 < 8) by (apply Z.div_lt_upper_bound; lia). destruct (Z.ltb_spec (b / 16) 8); [|lia].
    subst c. split; f_equal; f_equal; lia.
  - assert (Q : (192 + b) / 16 = 12 \/ (192 + b) / 16 = 13).
    { destruct (Z.lt_ge_cases b 16); [left|right]; symmetry.
      - apply Z.div_unique with b; lia.
      - apply Z.div_unique with (b - 16); lia. }
    assert (Q2 : ((192 + b) / 16 <? 8) = false) by (destruct Q as [-> | ->]; reflexivity).
    assert (Q3 : ((192 + b) / 16 =? 12) || ((192 + b) / 16 =? 13) = true) by (destruct Q as [-> | ->]; reflexivity).
    rewrite Q2, Q3, R1. cbn [bind]. rewrite lor2 by lia.
    change 31 with (2 ^ 5 - 1). change 63 with (2 ^ 6 - 1). rewrite !land_low by lia.
    change (2 ^ 5) with 32. change (2 ^ 6) with 64.
    replace ((192 + b) mod 32) with b by (apply Z.mod_unique with 6; lia).
    replace ((128 + s0) mod 64) with s0 by (apply Z.mod_unique with 2; lia).
    rewrite mask6 by lia. split; f_equal; f_equal; lia.
  - assert (Q : (224 + b) / 16 = 14) by (symmetry; apply Z.div_unique with b; lia).
    rewrite Q. cbn [Z.ltb Z.compare Pos.compare Pos.compare_cont Z.eqb Pos.eqb orb].
    rewrite R1, R2. cbn [bind]. rewrite lor3 by lia.
    change 15 with (2 ^ 4 - 1). change 63 with (2 ^ 6 - 1). rewrite !land_low by lia.
    change (2 ^ 4) with 16. change (2 ^ 6) with 64.
    replace ((224 + b) mod 16) with b by (apply Z.mod_unique with 14; lia).
    replace ((128 + s0) mod 64) with s0 by (apply Z.mod_unique with 2; lia).
    replace ((128 + s1) mod 64) with s1 by (apply Z.mod_unique with 2; lia).
    rewrite mask12 by lia. split; f_equal; f_equal; lia.
  - assert (Q : (240 + b) / 16 = 15) by (symmetry; apply Z.div_unique with b; lia).
    rewrite Q. cbn [Z.ltb Z.compare Pos.compare Pos.compare_cont Z.eqb Pos.eqb orb].
    rewrite R1, R2, R3. cbn [bind]. rewrite lor4 by lia.
    change 7 with (2 ^ 3 - 1). change 63 with (2 ^ 6 - 1). rewrite !land_low by lia.
    change (2 ^ 3) with 8. change (2 ^ 6) with 64.
    replace ((240 + b) mod 8) with b by (apply Z.mod_unique with 30; lia).
    replace ((128 + s0) mod 64) with s0 by (apply Z.mod_unique with 2; lia).
    replace ((128 + s1) mod 64) with s1 by (apply Z.mod_unique with 2; lia).
    replace ((128 + s2) mod 64) with s2 by (apply Z.mod_unique with 2; lia).
    rewrite mask18 by lia. split; f_equal; f_equal; lia.
Qed.

Lemma next_end pre n : n = Z.of_nat (List.length pre) ->
  utf8_next (pre ++ [0]) n = Ok (0, n + 1) /\ unicode_next (pre ++ [0]) n = Ok (0, n + 1).
Proof.
  intros Hn. unfold utf8_next, unicode_next.
  assert (R : rd (pre ++ [0]) n = Ok 0) by (rewrite <- (rd_at pre [0] n Hn 0%nat 0 eq_refl); f_equal; cbn; lia).
  rewrite R. split; reflexivity.
Qed.

Lemma packed_nonzero c : is_char c -> packed c <> 0.
Proof.
  intros H. unfold packed.
  destruct (encode_cases c H) as [(b & E & Hb & Ec)|[(b & s0 & E & Hb & H0 & Ec)|[(b & s0 & s1 & E & Hb & H0 & H1 & Ec)|(b & s0 & s1 & s2 & E & Hb & H0 & H1 & H2 & Ec)]]];
    rewrite E; cbn [fold_left]; lia.
Qed.

Lemma codes_with_ok (next : list Z -> Z -> res (Z * Z)) (code : Z -> Z) :
  (forall pre c rest n, is_char c -> n = Z.of_nat (List.length pre) ->
    next (pre ++ encode c ++ rest) n = Ok (code c, n + Z.of_nat (List.length (encode c)))) ->
  (forall pre n, n = Z.of_nat (List.length pre) -> next (pre ++ [0]) n = Ok (0, n + 1)) ->
  (forall c, is_char c -> code c <> 0) ->
  forall cs, Forall is_char cs -> codes_with next (c_str (text_of cs)) = Ok (map code cs).
Proof.
  intros Hc He Hz cs Hcs. unfold codes_with, c_str.
  set (mem := text_of cs ++ [0]).
  assert (S0 : exists c0 p0, next mem 0 = Ok (c0, p0) /\
    match cs with [] => c0 = 0 | c :: _ => c0 = code c /\ p0 = Z.of_nat (List.length (encode c)) end).
  { unfold mem. destruct cs as [|c cs].
    - exists 0, 1. split; [apply (He [] 0 eq_refl)|reflexivity].
    - inversion Hcs; subst. do 2 eexists. split; [|split; reflexivity].
      unfold text_of. cbn [flat_map]. rewrite <- app_assoc. apply (Hc [] c _ 0); [assumption|reflexivity]. }
  destruct S0 as (c0 & p0 & -> & H0). cbn [bind].
  match goal with |- loop ?n ?b _ = _ => set (body := b); set (fuel := n) end.
  assert (Hfuel : (List.length cs < fuel)%nat).
  { unfold fuel, mem. rewrite app_length. assert (List.length cs <= List.length (text_of cs))%nat; [|lia].
    clear -Hcs. unfold text_of. induction Hcs as [|c cs H _ IH]; [cbn; lia|]. cbn [flat_map List.length]. rewrite app_length.
    assert (1 <= List.length (encode c))%nat; [|lia]. unfold encode.
    destruct (c <? 128); [cbn; lia|]. destruct (c <? 2048); [cbn; lia|]. destruct (c <? 65536); cbn; lia. }
  assert (G : forall rest done c p fuel, cs = done ++ rest -> (List.length rest < fuel)%nat ->
    match rest with [] => c = 0 | x :: _ => c = code x /\ p = Z.of_nat (List.length (text_of (done ++ [x]))) end ->
    loop fuel body (c, p, map code done) = Ok (map code cs)).
  { clear fuel Hfuel H0. induction rest as [|x rest IH]; intros done c p fuel E Hf Hx; (destruct fuel as [|fuel]; [lia|]); cbn [loop]; unfold body at 1.
    - subst c. cbn [Z.eqb bind]. rewrite app_nil_r in E. subst. reflexivity.
    - destruct Hx as [-> ->].
      assert (Hxc : is_char x) by (rewrite Forall_forall in Hcs; apply Hcs; rewrite E; apply in_or_app; right; left; reflexivity).
      destruct (Z.eqb_spec (code x) 0) as [Z0|_]; [destruct (Hz x Hxc Z0)|].
      assert (Em : mem = text_of (done ++ [x]) ++ text_of rest ++ [0]).
      { unfold mem. rewrite E. replace (done ++ x :: rest) with ((done ++ [x]) ++ rest) by (rewrite <- app_assoc; reflexivity).
        unfold text_of. rewrite flat_map_app, <- app_assoc. reflexivity. }
      assert (N : exists c' p', next mem (Z.of_nat (List.length (text_of (done ++ [x])))) = Ok (c', p') /\
        match rest with [] => c' = 0 | y :: _ => c' = code y /\ p' = Z.of_nat (List.length (text_of ((done ++ [x]) ++ [y]))) end).
      { rewrite Em. destruct rest as [|y rest].
        - do 2 eexists. split; [cbn [text_of flat_map app]; apply He; reflexivity|reflexivity].
        - assert (Hy : is_char y) by (rewrite Forall_forall in Hcs; apply Hcs; rewrite E; apply in_or_app; right; right; left; reflexivity).
          do 2 eexists. split.
          + unfold text_of at 2. cbn [flat_map]. rewrite <- app_assoc. apply Hc; [exact Hy|reflexivity].
          + split; [reflexivity|]. unfold text_of. rewrite (flat_map_app _ (done ++ [x]) [y]), app_length. cbn [flat_map]. rewrite app_nil_r. lia. }
      destruct N as (c' & p' & -> & H'). cbn [bind].
      replace (map code done ++ [code x]) with (map code (done ++ [x])) by (rewrite map_app; reflexivity).
      apply (IH (done ++ [x])); [rewrite <- app_assoc; exact E|cbn [List.length] in Hf; lia|exact H']. }
  apply (G cs [] c0 p0 fuel eq_refl Hfuel).
  destruct cs as [|c cs]; [exact H0|]. destruct H0 as [-> ->]. split; [reflexivity|].
  cbn [app]. unfold text_of. cbn [flat_map]. rewrite app_nil_r. reflexivity.
Qed.

Lemma utf8_codes_ok cs : Forall is_char cs -> utf8_codes (text_of cs) = Ok (map packed cs).
Proof.
  apply codes_with_ok.
  - intros. apply (proj1 (next_char pre c rest n H H0)).
  - intros. apply (proj1 (next_end pre n H)).
  - apply packed_nonzero.
Qed.
Lemma unicode_codes_ok cs : Forall is_char cs -> unicode_codes (text_of cs) = Ok cs.
Proof.
  intros H. rewrite <- (map_id cs) at 2. revert cs H. apply codes_with_ok.
  - intros. apply (proj2 (next_char pre c rest n H H0)).
  - intros. apply (proj2 (next_end pre n H)).
  - intros c [Hc _]. lia.
Qed.

(** Output of a code. *)
Lemma byte_at code k m : 0 <= k -> m = Z.shiftl 255 k -> Z.shiftr (Z.land code m) k = (code / 2 ^ k) mod 256.
Proof.
  intros Hk ->. rewrite Z.shiftr_land, Z.shiftr_shiftl_l by lia. rewrite Z.sub_diag. cbn [Z.shiftl].
  change (Z.land (Z.shiftr code k) 255) with (Z.land (Z.shiftr code k) (2 ^ 8 - 1)). rewrite land_low by lia.
  rewrite Z.shiftr_div_pow2 by lia. reflexivity.
Qed.

Lemma set_c_ok s c : is_char c -> set_c s (packed c) = s ++ rev (encode c).
Proof.
  intros Hc. unfold set_c. f_equal.
  rewrite (byte_at _ 8 65280), (byte_at _ 16 16711680), (byte_at _ 24 4278190080) by (lia || reflexivity).
  change (Z.land (packed c) 255) with (Z.land (packed c) (2 ^ 8 - 1)). rewrite land_low by lia.
  change (2 ^ 8) with 256. change (2 ^ 16) with 65536. change (2 ^ 24) with 16777216.
  unfold packed.
  destruct (encode_cases c Hc) as [(b & E & Hb & Ec)|[(b & s0 & E & Hb & H0 & Ec)|[(b & s0 & s1 & E & Hb & H0 & H1 & Ec)|(b & s0 & s1 & s2 & E & Hb & H0 & H1 & H2 & Ec)]]];
    rewrite E; cbn [fold_left rev app].
  - replace (0 * 256 + b) with b by lia.
    replace (b mod 256) with b by (apply Z.mod_unique with 0; lia).
    replace (b / 256) with 0 by (apply Z.div_unique with b; lia).
    cbn [c_text]. destruct (Z.eqb_spec b 0); [lia|]. reflexivity.
  - set (x := 192 + b) in *. set (y := 128 + s0) in *.
    replace ((0 * 256 + x) * 256 + y) with (x * 256 + y) by lia.
    replace ((x * 256 + y) mod 256) with y by (apply Z.mod_unique with x; lia).
    replace ((x * 256 + y) / 256) with x by (apply Z.div_unique with y; lia).
    replace (x mod 256) with x by (apply Z.mod_unique with 0; lia).
    replace ((x * 256 + y) / 65536) with 0 by (apply Z.div_unique with (x * 256 + y); lia).
    cbn [c_text]. destruct (Z.eqb_spec y 0); [lia|]. destruct (Z.eqb_spec x 0); [lia|]. reflexivity.
  - set (x := 224 + b) in *. set (y := 128 + s0) in *. set (z := 128 + s1) in *.
    replace (((0 * 256 + x) * 256 + y) * 256 + z) with (x * 65536 + y * 256 + z) by lia.
    replace ((x * 65536 + y * 256 + z) mod 256) with z by (apply Z.mod_unique with (x * 256 + y); lia).
    replace ((x * 65536 + y * 256 + z) / 256) with (x * 256 + y) by (apply Z.div_unique with z; lia).
    replace ((x * 256 + y) mod 256) with y by (apply Z.mod_unique with x; lia).
    replace ((x * 65536 + y * 256 + z) / 65536) with x by (apply Z.div_unique with (y * 256 + z); lia).
    replace (x mod 256) with x by (apply Z.mod_unique with 0; lia).
    replace ((x * 65536 + y * 256 + z) / 16777216) with 0 by (apply Z.div_unique with (x * 65536 + y * 256 + z); lia).
    cbn [c_text]. destruct (Z.eqb_spec z 0); [lia|]. destruct (Z.eqb_spec y 0); [lia|]. destruct (Z.eqb_spec x 0); [lia|]. reflexivity.
  - set (x := 240 + b) in *. set (y := 128 + s0) in *. set (z := 128 + s1) in *. set (t := 128 + s2) in *.
    replace ((((0 * 256 + x) * 256 + y) * 256 + z) * 256 + t) with (x * 16777216 + y * 65536 + z * 256 + t) by lia.
    replace ((x * 16777216 + y * 65536 + z * 256 + t) mod 256) with t by (apply Z.mod_unique with (x * 65536 + y * 256 + z); lia).
    replace ((x * 16777216 + y * 65536 + z * 256 + t) / 256) with (x * 65536 + y * 256 + z) by (apply Z.div_unique with t; lia).
    replace ((x * 65536 + y * 256 + z) mod 256) with z by (apply Z.mod_unique with (x * 256 + y); lia).
    replace ((x * 16777216 + y * 65536 + z * 256 + t) / 65536) with (x * 256 + y) by (apply Z.div_unique with (z * 256 + t); lia).
    replace ((x * 256 + y) mod 256) with y by (apply Z.mod_unique with x; lia).
    replace ((x * 16777216 + y * 65536 + z * 256 + t) / 16777216) with x by (apply Z.div_unique with (y * 65536 + z * 256 + t); lia).
    replace (x mod 256) with x by (apply Z.mod_unique with 0; lia).
    cbn [c_text]. destruct (Z.eqb_spec t 0); [lia|]. destruct (Z.eqb_spec z 0); [lia|]. destruct (Z.eqb_spec y 0); [lia|]. destruct (Z.eqb_spec x 0); [lia|]. reflexivity.
Qed.

Lemma packed_range c : is_char c -> 0 < packed c < 4294967296.
Proof.
  intros H. unfold packed.
  destruct (encode_cases c H) as [(b & E & Hb & Ec)|[(b & s0 & E & Hb & H0 & Ec)|[(b & s0 & s1 & E & Hb & H0 & H1 & Ec)|(b & s0 & s1 & s2 & E & Hb & H0 & H1 & H2 & Ec)]]];
    rewrite E; cbn [fold_left]; lia.
Qed.

Lemma packed_inj c d : is_char c -> is_char d -> packed c = packed d -> c = d.
Proof.
  intros Hc Hd E.
  assert (X : encode c = encode d).
  { rewrite <- (rev_involutive (encode c)), <- (rev_involutive (encode d)). f_equal.
    pose proof (set_c_ok [] c Hc) as A. pose proof (set_c_ok [] d Hd) as B. rewrite E in A. cbn [app] in A, B. congruence. }
  pose proof (unicode_codes_ok [c] (Forall_cons c Hc (Forall_nil _))) as A.
  pose proof (unicode_codes_ok [d] (Forall_cons d Hd (Forall_nil _))) as B.
  unfold text_of in A, B. cbn [flat_map] in A, B. rewrite X in A. congruence.
Qed.

Lemma emit_all cs : Forall is_char cs -> forall out, rev (fold_left set_c (rev (map packed cs)) out) = text_of cs ++ rev out.
Proof.
  intros H out.
  replace (fold_left set_c (rev (map packed cs)) out) with (out ++ rev (text_of cs)); [rewrite rev_app_distr, rev_involutive; reflexivity|].
  revert out. induction H as [|c cs Hc _ IH]; intros out; [apply app_nil_r|].
  cbn [map rev]. rewrite fold_left_app. cbn [fold_left]. rewrite <- IH, set_c_ok by exact Hc.
  change (text_of (c :: cs)) with (encode c ++ text_of cs). rewrite rev_app_distr, app_assoc. reflexivity.
Qed.

Lemma utf8_lossless cs : Forall is_char cs ->
  utf8_codes (text_of cs) = Ok (map packed cs) /\ unicode_codes (text_of cs) = Ok cs /\
  (forall out, rev (fold_left set_c (rev (map packed cs)) out) = text_of cs ++ rev out).
Proof. intros H. split; [apply utf8_codes_ok; exact H|]. split; [apply unicode_codes_ok; exact H|apply emit_all; exact H]. Qed.

(** A lead byte at the end. *)
Lemma rd_past (l : list Z) n : n = Z.of_nat (List.length l) -> rd l n = UB.
Proof. intros ->. apply rd_UB. lia. Qed.
Lemma utf8_truncated cs : Forall is_char cs -> utf8_codes (text_of cs ++ [195]) = UB.
Proof.
  intros Hcs. unfold utf8_codes, codes_with, c_str. rewrite <- app_assoc. cbn [app].
  set (mem := text_of cs ++ [195; 0]).
  assert (Last : forall p, p = Z.of_nat (List.length (text_of cs)) -> utf8_next mem p = Ok (49920, p + 2) /\ utf8_next mem (p + 2) = UB).
  { intros p Hp. split.
    - unfold utf8_next.
      assert (R0 : rd mem p = Ok 195) by (rewrite <- (rd_at (text_of cs) [195; 0] p Hp 0%nat 195 eq_refl); f_equal; cbn; lia).
      pose proof (rd_at (text_of cs) [195; 0] p Hp 1%nat 0 eq_refl) as R1. cbn [Z.of_nat Pos.of_succ_nat] in R1.
      rewrite R0. cbn [bind]. change (Z.shiftr 195 4) with 12. cbn [Z.ltb Z.compare Pos.compare Pos.compare_cont Z.eqb Pos.eqb orb].
      unfold mem. rewrite R1. reflexivity.
    - unfold utf8_next. rewrite rd_past; [reflexivity|]. unfold mem. rewrite app_length. cbn [List.length]. lia. }
  assert (Step : forall done rest, cs = done ++ rest -> exists c p, utf8_next mem (Z.of_nat (List.length (text_of done))) = Ok (c, p) /\ c <> 0 /\
    match rest with [] => p = Z.of_nat (List.length (text_of cs)) + 2 | x :: _ => p = Z.of_nat (List.length (text_of (done ++ [x]))) end).
  { intros done rest E. destruct rest as [|x rest].
    - rewrite app_nil_r in E. subst done. destruct (Last _ eq_refl) as [-> _]. do 2 eexists. split; [reflexivity|]. split; [lia|reflexivity].
    - assert (Hx : is_char x) by (rewrite Forall_forall in Hcs; apply Hcs; rewrite E; apply in_or_app; right; left; reflexivity).
      assert (Em : mem = text_of done ++ encode x ++ text_of rest ++ [195; 0]).
      { unfold mem. rewrite E. unfold text_of. rewrite flat_map_app. cbn [flat_map]. rewrite <- !app_assoc. reflexivity. }
      rewrite Em, (proj1 (next_char (text_of done) x _ _ Hx eq_refl)). do 2 eexists. split; [reflexivity|]. split; [apply packed_nonzero; exact Hx|].
      unfold text_of. rewrite flat_map_app, app_length. cbn [flat_map]. rewrite app_nil_r. lia. }
  destruct (Step [] cs eq_refl) as (c0 & p0 & E0 & Hc0 & Hp0). cbn [text_of flat_map List.length Z.of_nat] in E0. rewrite E0. cbn [bind].
  match goal with |- loop ?n ?b _ = _ => set (body := b); set (fuel := n) end.
  assert (Hfuel : (List.length cs < fuel)%nat).
  { unfold fuel, mem. rewrite app_length. assert (List.length cs <= List.length (text_of cs))%nat; [|lia].
    clear. unfold text_of. induction cs as [|c cs IH]; [cbn; lia|]. cbn [flat_map List.length]. rewrite app_length.
    assert (1 <= List.length (encode c))%nat; [|lia]. unfold encode.
    destruct (c <? 128); [cbn; lia|]. destruct (c <? 2048); [cbn; lia|]. destruct (c <? 65536); cbn; lia. }
  assert (G : forall rest done c p out fuel, cs = done ++ rest -> (List.length rest < fuel)%nat -> c <> 0 ->
    match rest with [] => p = Z.of_nat (List.length (text_of cs)) + 2 | x :: _ => p = Z.of_nat (List.length (text_of (done ++ [x]))) end ->
    loop fuel body (c, p, out) = UB).
  { clear fuel Hfuel. induction rest as [|x rest IH]; intros done c p out fuel E Hf Hc Hp; (destruct fuel as [|fuel]; [lia|]); cbn [loop]; unfold body at 1;
      (destruct (Z.eqb_spec c 0); [contradiction|]); subst p.
    - destruct (Last _ eq_refl) as [_ ->]. reflexivity.
    - destruct (Step (done ++ [x]) rest) as (c' & p' & -> & Hc' & Hp'); [rewrite <- app_assoc; exact E|]. cbn [bind].
      apply (IH (done ++ [x])); [rewrite <- app_assoc; exact E|cbn [List.length] in Hf; lia|exact Hc'|exact Hp']. }
  apply (G cs [] c0 p0 [] fuel eq_refl Hfuel Hc0 Hp0).
Qed.
