From Verif Require Import Base BaseProofs ImageModel PnmModel PnmSpec PnmProofs.

(** A row of more than 2^31-1 pixels overflows its counter, unless the file ends
    before. *)
Lemma long_row buf cap body : body = (fun (_ : Z) '(p, c, i, out) =>
         '(c, p) <- (if Z.rem i 8 =? 0 then (v <- rd buf p ;; Ok (v, p + 1)) else Ok (c, p)) ;;
         out' <- emit cap out (if Z.testbit c 7 then 45 else 120) ;;
         if i =? 2147483647 then UB
         else Ok (p, u32 (c * 2), i + 1, out')) ->
  2147483648 <= cap ->
  forall n k p c i out, 0 <= i <= 2147483647 -> Z.of_nat (List.length out) = i -> 2147483647 < i + Z.of_nat n ->
  for_up n k body (p, c, i, out) = UB.
Proof.
  intros -> Hc. induction n as [|n IH]; intros k p c i out Hi Ho Hn; [lia|]. cbn [for_up].
  assert (G : forall c' p' : Z, (out' <- emit cap out (if Z.testbit c' 7 then 45 else 120) ;;
      (if i =? 2147483647 then UB else Ok (p', u32 (c' * 2), i + 1, out'))) = @UB (Z * Z * Z * list Z) \/
    i < 2147483647 /\ exists v, (out' <- emit cap out (if Z.testbit c' 7 then 45 else 120) ;;
      (if i =? 2147483647 then UB else Ok (p', u32 (c' * 2), i + 1, out'))) = Ok (p', u32 (c' * 2), i + 1, out ++ [v])).
  { intros c' p'. unfold emit. destruct (Z.ltb_spec (Z.of_nat (List.length out)) cap); [|lia]. cbn [bind].
    destruct (Z.eqb_spec i 2147483647); [now left|]. right. split; [lia|]. eauto. }
  assert (D : (exists c' p', (if Z.rem i 8 =? 0 then v <- rd buf p ;; Ok (v, p + 1) else Ok (c, p)) = Ok (c', p')) \/
    (if Z.rem i 8 =? 0 then v <- rd buf p ;; Ok (v, p + 1) else Ok (c, p)) = UB).
  { destruct (Z.rem i 8 =? 0); [|eauto]. unfold rd. destruct (p <? 0); [now right|]. destruct (nth_error buf (Z.to_nat p)); cbn [bind]; eauto. }
  destruct D as [(c' & p' & ->)| ->]; [|reflexivity]. cbn [bind].
  destruct (G c' p') as [->|(Hlt & v & ->)]; [reflexivity|]. cbn [bind]. apply IH; [lia| |lia].
  rewrite app_length. cbn [List.length]. lia.
Qed.

Lemma p4_long w hdr payload lum :
  header_text 52 w 1 hdr -> 2147483648 <= w ->
  image_of_bytes (hdr ++ payload) lum =
    if Z.of_nat (List.length payload) =? (w + 7) mod 4294967296 / 8 then UB else Throw ExBadLength.
Proof.
  intros Ht Hw. destruct (header_w_h _ _ _ _ Ht) as (Hw' & _ & _).
  assert (H9 : 9 <= Z.of_nat (List.length (hdr ++ payload))).
  { inversion Ht as [? ? ? ? ? ? ? Hm52 | cs dw dh Htt Hcs Nw Nh E1]; [congruence|]. subst hdr.
    rewrite !app_length. cbn [List.length].
    assert (Dw : 3 <= Z.of_nat (List.length dw)).
    { destruct Nw as (_ & Dg & Ev & _). destruct dw as [|a [|b [|d dw]]]; cbn [List.length]; try lia; exfalso.
      - cbn in Ev. lia.
      - inversion Dg; unfold digit in *; cbn in Ev; lia.
      - inversion Dg as [|? ? ? Dg']; inversion Dg'; unfold digit in *; cbn in Ev; lia. }
    pose proof (numeral_len _ _ Nh). lia. }
  destruct (parse_header_complete _ _ _ _ payload Ht H9) as (m & E).
  unfold image_of_bytes. rewrite E. cbn [bind h_width h_height h_type h_end].
  rewrite img_size_ok by lia. rewrite Z.mul_1_r. destruct (Z.eqb_spec w 0); [lia|].
  rewrite (u32_small w) by lia. rewrite Z.eqb_refl. cbn [negb].
  change (52 =? 54) with false. change (52 =? 52) with true. cbv iota.
  rewrite app_length, Nat2Z.inj_add.
  replace (Z.of_nat (List.length hdr) + Z.of_nat (List.length payload) - Z.of_nat (List.length hdr)) with (Z.of_nat (List.length payload)) by lia.
  replace (u32 (u32 (w + 7) / 8 * 1)) with ((w + 7) mod 4294967296 / 8).
  2:{ rewrite Z.mul_1_r. unfold u32. rewrite (Z.mod_small (_ / 8)); [reflexivity|]. pose proof (Z.mod_pos_bound (w + 7) 4294967296 ltac:(lia)). lia. }
  destruct (Z.eqb_spec (Z.of_nat (List.length payload)) ((w + 7) mod 4294967296 / 8)); [|reflexivity]. cbn [negb].
  unfold decode_p4. change (Z.to_nat 1) with 1%nat. cbn [for_up]. unfold decode_p4_row.
  rewrite (long_row (hdr ++ payload) w _ eq_refl) by (cbn [List.length]; lia). reflexivity.
Qed.

Lemma loader_outcome buf lum : bytes buf ->
  (image_of_bytes buf lum = UB /\ exists hdr payload w, buf = hdr ++ payload /\ header_text 52 w 1 hdr /\ 2147483648 <= w /\
     Z.of_nat (List.length payload) = (w + 7) mod 4294967296 / 8) \/
  ((exists img, image_of_bytes buf lum = Ok img) \/ (exists e, image_of_bytes buf lum = Throw e)).
Proof.
  intros Hb. destruct (parse_header_sound buf) as [E|(t & w & h & m & hdr & payload & Eb & Ht & H9 & E)].
  { right. right. unfold image_of_bytes. rewrite E. simpl. eauto. }
  destruct (header_w_h _ _ _ _ Ht) as (Hw & Hh & Htr).
  destruct (Z.eq_dec t 52) as [->|N].
  2:{ right. apply no_ub; [exact Hb|]. intros hdr' payload' w' h' E' Ht'. exfalso. apply N.
      destruct (parse_header_complete _ _ _ _ payload' Ht') as (m' & Ep); [rewrite <- E'; exact H9|]. rewrite <- E', E in Ep. injection Ep as Et _ _ _ _. exact Et. }
  destruct (Z_lt_le_dec w 2147483648) as [L|L].
  { right. apply no_ub; [exact Hb|]. intros hdr' payload' w' h' E' Ht'.
    destruct (parse_header_complete _ _ _ _ payload' Ht') as (m' & Ep); [rewrite <- E'; exact H9|]. rewrite <- E', E in Ep. injection Ep as Ew _ _ _. lia. }
  destruct (Z.eq_dec h 1) as [->|N].
  2:{ right. right. rewrite Eb. eapply image_of_bytes_size; [exact Ht|]. destruct (Z.eq_dec h 0) as [->|]; [left; lia|right; nia]. }
  rewrite Eb, (p4_long w hdr payload lum Ht L). destruct (Z.eqb_spec (Z.of_nat (List.length payload)) ((w + 7) mod 4294967296 / 8)) as [El|].
  - left. split; [reflexivity|]. exists hdr, payload, w. auto.
  - right. right. eauto.
Qed.
Lemma loader_undefined buf lum : bytes buf ->
  (image_of_bytes buf lum = UB <-> exists hdr payload w, buf = hdr ++ payload /\ header_text 52 w 1 hdr /\ 2147483648 <= w /\
     Z.of_nat (List.length payload) = (w + 7) mod 4294967296 / 8) /\ image_of_bytes buf lum <> NoFuel.
Proof.
  intros Hb. split.
  - split.
    + intros E. destruct (loader_outcome buf lum Hb) as [(_ & H)|[(img & H)|(e & H)]]; [exact H|congruence..].
    + intros (hdr & payload & w & -> & Ht & Hw & El). rewrite (p4_long w hdr payload lum Ht Hw), El, Z.eqb_refl. reflexivity.
  - destruct (loader_outcome buf lum Hb) as [(-> & H)|[(img & ->)|(e & ->)]]; discriminate.
Qed.

(** The bitmaps that are too short for the header test have one row of at most 8
    pixels and numbers of one digit. *)
Lemma p4_tiny w h hdr payload lum : header_text 52 w h hdr -> 0 < w * h -> Z.of_nat (List.length payload) = (w + 7) / 8 * h ->
  Z.of_nat (List.length (hdr ++ payload)) < 9 ->
  image_of_bytes (hdr ++ payload) lum = Throw ExInvalidPnm /\ 1 <= w <= 8 /\ h = 1 /\ hdr = [80; 52; 10; 48 + w; 32; 49; 10].
Proof.
  intros Ht Hs Hl H9. destruct (header_w_h _ _ _ _ Ht) as (Hw & Hh & _). split.
  { unfold image_of_bytes, parse_header. destruct (Z.ltb_spec (Z.of_nat (List.length (hdr ++ payload))) 9); [reflexivity|lia]. }
  assert (1 <= w) by nia. assert (1 <= h) by nia. assert (P1 : 1 <= (w + 7) / 8) by lia.
  inversion Ht as [? ? ? ? ? ? ? Hm52 | cs dw dh Htt Hcs Nw Nh E1]; [congruence|]. subst hdr.
  rewrite !app_length in H9. cbn [List.length] in H9. pose proof (numeral_len _ _ Nw). pose proof (numeral_len _ _ Nh).
  assert (PL : 1 <= Z.of_nat (List.length payload)) by (rewrite Hl; nia).
  assert (Lc : List.length cs = 0%nat) by lia. assert (Lw : List.length dw = 1%nat) by lia. assert (Lh : List.length dh = 1%nat) by lia.
  assert (Lp : (w + 7) / 8 * h = 1) by lia.
  destruct cs; [|discriminate]. destruct dw as [|a [|? ?]]; try discriminate. destruct dh as [|b [|? ?]]; try discriminate.
  destruct Nw as (_ & _ & Ew & _), Nh as (_ & _ & Eh & _). cbn in Ew, Eh.
  assert (h = 1) by nia. assert ((w + 7) / 8 = 1) by nia. split; [lia|]. split; [assumption|].
  replace (48 + w) with a by lia. replace b with 49 by lia. reflexivity.
Qed.
