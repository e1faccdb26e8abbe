From Verif Require Import Base BaseProofs ImageModel ImageSpec ImageProofs PnmModel PnmSpec PnmProofs PnmProofs2 PictureTextSpec.

(** The header, and the tests that follow. *)
Lemma headed_image buf t w h payload lum : headed buf t w h payload -> exists p, 0 <= p /\ skipn (Z.to_nat p) buf = payload /\
  Z.of_nat (List.length buf) - p = Z.of_nat (List.length payload) /\ 0 <= w < 4294967296 /\ 0 <= h < 4294967296 /\ 49 <= t <= 54 /\
  image_of_bytes buf lum =
    (if w * h =? 0 then Throw ExTooLarge
     else if negb (w * h =? u32 (w * h)) then Throw ExTooLarge
     else if t =? 54 then
       if negb (Z.of_nat (List.length payload) =? u64 (w * h * 3)) then Throw ExBadLength
       else (d <- decode_p6 buf lum (w * h) p ;; Ok (mkimage w h d))
     else if t =? 52 then
       if negb (Z.of_nat (List.length payload) =? u32 (u32 (w + 7) / 8 * h)) then Throw ExBadLength
       else (d <- decode_p4 buf (w * h) w h p ;; Ok (mkimage w h d))
     else if (t =? 51) || (t =? 49) then
       '(p, d) <- decode_ascii buf (w * h) p ;;
       p <- skip_blank buf p ;;
       if negb (p =? Z.of_nat (List.length buf)) then Throw ExBadLength else Ok (mkimage w h d)
     else Throw ExUnsupported).
Proof.
  intros (H9 & hdr & Ht & E). destruct (header_w_h _ _ _ _ Ht) as (Hw & Hh & Htr). subst buf.
  destruct (parse_header_complete _ _ _ _ payload Ht H9) as (m & E).
  exists (Z.of_nat (List.length hdr)). split; [lia|]. split; [rewrite Nat2Z.id, skipn_app, skipn_all, Nat.sub_diag; reflexivity|].
  assert (L : Z.of_nat (List.length (hdr ++ payload)) - Z.of_nat (List.length hdr) = Z.of_nat (List.length payload)) by (rewrite app_length; lia).
  split; [exact L|]. split; [exact Hw|]. split; [exact Hh|]. split; [exact Htr|].
  unfold image_of_bytes. rewrite E. cbn [bind h_width h_height h_type h_end]. rewrite img_size_ok by assumption. rewrite L. reflexivity.
Qed.

Lemma headed_size buf t w h payload lum : headed buf t w h payload -> w * h = 0 \/ 4294967296 <= w * h -> image_of_bytes buf lum = Throw ExTooLarge.
Proof.
  intros H Hs. destruct (headed_image _ _ _ _ _ lum H) as (p & _ & _ & _ & _ & _ & _ & ->).
  destruct (Z.eqb_spec (w * h) 0) as [|N]; [reflexivity|]. destruct (Z.eqb_spec (w * h) (u32 (w * h))) as [Eq|]; [|reflexivity].
  pose proof (u32_range (w * h)). lia.
Qed.

(** Digits. *)
Lemma ascii_step buf n p out c l : 0 <= p -> skipn (Z.to_nat p) buf = c :: l -> 0 < n < 4294967296 -> Z.of_nat (List.length out) < n ->
  ascii_body buf n (p, Z.of_nat (List.length out), out) =
    (if ascii_digit c then
       if Z.of_nat (List.length out) + 1 =? n then Ok (inr (p, out ++ [ascii_pixel c]))
       else Ok (inl (p + 1, Z.of_nat (List.length out) + 1, out ++ [ascii_pixel c]))
     else if ascii_blank c then Ok (inl (p + 1, Z.of_nat (List.length out), out)) else Throw ExBadData).
Proof.
  intros Hp Hs Hn Ho. destruct (suf_cons _ _ _ _ Hs Hp) as (Hrd & _ & Hlt). unfold ascii_body.
  destruct (Z.ltb_spec p (Z.of_nat (List.length buf))); [|lia]. rewrite Hrd. cbn [bind]. rewrite !emit_ok by lia. cbn [bind].
  rewrite u64_small by lia. unfold ascii_digit, ascii_blank, ascii_pixel.
  destruct (Z.eqb_spec c 48) as [->|]; [reflexivity|]. destruct (Z.eqb_spec c 49) as [->|]; [reflexivity|].
  destruct (Z.eqb_spec c 32) as [->|]; [reflexivity|]. destruct (Z.eqb_spec c 10) as [->|]; reflexivity.
Qed.

Lemma ascii_run buf n : 0 < n < 4294967296 -> forall before fuel p out l,
  0 <= p -> skipn (Z.to_nat p) buf = before ++ l -> (List.length (before ++ l) < fuel)%nat -> Forall written before ->
  Z.of_nat (List.length out) + digits_in before < n ->
  exists fuel', (List.length l < fuel')%nat /\ skipn (Z.to_nat (p + Z.of_nat (List.length before))) buf = l /\
    loop fuel (ascii_body buf n) (p, Z.of_nat (List.length out), out) =
    loop fuel' (ascii_body buf n) (p + Z.of_nat (List.length before),
      Z.of_nat (List.length (out ++ map ascii_pixel (filter ascii_digit before))), out ++ map ascii_pixel (filter ascii_digit before)).
Proof.
  intros Hn. induction before as [|c before IH]; intros fuel p out l Hp Hs Hf HF Hd.
  - exists fuel. cbn [List.length filter map app] in *. rewrite app_nil_r. change (Z.of_nat 0) with 0. rewrite Z.add_0_r. auto.
  - destruct fuel as [|fuel]; [lia|]. cbn [loop]. inversion HF as [|? ? Hc HF']; subst.
    destruct (suf_cons _ _ _ _ Hs Hp) as (_ & Htl & _).
    assert (Ho : Z.of_nat (List.length out) < n) by (unfold digits_in in Hd; lia).
    rewrite (ascii_step buf n p out c (before ++ l) Hp Hs Hn Ho). cbn [app List.length] in Hf.
    unfold digits_in in Hd. cbn [filter] in Hd |- *. destruct (ascii_digit c) eqn:D.
    + cbn [List.length] in Hd. destruct (Z.eqb_spec (Z.of_nat (List.length out) + 1) n); [lia|].
      assert (L1 : Z.of_nat (List.length out) + 1 = Z.of_nat (List.length (out ++ [ascii_pixel c]))) by (rewrite app_length; cbn [List.length]; lia).
      rewrite L1. destruct (IH fuel (p + 1) (out ++ [ascii_pixel c]) l) as (f' & Hf' & Hs' & E); [lia|exact Htl|lia|exact HF'|unfold digits_in; lia|].
      exists f'. split; [exact Hf'|]. replace (p + Z.of_nat (List.length (c :: before))) with (p + 1 + Z.of_nat (List.length before)) by (cbn [List.length]; lia).
      split; [exact Hs'|]. rewrite E. rewrite <- app_assoc. reflexivity.
    + destruct Hc as [Hc|Hc]; [congruence|]. rewrite Hc.
      destruct (IH fuel (p + 1) out l) as (f' & Hf' & Hs' & E); [lia|exact Htl|lia|exact HF'|unfold digits_in; lia|].
      exists f'. split; [exact Hf'|]. replace (p + Z.of_nat (List.length (c :: before))) with (p + 1 + Z.of_nat (List.length before)) by (cbn [List.length]; lia).
      split; [exact Hs'|]. exact E.
Qed.

Lemma digits_missing buf n p payload : 0 < n < 4294967296 -> 0 <= p -> skipn (Z.to_nat p) buf = payload -> p <= Z.of_nat (List.length buf) ->
  Forall written payload -> digits_in payload < n -> decode_ascii buf n p = Ok (Z.of_nat (List.length buf), map ascii_pixel (filter ascii_digit payload)).
Proof.
  intros Hn Hp Hs Hl HF Hd. unfold decode_ascii. cbv zeta. fold (ascii_body buf n).
  assert (Lp : (List.length payload <= List.length buf)%nat) by (rewrite <- Hs, skipn_length; lia).
  destruct (ascii_run buf n Hn payload (S (List.length buf)) p [] []) as (f' & Hf' & Hs' & E);
    [exact Hp|rewrite app_nil_r; exact Hs|rewrite app_nil_r; lia|exact HF|cbn [List.length]; lia|].
  change (Z.of_nat (@List.length pixel [])) with 0 in E. rewrite E. clear E. cbn [app].
  destruct f' as [|f']; [lia|]. cbn [loop].
  assert (Ep : p + Z.of_nat (List.length payload) = Z.of_nat (List.length buf)) by (rewrite <- Hs, skipn_length; lia). rewrite Ep.
  unfold ascii_body at 1. rewrite Z.ltb_irrefl. reflexivity.
Qed.

Lemma digits_found buf n p before c after : 0 < n < 4294967296 -> 0 <= p -> skipn (Z.to_nat p) buf = before ++ c :: after ->
  Forall written before -> ascii_digit c = true -> digits_in before + 1 = n ->
  exists q d, decode_ascii buf n p = Ok (q, d) /\ rd buf q = Ok c /\ 0 <= q < Z.of_nat (List.length buf).
Proof.
  intros Hn Hp Hs HF Hc Hd. unfold decode_ascii. cbv zeta. fold (ascii_body buf n).
  assert (Lp : (List.length (before ++ c :: after) <= List.length buf)%nat) by (rewrite <- Hs, skipn_length; lia).
  destruct (ascii_run buf n Hn before (S (List.length buf)) p [] (c :: after)) as (f' & Hf' & Hs' & E);
    [exact Hp|exact Hs|lia|exact HF|cbn [List.length]; lia|].
  change (Z.of_nat (@List.length pixel [])) with 0 in E. rewrite E. clear E. cbn [app].
  destruct f' as [|f']; [lia|]. cbn [loop].
  assert (Lo : Z.of_nat (List.length (map ascii_pixel (filter ascii_digit before))) + 1 = n) by (rewrite map_length; exact Hd).
  rewrite (ascii_step buf n _ _ c after) by (try exact Hs'; lia). rewrite Hc, Lo, Z.eqb_refl.
  assert (P0 : 0 <= p + Z.of_nat (List.length before)) by lia. destruct (suf_cons _ _ _ _ Hs' P0) as (Hr & _ & Hlt).
  do 2 eexists. split; [reflexivity|]. split; [exact Hr|lia].
Qed.

Lemma digits_other buf n p before c after : 0 < n < 4294967296 -> 0 <= p -> skipn (Z.to_nat p) buf = before ++ c :: after ->
  Forall written before -> ~ written c -> digits_in before < n -> decode_ascii buf n p = Throw ExBadData.
Proof.
  intros Hn Hp Hs HF Hc Hd. unfold decode_ascii. cbv zeta. fold (ascii_body buf n).
  assert (Lp : (List.length (before ++ c :: after) <= List.length buf)%nat) by (rewrite <- Hs, skipn_length; lia).
  destruct (ascii_run buf n Hn before (S (List.length buf)) p [] (c :: after)) as (f' & Hf' & Hs' & E);
    [exact Hp|exact Hs|lia|exact HF|cbn [List.length]; lia|].
  change (Z.of_nat (@List.length pixel [])) with 0 in E. rewrite E. clear E. cbn [app].
  destruct f' as [|f']; [lia|]. cbn [loop].
  assert (Lo : Z.of_nat (List.length (map ascii_pixel (filter ascii_digit before))) < n) by (rewrite map_length; exact Hd).
  rewrite (ascii_step buf n _ _ c after) by (try exact Hs'; lia). unfold written in Hc.
  destruct (ascii_digit c); [tauto|]. destruct (ascii_blank c); [tauto|]. reflexivity.
Qed.

(** The three cases cover all the texts. *)
Lemma digits_cases n payload : 0 < n ->
  (Forall written payload /\ digits_in payload < n) \/
  (exists before c after, payload = before ++ c :: after /\ Forall written before /\
     (ascii_digit c = true /\ digits_in before + 1 = n \/ ~ written c /\ digits_in before < n)).
Proof.
  revert n. induction payload as [|c l IH]; intros n Hn.
  - left. split; [constructor|]. cbn. lia.
  - destruct (ascii_digit c) eqn:D; [|destruct (ascii_blank c) eqn:B].
    + destruct (Z.eq_dec n 1) as [->|N]; [right; exists [], c, l; split; [reflexivity|]; split; [constructor|]; left; split; [exact D|reflexivity]|].
      assert (Cs : forall b, digits_in (c :: b) = digits_in b + 1) by (intros b; unfold digits_in; cbn [filter]; rewrite D; cbn [List.length]; lia).
      destruct (IH (n - 1)) as [(F & H)|(b & d & a & -> & F & [(H1 & H2)|(H1 & H2)])]; [lia| | |].
      * left. split; [constructor; [now left|exact F]|]. rewrite Cs. lia.
      * right. exists (c :: b), d, a. split; [reflexivity|]. split; [constructor; [now left|exact F]|]. rewrite Cs. left. split; [exact H1|lia].
      * right. exists (c :: b), d, a. split; [reflexivity|]. split; [constructor; [now left|exact F]|]. rewrite Cs. right. split; [exact H1|lia].
    + assert (Cs : forall b, digits_in (c :: b) = digits_in b) by (intros b; unfold digits_in; cbn [filter]; rewrite D; reflexivity).
      destruct (IH n Hn) as [(F & H)|(b & d & a & -> & F & H)].
      * left. split; [constructor; [now right|exact F]|]. rewrite Cs. exact H.
      * right. exists (c :: b), d, a. split; [reflexivity|]. split; [constructor; [now right|exact F]|]. rewrite Cs. exact H.
    + right. exists [], c, l. split; [reflexivity|]. split; [constructor|]. right. split; [intros [H|H]; congruence|cbn; lia].
Qed.

(** What the text says is what the loader gives. *)
Lemma headed_split buf t w h payload : headed buf t w h payload -> exists hdr, header_text t w h hdr /\ buf = hdr ++ payload /\ 9 <= Z.of_nat (List.length (hdr ++ payload)).
Proof. intros (H9 & hdr & Ht & ->). exists hdr. auto. Qed.

Lemma pictures_equal a b : wf_image a -> wf_image b -> iw a = iw b -> ih a = ih b ->
  (forall x y, 0 <= x < iw a -> 0 <= y < ih a -> pix a x y = pix b x y) -> a = b.
Proof.
  intros Wa Wb Ew Eh H. apply image_ext; [exact (wf_full _ Wa)|exact (wf_full _ Wb)|]. split; [exact Ew|]. split; [exact Eh|]. intros x y. 
  destruct (Z_lt_le_dec x 0) as [L|L]; [unfold pix; replace (0 <=? x) with false by lia; reflexivity|].
  destruct (Z_lt_le_dec y 0) as [M|M]; [unfold pix; replace (0 <=? y) with false by lia; rewrite !andb_false_r; reflexivity|].
  destruct (Z_lt_le_dec x (iw a)) as [L2|L2].
  2:{ unfold pix. rewrite <- Ew. replace (x <? iw a) with false by lia. rewrite !andb_false_r. reflexivity. }
  destruct (Z_lt_le_dec y (ih a)) as [M2|M2].
  2:{ unfold pix. rewrite <- Eh. replace (y <? ih a) with false by lia. rewrite !andb_false_r. reflexivity. }
  apply H; lia.
Qed.

Lemma text_sound lum buf r : bytes buf -> picture_text lum buf r -> image_of_bytes buf lum = r.
Proof.
  intros Hb H. destruct H as [N|t w h pl H Hs|w h pl img H Hs Hl Wf Ew Eh Hc|w h pl H Hs Hl|w h pl img H Hs Hw Hl Wf Ew Eh Hc|w h pl H Hs Hw Hl
    |w pl H Hw Hl|w pl H Hw Hl|t w h pl Ht H Hs HF Hd|t w h b c a Ht H Hs HF Hc Hd|t w h b c a Ht H Hs HF Hc Hd|t w h pl Ht H Hs].
  - destruct (parse_header_sound buf) as [E|(t & w & h & m & hdr & payload & Eb & Ht & H9 & E)].
    + unfold image_of_bytes. rewrite E. reflexivity.
    + exfalso. apply N. exists t, w, h, payload. split; [exact H9|]. exists hdr. auto.
  - exact (headed_size _ _ _ _ _ lum H Hs).
  - destruct (headed_split _ _ _ _ _ H) as (hdr & Ht & -> & _).
    assert (Hbp : bytes pl) by (unfold bytes in *; now apply Forall_app in Hb).
    destruct (p6_law w h hdr pl lum Ht Hbp Hs) as (P & _). destruct (P Hl) as (img' & E & Wf' & Ew' & Eh' & Hp). rewrite E. f_equal.
    apply pictures_equal; [exact Wf'|exact Wf|congruence|congruence|]. intros x y Hx Hy.
    rewrite Ew', <- Ew in Hx. rewrite Eh', <- Eh in Hy. destruct (Hc x y Hx Hy) as (r & g & bl & Hr & Hg & Hbl & ->).
    rewrite Ew in Hr, Hg, Hbl, Hx. rewrite Eh in Hy. exact (Hp x y r g bl Hx Hy Hr Hg Hbl).
  - destruct (headed_image _ _ _ _ _ lum H) as (p & _ & _ & _ & _ & _ & _ & ->).
    destruct (Z.eqb_spec (w * h) 0); [lia|]. rewrite u32_small, Z.eqb_refl by lia. cbn [negb]. change (54 =? 54) with true. cbv iota.
    rewrite u64_small by lia. destruct (Z.eqb_spec (Z.of_nat (List.length pl)) (w * h * 3)); [lia|reflexivity].
  - destruct (headed_split _ _ _ _ _ H) as (hdr & Ht & -> & H9).
    destruct (p4_law w h hdr pl lum Ht Hb Hs Hw) as (P & _). destruct (P H9 Hl) as (img' & E & Wf' & Ew' & Eh' & Hp). rewrite E. f_equal.
    apply pictures_equal; [exact Wf'|exact Wf|congruence|congruence|]. intros x y Hx Hy.
    rewrite Ew', <- Ew in Hx. rewrite Eh', <- Eh in Hy. destruct (Hc x y Hx Hy) as (c & Hn & ->).
    rewrite Ew in Hn, Hx. rewrite Eh in Hy. exact (Hp x y c Hx Hy Hn).
  - destruct (headed_image _ _ _ _ _ lum H) as (p & _ & _ & _ & Rw & Rh & _ & ->).
    destruct (Z.eqb_spec (w * h) 0); [lia|]. rewrite (u32_small (w * h)), Z.eqb_refl by lia. cbn [negb]. change (52 =? 54) with false. change (52 =? 52) with true. cbv iota.
    assert (1 <= w) by nia. assert (1 <= h) by nia. assert (0 <= (w + 7) / 8 * h < 4294967296).
    { pose proof (ceil8_le w ltac:(assumption)). assert (0 <= (w + 7) / 8) by lia. nia. }
    rewrite (u32_small (w + 7)) by lia. rewrite u32_small by lia.
    destruct (Z.eqb_spec (Z.of_nat (List.length pl)) ((w + 7) / 8 * h)); [lia|reflexivity].
  - destruct (headed_split _ _ _ _ _ H) as (hdr & Ht & -> & H9). rewrite (p4_long w hdr pl lum Ht Hw), Hl, Z.eqb_refl. reflexivity.
  - destruct (headed_split _ _ _ _ _ H) as (hdr & Ht & -> & H9). rewrite (p4_long w hdr pl lum Ht Hw).
    destruct (Z.eqb_spec (Z.of_nat (List.length pl)) ((w + 7) mod 4294967296 / 8)); [lia|reflexivity].
  - destruct (headed_image _ _ _ _ _ lum H) as (p & Hp & Hsk & HL & _ & _ & _ & ->).
    destruct (Z.eqb_spec (w * h) 0); [lia|]. rewrite u32_small, Z.eqb_refl by lia. cbn [negb].
    replace (t =? 54) with false by lia. replace (t =? 52) with false by lia. replace ((t =? 51) || (t =? 49)) with true by lia.
    rewrite (digits_missing buf (w * h) p pl) by (auto; lia). cbn [bind]. rewrite skip_blank_end. cbn [bind]. rewrite Z.eqb_refl. reflexivity.
  - destruct (headed_image _ _ _ _ _ lum H) as (p & Hp & Hsk & HL & _ & _ & _ & ->).
    destruct (Z.eqb_spec (w * h) 0); [lia|]. rewrite u32_small, Z.eqb_refl by lia. cbn [negb].
    replace (t =? 54) with false by lia. replace (t =? 52) with false by lia. replace ((t =? 51) || (t =? 49)) with true by lia.
    destruct (digits_found buf (w * h) p b c a Hs Hp Hsk HF Hc Hd) as (q & d & -> & Hr & Hq). cbn [bind].
    rewrite (skip_blank_digit _ q c) by (auto; lia). cbn [bind]. destruct (Z.eqb_spec q (Z.of_nat (List.length buf))); [lia|reflexivity].
  - destruct (headed_image _ _ _ _ _ lum H) as (p & Hp & Hsk & HL & _ & _ & _ & ->).
    destruct (Z.eqb_spec (w * h) 0); [lia|]. rewrite u32_small, Z.eqb_refl by lia. cbn [negb].
    replace (t =? 54) with false by lia. replace (t =? 52) with false by lia. replace ((t =? 51) || (t =? 49)) with true by lia.
    rewrite (digits_other buf (w * h) p b c a Hs Hp Hsk HF Hc Hd). reflexivity.
  - destruct (headed_image _ _ _ _ _ lum H) as (p & _ & _ & _ & _ & _ & _ & ->).
    destruct (Z.eqb_spec (w * h) 0); [lia|]. rewrite u32_small, Z.eqb_refl by lia. cbn [negb].
    replace (t =? 54) with false by lia. replace (t =? 52) with false by lia. replace ((t =? 51) || (t =? 49)) with false by lia. reflexivity.
Qed.

(** Every text says something. *)
Lemma text_total lum buf : bytes buf -> exists r, picture_text lum buf r.
Proof.
  intros Hb. destruct (parse_header_sound buf) as [E|(t & w & h & m & hdr & pl & Eb & Ht & H9 & E)].
  { exists (Throw ExInvalidPnm). apply pt_no_header. intros (t & w & h & pl & H). destruct (headed_split _ _ _ _ _ H) as (hdr & Ht & -> & H9).
    destruct (parse_header_complete _ _ _ _ pl Ht H9) as (m & Ep). congruence. }
  assert (H : headed buf t w h pl) by (split; [exact H9|]; exists hdr; auto). destruct (header_w_h _ _ _ _ Ht) as (Hw & Hh & Htr).
  destruct (Z_le_gt_dec (w * h) 0) as [H0|H0]; [exists (Throw ExTooLarge); apply (pt_size lum buf t w h pl H); left; nia|].
  destruct (Z_lt_le_dec (w * h) 4294967296) as [H1|H1]; [|exists (Throw ExTooLarge); apply (pt_size lum buf t w h pl H); now right].
  assert (Hs : 0 < w * h < 4294967296) by lia.
  assert (Hbp : bytes pl) by (subst buf; unfold bytes in *; now apply Forall_app in Hb).
  assert (Htt : t = 54 \/ t = 52 \/ (t = 49 \/ t = 51) \/ (t = 50 \/ t = 53)) by lia.
  destruct Htt as [->|[->|[Htt|Htt]]].
  - destruct (Z.eq_dec (Z.of_nat (List.length pl)) (3 * (w * h))) as [El|N]; [|eexists; eapply pt_colours_length; eassumption].
    destruct (p6_law w h hdr pl lum Ht Hbp Hs) as (P & _). destruct (P El) as (img & _ & Wf & Ew & Eh & Hp).
    exists (Ok img). apply (pt_colours lum buf w h pl img H Hs El Wf Ew Eh). intros x y Hx Hy. rewrite Ew in *. rewrite Eh in Hy.
    assert (Hi : 0 <= y * w + x < w * h) by (apply idx_bound; lia).
    assert (Nt : forall k, 0 <= k < 3 * (w * h) -> exists v, nth_error pl (Z.to_nat k) = Some v).
    { intros k Hk. destruct (nth_error pl (Z.to_nat k)) eqn:En; [eauto|]. apply nth_error_None in En. lia. }
    destruct (Nt (3 * (y * w + x)) ltac:(lia)) as (r & Hr). destruct (Nt (3 * (y * w + x) + 1) ltac:(lia)) as (g & Hg).
    destruct (Nt (3 * (y * w + x) + 2) ltac:(lia)) as (b & Hbl). exists r, g, b. auto.
  - destruct (Z_lt_le_dec w 2147483648) as [L|L].
    + destruct (Z.eq_dec (Z.of_nat (List.length pl)) ((w + 7) / 8 * h)) as [El|N]; [|eexists; eapply pt_bits_length; eassumption].
      assert (Hb' : bytes (hdr ++ pl)) by (now rewrite <- Eb).
      destruct (p4_law w h hdr pl lum Ht Hb' Hs L) as (P & _). destruct (P ltac:(rewrite <- Eb; exact H9) El) as (img & _ & Wf & Ew & Eh & Hp).
      exists (Ok img). apply (pt_bits lum buf w h pl img H Hs L El Wf Ew Eh). intros x y Hx Hy. rewrite Ew in *. rewrite Eh in Hy.
      assert (B : 0 <= y * ((w + 7) / 8) + x / 8 < (w + 7) / 8 * h).
      { assert (0 <= x / 8 < (w + 7) / 8) by lia. assert (0 < (w + 7) / 8) by lia. nia. }
      destruct (nth_error pl (Z.to_nat (y * ((w + 7) / 8) + x / 8))) as [c|] eqn:En; [exists c; auto|]. apply nth_error_None in En. lia.
    + assert (h = 1) by nia. subst h. destruct (Z.eq_dec (Z.of_nat (List.length pl)) ((w + 7) mod 4294967296 / 8)) as [El|N].
      * exists UB. apply (pt_row lum buf w pl H L El).
      * eexists. eapply pt_row_length; eassumption.
  - destruct (digits_cases (w * h) pl ltac:(lia)) as [(F & Hd)|(b & c & a & -> & F & [(Hc & Hd)|(Hc & Hd)])].
    + eexists. eapply pt_digits; eassumption.
    + eexists. eapply pt_digits_all; eassumption.
    + eexists. eapply pt_digits_other; eassumption.
  - eexists. eapply pt_other; eassumption.
Qed.

Lemma picture_outcome lum buf : bytes buf -> picture_text lum buf (image_of_bytes buf lum) /\ forall r, picture_text lum buf r -> r = image_of_bytes buf lum.
Proof.
  intros Hb. split.
  - destruct (text_total lum buf Hb) as (r & H). rewrite (text_sound lum buf r Hb H). exact H.
  - intros r H. symmetry. exact (text_sound lum buf r Hb H).
Qed.

Lemma headed_unique buf t w h payload t' w' h' payload' : headed buf t w h payload -> headed buf t' w' h' payload' ->
  t = t' /\ w = w' /\ h = h' /\ payload = payload'.
Proof.
  intros (H9 & hdr & Ht & Eb) (_ & hdr' & Ht' & Eb').
  destruct (parse_header_complete _ _ _ _ payload Ht) as (m & E); [rewrite <- Eb; exact H9|].
  destruct (parse_header_complete _ _ _ _ payload' Ht') as (m' & E'); [rewrite <- Eb'; exact H9|].
  rewrite <- Eb in E. rewrite <- Eb' in E'. rewrite E in E'. injection E' as Et Ew Eh _ El.
  split; [exact Et|]. split; [exact Ew|]. split; [exact Eh|].
  assert (L : List.length hdr = List.length hdr') by lia.
  transitivity (skipn (List.length hdr) buf); [rewrite Eb, skipn_app, skipn_all, Nat.sub_diag; reflexivity|].
  rewrite L, Eb', skipn_app, skipn_all, Nat.sub_diag. reflexivity.
Qed.

Lemma luminance_unused buf l1 l2 : bytes buf -> ~ (exists w h payload, headed buf 54 w h payload) -> image_of_bytes buf l1 = image_of_bytes buf l2.
Proof.
  intros Hb N. symmetry. apply (text_sound l2 buf _ Hb). destruct (picture_outcome l1 buf Hb) as (P & _).
  destruct P; try (exfalso; apply N; do 3 eexists; eassumption); econstructor; eassumption.
Qed.

Lemma colours_of buf lum img w h payload : bytes buf -> headed buf 54 w h payload -> image_of_bytes buf lum = Ok img ->
  0 < w * h < 4294967296 /\ Z.of_nat (List.length payload) = 3 * (w * h) /\ wf_image img /\ iw img = w /\ ih img = h /\ colour_map lum payload img.
Proof.
  intros Hb H E. destruct (picture_outcome lum buf Hb) as (P & _). rewrite E in P.
  inversion P as [| |w0 h0 pl img0 H0 Hs Hl Wf Ew Eh Hc E0| |w0 h0 pl img0 H0| | | |t w0 h0 pl Ht H0 Hs HF Hd E0| | |].
  - destruct (headed_unique _ _ _ _ _ _ _ _ _ H H0) as (_ & -> & -> & ->).
    exact (conj Hs (conj Hl (conj Wf (conj Ew (conj Eh Hc))))).
  - destruct (headed_unique _ _ _ _ _ _ _ _ _ H H0) as (Et & _). lia.
  - destruct (headed_unique _ _ _ _ _ _ _ _ _ H H0) as (Et & _). lia.
Qed.

Lemma pix_range img x y v : pix img x y = Some v -> 0 <= x < iw img /\ 0 <= y < ih img.
Proof. unfold pix. destruct ((0 <=? x) && (x <? iw img) && (0 <=? y) && (y <? ih img)) eqn:B; [lia|discriminate]. Qed.

Lemma luminance_ink buf l1 l2 img1 img2 : bytes buf -> l1 <= l2 -> image_of_bytes buf l1 = Ok img1 -> image_of_bytes buf l2 = Ok img2 ->
  iw img1 = iw img2 /\ ih img1 = ih img2 /\ forall x y, pix img2 x y = Some 120 -> pix img1 x y = Some 120.
Proof.
  intros Hb Hl E1 E2. assert (D : (exists w h payload, headed buf 54 w h payload) \/ img1 = img2).
  { destruct (picture_outcome l1 buf Hb) as (P & _). rewrite E1 in P.
    inversion P as [| |w0 h0 pl img0 H0| |w0 h0 pl img0 H0| | | |t w0 h0 pl Ht H0| | |]; subst.
    - left. eauto.
    - right. assert (N : ~ (exists w h payload, headed buf 54 w h payload)).
      { intros (w & h & payload & HH). destruct (headed_unique _ _ _ _ _ _ _ _ _ HH H0) as (Et & _). lia. }
      pose proof (luminance_unused buf l1 l2 Hb N). congruence.
    - right. assert (N : ~ (exists w h payload, headed buf 54 w h payload)).
      { intros (w & h & payload & HH). destruct (headed_unique _ _ _ _ _ _ _ _ _ HH H0) as (Et & _). lia. }
      pose proof (luminance_unused buf l1 l2 Hb N). congruence. }
  destruct D as [(w & h & pl & H)| ->]; [|auto].
  destruct (colours_of _ _ _ _ _ _ Hb H E1) as (_ & _ & _ & W1 & T1 & C1). destruct (colours_of _ _ _ _ _ _ Hb H E2) as (_ & _ & _ & W2 & T2 & C2).
  split; [congruence|]. split; [congruence|]. intros x y Hp. destruct (pix_range _ _ _ _ Hp) as (Hx & Hy).
  destruct (C2 x y Hx Hy) as (r & g & b & Hr & Hg & Hbl & Ep). rewrite W2, <- W1 in Hr, Hg, Hbl, Hx. rewrite T2, <- T1 in Hy.
  destruct (C1 x y Hx Hy) as (r' & g' & b' & Hr' & Hg' & Hbl' & Ep').
  rewrite Hr in Hr'. rewrite Hg in Hg'. rewrite Hbl in Hbl'. injection Hr' as <-. injection Hg' as <-. injection Hbl' as <-.
  rewrite Ep'. rewrite Hp in Ep. destruct (Z.ltb_spec (luminance_of r g b) l1), (Z.ltb_spec (luminance_of r g b) l2); try reflexivity; try discriminate Ep. lia.
Qed.

Lemma pix_repeat w h v x y : 0 <= w -> 0 <= h -> 0 <= x < w -> 0 <= y < h -> pix (mkimage w h (repeat v (Z.to_nat (w * h)))) x y = Some v.
Proof.
  intros Hw Hh Hx Hy. unfold pix. cbn [iw ih idata]. replace ((0 <=? x) && (x <? w) && (0 <=? y) && (y <? h)) with true by lia.
  assert (0 <= y * w + x < w * h) by (apply idx_bound; lia).
  destruct (nth_error (repeat v (Z.to_nat (w * h))) (Z.to_nat (y * w + x))) eqn:E.
  - apply nth_error_In, repeat_spec in E. congruence.
  - apply nth_error_None in E. rewrite repeat_length in E. lia.
Qed.

Lemma luminance_extremes buf w h payload lum : bytes buf -> headed buf 54 w h payload -> 0 < w * h < 4294967296 ->
  Z.of_nat (List.length payload) = 3 * (w * h) ->
  (lum <= 0 -> image_of_bytes buf lum = Ok (mkimage w h (repeat 120 (Z.to_nat (w * h))))) /\
  (256 <= lum -> image_of_bytes buf lum = Ok (mkimage w h (repeat 45 (Z.to_nat (w * h))))).
Proof.
  intros Hb H Hs Hl. destruct (headed_image _ _ _ _ _ lum H) as (_ & _ & _ & _ & Rw & Rh & _ & _).
  assert (G : forall v, (forall r g b, 0 <= r < 256 -> 0 <= g < 256 -> 0 <= b < 256 -> (if luminance_of r g b <? lum then 45 else 120) = v) ->
    image_of_bytes buf lum = Ok (mkimage w h (repeat v (Z.to_nat (w * h))))).
  { intros v Hv. destruct (picture_outcome lum buf Hb) as (P & U). symmetry. apply U.
    apply (pt_colours lum buf w h payload _ H Hs Hl); [|reflexivity|reflexivity|].
    - split; [exact Rw|]. split; [exact Rh|]. split; [cbn; lia|]. cbn [idata iw ih]. rewrite repeat_length. lia.
    - intros x y Hx Hy. cbn [iw ih] in *.
      assert (Hi : 0 <= y * w + x < w * h) by (apply idx_bound; lia).
      destruct H as (_ & hdr & _ & Eb). assert (Hbp : bytes payload) by (subst buf; unfold bytes in *; now apply Forall_app in Hb).
      assert (Nt : forall k, 0 <= k < 3 * (w * h) -> exists v, nth_error payload (Z.to_nat k) = Some v /\ 0 <= v < 256).
      { intros k Hk. destruct (nth_error payload (Z.to_nat k)) as [u|] eqn:En; [exists u; split; [reflexivity|]|apply nth_error_None in En; lia].
        apply nth_error_In in En. unfold bytes in Hbp. rewrite Forall_forall in Hbp. now apply Hbp. }
      destruct (Nt (3 * (y * w + x)) ltac:(lia)) as (r & Hr & Br). destruct (Nt (3 * (y * w + x) + 1) ltac:(lia)) as (g & Hg & Bg).
      destruct (Nt (3 * (y * w + x) + 2) ltac:(lia)) as (b & Hbl & Bb). exists r, g, b. split; [exact Hr|]. split; [exact Hg|]. split; [exact Hbl|].
      rewrite (Hv r g b Br Bg Bb). apply pix_repeat; lia. }
  split; intros Hlu; apply G; intros r g b Hr Hg Hbl; unfold luminance_of.
  - match goal with |- (if ?a <? lum then _ else _) = _ => destruct (Z.ltb_spec a lum); [exfalso|reflexivity] end. lia.
  - match goal with |- (if ?a <? lum then _ else _) = _ => destruct (Z.ltb_spec a lum); [reflexivity|exfalso] end. lia.
Qed.
