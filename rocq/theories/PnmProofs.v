(** Proofs about the PNM loader. *)
From Verif Require Import Base BaseProofs ImageModel ImageSpec ImageProofs PnmModel PnmSpec.

(** ** Suffixes *)
Lemma suf_cons {A} (buf : list A) p c t :
  skipn (Z.to_nat p) buf = c :: t -> 0 <= p ->
  rd buf p = Ok c /\ skipn (Z.to_nat (p + 1)) buf = t /\ p < Z.of_nat (List.length buf).
Proof.
  intros H Hp.
  assert (Hlt : (Z.to_nat p < List.length buf)%nat).
  { assert (List.length (skipn (Z.to_nat p) buf) = List.length (c :: t)) by congruence.
    rewrite skipn_length in H0. simpl in H0. lia. }
  rewrite (skipn_cons_nth c) in H by exact Hlt. injection H as H1 H2.
  split; [|split].
  - apply rd_ok; [exact Hp|]. rewrite (nth_error_nth' _ c) by exact Hlt. now rewrite H1.
  - replace (Z.to_nat (p + 1)) with (S (Z.to_nat p)) by lia. exact H2.
  - lia.
Qed.

Lemma suf_nil {A} (buf : list A) p :
  skipn (Z.to_nat p) buf = [] -> 0 <= p -> Z.of_nat (List.length buf) <= p.
Proof.
  intros H Hp. assert (List.length (skipn (Z.to_nat p) buf) = 0%nat) by now rewrite H.
  rewrite skipn_length in H0. lia.
Qed.

Lemma suf_len {A} (buf : list A) p :
  0 <= p <= Z.of_nat (List.length buf) ->
  Z.of_nat (List.length (skipn (Z.to_nat p) buf)) = Z.of_nat (List.length buf) - p.
Proof. intros H. rewrite skipn_length. lia. Qed.

Lemma suf_app {A} (buf a b : list A) p :
  skipn (Z.to_nat p) buf = a ++ b -> 0 <= p ->
  skipn (Z.to_nat (p + Z.of_nat (List.length a))) buf = b.
Proof.
  intros H Hp. replace (Z.to_nat (p + Z.of_nat (List.length a)))
    with (List.length a + Z.to_nat p)%nat by lia.
  rewrite <- skipn_skipn', H, skipn_app, skipn_all, Nat.sub_diag. reflexivity.
Qed.

(** ** Numerals *)
Lemma is_digit_spec c : is_digit c = true <-> digit c.
Proof. unfold is_digit, digit. lia. Qed.

Lemma scan_digits_sound l acc n v k :
  scan_digits l acc n = (v, k) ->
  exists ds rest, l = ds ++ rest /\ Forall digit ds /\ k = n + Z.of_nat (List.length ds)
    /\ v = fold_left (fun acc c => acc * 10 + (c - 48)) ds acc
    /\ match rest with c :: _ => ~ digit c | [] => True end.
Proof.
  revert acc n; induction l as [|c l IH]; intros acc n H; simpl in H.
  - injection H as <- <-. exists [], []. simpl; repeat split; auto; lia.
  - destruct (is_digit c) eqn:D.
    + destruct (IH _ _ H) as (ds & rest & -> & Hf & Hk & Hv & Hr).
      exists (c :: ds), rest. simpl. repeat split; auto.
      * constructor; [now apply is_digit_spec|exact Hf].
      * lia.
    + injection H as <- <-. exists [], (c :: l). simpl. repeat split; auto; try lia.
      intros Hd. apply is_digit_spec in Hd. congruence.
Qed.

Lemma scan_digits_complete ds rest acc n :
  Forall digit ds -> match rest with c :: _ => ~ digit c | [] => True end ->
  scan_digits (ds ++ rest) acc n =
  (fold_left (fun acc c => acc * 10 + (c - 48)) ds acc, n + Z.of_nat (List.length ds)).
Proof.
  revert acc n; induction ds as [|c ds IH]; intros acc n Hf Hr; simpl.
  - replace (n + 0) with n by lia. destruct rest as [|c rest]; simpl; [reflexivity|].
    destruct (is_digit c) eqn:D; [|reflexivity]. apply is_digit_spec in D. contradiction.
  - inversion Hf as [|? ? Hc Hf']; subst. apply is_digit_spec in Hc. rewrite Hc.
    rewrite IH by assumption. f_equal. lia.
Qed.

Lemma consume_uint_complete buf p ch ds v rest :
  skipn (Z.to_nat p) buf = ds ++ ch :: rest ->
  numeral ds v -> 0 <= p -> ~ digit ch ->
  consume_uint buf p ch = Ok (Some (v, p + Z.of_nat (List.length ds) + 1)).
Proof.
  intros Hs (Hne & Hf & Hv & Hb) Hp Hch. unfold consume_uint, from_chars.
  rewrite Hs, scan_digits_complete by (auto; exact Hch).
  fold (numeral_value ds). rewrite Hv.
  assert (Hlen : 0 < Z.of_nat (List.length ds)) by (destruct ds; [congruence|simpl; lia]).
  destruct (Z.eqb_spec (0 + Z.of_nat (List.length ds)) 0); [lia|].
  destruct (Z.ltb_spec v 4294967296); [|lia].
  rewrite Z.add_0_l.
  pose proof (suf_app _ _ _ _ Hs Hp) as Hs'.
  destruct (suf_cons _ _ _ _ Hs' ltac:(lia)) as (Hr & _ & Hlt).
  destruct (Z.eqb_spec (p + Z.of_nat (List.length ds)) (Z.of_nat (List.length buf))); [lia|].
  rewrite Hr. simpl. now rewrite Z.eqb_refl.
Qed.

Lemma numeral_nonneg ds v : numeral ds v -> 0 <= v.
Proof.
  intros (_ & Hf & Hv & _). subst v. unfold numeral_value.
  assert (G : forall acc, 0 <= acc -> 0 <= fold_left (fun acc c => acc * 10 + (c - 48)) ds acc).
  { induction ds as [|c ds IH]; intros acc Ha; simpl; [exact Ha|].
    inversion Hf as [|? ? Hc Hf']; subst. unfold digit in Hc. apply IH; [exact Hf'|lia]. }
  apply G; lia.
Qed.

Lemma consume_uint_sound buf p ch :
  0 <= p <= Z.of_nat (List.length buf) ->
  consume_uint buf p ch = Ok None \/
  exists v p' ds, consume_uint buf p ch = Ok (Some (v, p')) /\ numeral ds v /\
    skipn (Z.to_nat p) buf = ds ++ ch :: skipn (Z.to_nat p') buf /\
    p' = p + Z.of_nat (List.length ds) + 1 /\ p' <= Z.of_nat (List.length buf).
Proof.
  intros Hp. unfold consume_uint, from_chars.
  destruct (scan_digits (skipn (Z.to_nat p) buf) 0 0) as [v n] eqn:E.
  destruct (scan_digits_sound _ _ _ _ _ E) as (ds & rest & Hs & Hf & Hn & Hv & Hr).
  destruct (Z.eqb_spec n 0); [now left|].
  destruct (Z.ltb_spec v 4294967296); [|now left].
  pose proof (suf_app _ _ _ _ Hs ltac:(lia)) as Hs'.
  replace (p + Z.of_nat (List.length ds)) with (p + n) in Hs' by lia.
  destruct (Z.eqb_spec (p + n) (Z.of_nat (List.length buf))); [now left|].
  destruct rest as [|c rest].
  { apply suf_nil in Hs'; [|lia].
    assert (List.length (skipn (Z.to_nat p) buf) = List.length (ds ++ [])) by congruence.
    rewrite skipn_length, app_length in H0. simpl in H0. lia. }
  destruct (suf_cons _ _ _ _ Hs' ltac:(lia)) as (Hrd & Htl & Hlt).
  rewrite Hrd. simpl. destruct (Z.eqb_spec c ch) as [->|]; [|now left].
  right. exists v, (p + n + 1), ds. rewrite Htl. repeat split; auto; try lia.
  destruct ds; [simpl in *; lia|congruence].
Qed.

(** ** Comments *)
Lemma skip_comment_gen buf : forall fuel p body tail,
  0 <= p -> (List.length body < fuel)%nat ->
  ~ In NL body -> p < Z.of_nat (List.length buf) ->
  skipn (Z.to_nat (p + 1)) buf = body ++ tail ->
  (tail = [] \/ exists t, tail = NL :: t) ->
  loop fuel (fun p =>
       let p := p + 1 in
       if p =? Z.of_nat (List.length buf) then Ok (inr p)
       else c <- rd buf p ;; if c =? 10 then Ok (inr (p + 1)) else Ok (inl p)) p
  = Ok (p + 1 + Z.of_nat (List.length body) + (match tail with [] => 0 | _ => 1 end)).
Proof.
  induction fuel as [|fuel IH]; intros p body tail Hp Hfuel Hnl Hlt Hs Ht; [lia|].
  cbn [loop]. cbv zeta.
  destruct body as [|c body].
  - simpl in Hs. destruct Ht as [->|(t & ->)].
    + apply suf_nil in Hs; [|lia].
      destruct (Z.eqb_spec (p + 1) (Z.of_nat (List.length buf))); [|lia].
      simpl. f_equal; lia.
    + destruct (suf_cons _ _ _ _ Hs ltac:(lia)) as (Hrd & _ & Hl).
      destruct (Z.eqb_spec (p + 1) (Z.of_nat (List.length buf))); [lia|].
      rewrite Hrd. simpl. f_equal; lia.
  - simpl in Hs. destruct (suf_cons _ _ _ _ Hs ltac:(lia)) as (Hrd & Htl & Hl).
    destruct (Z.eqb_spec (p + 1) (Z.of_nat (List.length buf))); [lia|].
    rewrite Hrd. cbn [bind].
    destruct (Z.eqb_spec c 10) as [->|]; [exfalso; apply Hnl; now left|].
    rewrite (IH _ body tail); auto.
    + f_equal. simpl List.length. lia.
    + lia.
    + simpl in Hfuel; lia.
    + intros Hin; apply Hnl; now right.
Qed.

(** The text up to the first newline, or everything. *)
Lemma split_nl (l : list Z) :
  exists body tail, l = body ++ tail /\ ~ In NL body /\ (tail = [] \/ exists t, tail = NL :: t).
Proof.
  induction l as [|c l (body & tail & -> & Hn & Ht)].
  - exists [], []. auto.
  - destruct (Z.eq_dec c NL) as [->|Hc].
    + exists [], (NL :: body ++ tail). split; [reflexivity|]. split; [auto|]. right; eauto.
    + exists (c :: body), tail. split; [reflexivity|]. split; auto.
      intros [H|H]; auto.
Qed.

Lemma skip_comment_sound buf p t :
  0 <= p -> skipn (Z.to_nat p) buf = 35 :: t ->
  (exists body, ~ In NL body /\ t = body /\
     skip_comment buf p = Ok (Z.of_nat (List.length buf))) \/
  (exists body t', ~ In NL body /\ t = body ++ NL :: t' /\
     skip_comment buf p = Ok (p + 1 + Z.of_nat (List.length body) + 1)).
Proof.
  intros Hp Hs. destruct (suf_cons _ _ _ _ Hs Hp) as (_ & Htl & Hlt).
  destruct (split_nl t) as (body & tail & Et & Hn & Ht).
  assert (HL : (List.length t <= List.length buf)%nat).
  { rewrite <- Htl, skipn_length. lia. }
  assert (E := skip_comment_gen buf (S (List.length buf)) p body tail Hp).
  rewrite Htl, Et in E. specialize (E ltac:(rewrite Et, app_length in HL; lia) Hn Hlt eq_refl Ht).
  unfold skip_comment. destruct Ht as [->|(t' & ->)].
  - left. exists body. rewrite app_nil_r in Et. repeat split; auto.
    etransitivity; [exact E|]. f_equal.
    assert (List.length (skipn (Z.to_nat (p+1)) buf) = List.length body) by congruence.
    rewrite skipn_length in H. lia.
  - right. exists body, t'. auto.
Qed.

Lemma skip_comments_sound buf : forall fuel p,
  0 <= p <= Z.of_nat (List.length buf) ->
  (Z.to_nat (Z.of_nat (List.length buf) - p) < fuel)%nat ->
  exists p', loop fuel (fun p =>
       if p <? Z.of_nat (List.length buf) then
         c <- rd buf p ;;
         if c =? 35 then p' <- skip_comment buf p ;; Ok (inl p') else Ok (inr p)
       else Ok (inr p)) p = Ok p' /\
    (p' = Z.of_nat (List.length buf) \/
     (p <= p' <= Z.of_nat (List.length buf) /\
      exists cs, comments cs /\ skipn (Z.to_nat p) buf = cs ++ skipn (Z.to_nat p') buf
       /\ p' = p + Z.of_nat (List.length cs))).
Proof.
  induction fuel as [|fuel IH]; intros p Hp Hf; [lia|].
  cbn [loop].
  destruct (Z.ltb_spec p (Z.of_nat (List.length buf))) as [Hlt|Hge].
  - destruct (skipn (Z.to_nat p) buf) as [|c t] eqn:Hs.
    { apply suf_nil in Hs; lia. }
    destruct (suf_cons _ _ _ _ Hs ltac:(lia)) as (Hrd & Htl & _).
    rewrite Hrd. cbn [bind].
    destruct (Z.eqb_spec c 35) as [->|Hc].
    + destruct (skip_comment_sound buf p t ltac:(lia) Hs)
        as [(body & Hn & -> & E)|(body & t' & Hn & -> & E)]; rewrite E; cbn [bind].
      * destruct (IH (Z.of_nat (List.length buf))) as (p' & E' & H'); [lia|lia|].
        exists p'. split; [exact E'|]. left. destruct H' as [H'|(H' & _)]; lia.
      * assert (Hlen : Z.of_nat (List.length (skipn (Z.to_nat p) buf)) = Z.of_nat (List.length buf) - p)
          by (apply suf_len; lia).
        rewrite Hs in Hlen. simpl in Hlen. rewrite app_length in Hlen. simpl in Hlen.
        destruct (IH (p + 1 + Z.of_nat (List.length body) + 1)) as (p' & E' & H'); [lia|lia|].
        exists p'. split; [exact E'|].
        destruct H' as [H'|(H1 & cs & Hcs & Hs2 & Hp')]; [now left|]. right.
        split; [lia|]. exists ((35 :: body) ++ NL :: cs). split; [|split].
        -- now constructor.
        -- change (35 :: body ++ NL :: t') with ((35 :: body) ++ NL :: t') in Hs.
           rewrite <- app_assoc. simpl. do 2 f_equal. simpl.
           f_equal. rewrite <- Hs2. symmetry.
           replace (p + 1 + Z.of_nat (List.length body) + 1)
             with (p + Z.of_nat (List.length ((35 :: body) ++ [NL]))).
           ++ apply suf_app; [|lia]. rewrite Hs. simpl. now rewrite <- !app_assoc.
           ++ rewrite app_length. simpl. lia.
        -- rewrite app_length. simpl. lia.
    + exists p. split; [reflexivity|]. right. split; [lia|]. exists [].
      split; [constructor|]. split; [simpl; now rewrite Hs|simpl; lia].
  - exists p. split; [reflexivity|]. left. lia.
Qed.

Lemma skip_comments_complete buf cs c rest : comments cs ->
  forall fuel p, 0 <= p -> skipn (Z.to_nat p) buf = cs ++ c :: rest -> c <> 35 ->
  (List.length cs < fuel)%nat ->
  loop fuel (fun p =>
       if p <? Z.of_nat (List.length buf) then
         c <- rd buf p ;;
         if c =? 35 then p' <- skip_comment buf p ;; Ok (inl p') else Ok (inr p)
       else Ok (inr p)) p = Ok (p + Z.of_nat (List.length cs)).
Proof.
  induction 1 as [|body rest' Hn Hc IH]; intros fuel p Hp Hs Hc35 Hf;
    (destruct fuel as [|fuel]; [lia|]); cbn [loop].
  - simpl in Hs. destruct (suf_cons _ _ _ _ Hs Hp) as (Hrd & _ & Hlt).
    destruct (Z.ltb_spec p (Z.of_nat (List.length buf))); [|lia].
    rewrite Hrd; cbn [bind]. destruct (Z.eqb_spec c 35); [contradiction|].
    simpl. f_equal; lia.
  - rewrite <- app_assoc in Hs. simpl in Hs.
    destruct (suf_cons _ _ _ _ Hs Hp) as (Hrd & Htl & Hlt).
    destruct (Z.ltb_spec p (Z.of_nat (List.length buf))); [|lia].
    rewrite Hrd; cbn [bind]. rewrite Z.eqb_refl.
    assert (E : skip_comment buf p = Ok (p + 1 + Z.of_nat (List.length body) + 1)).
    { unfold skip_comment.
      etransitivity; [eapply (skip_comment_gen buf _ p body (NL :: rest' ++ c :: rest)); auto|reflexivity].
      - assert (HL : (List.length (skipn (Z.to_nat (p + 1)) buf) <= List.length buf)%nat)
          by (rewrite skipn_length; lia).
        rewrite Htl, app_length in HL. lia.
      - right; eauto. }
    rewrite E. cbn [bind].
    rewrite IH; auto.
    + f_equal. rewrite app_length. simpl. lia.
    + lia.
    + replace (p + 1 + Z.of_nat (List.length body) + 1)
        with (p + Z.of_nat (List.length ((35 :: body) ++ [NL])))
        by (rewrite app_length; simpl; lia).
      apply suf_app; [|lia]. rewrite Hs. simpl. now rewrite <- !app_assoc.
    + rewrite app_length in Hf. simpl in Hf. lia.
Qed.

(** ** The header *)
Lemma numeral_hd ds v : numeral ds v -> exists d t, ds = d :: t /\ digit d.
Proof.
  intros (Hne & Hf & _). destruct ds as [|d t]; [congruence|].
  inversion Hf; subst. eauto.
Qed.

Lemma parse_header_complete t w h hdr payload :
  header_text t w h hdr -> 9 <= Z.of_nat (List.length (hdr ++ payload)) ->
  exists m, parse_header (hdr ++ payload) = Ok (Some (mkhdr t w h m (Z.of_nat (List.length hdr)))).
Proof.
  intros Ht Hlen. unfold parse_header.
  destruct (Z.ltb_spec (Z.of_nat (List.length (hdr ++ payload))) 9); [lia|].
  inversion Ht as [cs ws hs ms m Ht1 Ht2 Ht3 Hcs Hws Hhs Hms Eh|cs ws hs Ht1 Hcs Hws Hhs Eh]; subst hdr.
  - destruct (numeral_hd _ _ Hws) as (d & dt & Ews & Hd).
    set (buf := ([80; t; NL] ++ cs ++ ws ++ [SP] ++ hs ++ [NL] ++ ms ++ [NL]) ++ payload) in *.
    assert (Hb : buf = 80 :: t :: NL :: cs ++ ws ++ SP :: hs ++ NL :: ms ++ NL :: payload).
    { unfold buf. simpl. do 3 f_equal. rewrite <- !app_assoc. simpl. do 3 f_equal.
      rewrite <- !app_assoc. simpl. f_equal. f_equal. rewrite <- app_assoc. reflexivity. }
    replace (rd buf 1) with (@Ok Z t) by now rewrite Hb.
    replace (rd buf 0) with (@Ok Z 80) by now rewrite Hb.
    replace (rd buf 2) with (@Ok Z NL) by now rewrite Hb.
    cbn [bind].
    replace (negb (80 =? 80) || ((t <? 49) || (54 <? t)) || negb (NL =? 10)) with false by lia.
    assert (S3 : skipn (Z.to_nat 3) buf = cs ++ ws ++ SP :: hs ++ NL :: ms ++ NL :: payload) by now rewrite Hb.
    unfold skip_comments. cbv zeta.
    rewrite (skip_comments_complete buf cs d (dt ++ SP :: hs ++ NL :: ms ++ NL :: payload)); auto; try lia.
    + cbn [bind].
      assert (S4 := suf_app _ _ _ _ S3 ltac:(lia)).
      rewrite (consume_uint_complete _ _ _ ws w _ S4 Hws ltac:(lia) ltac:(unfold digit; lia)).
      cbn [bind].
      assert (S5 : skipn (Z.to_nat (3 + Z.of_nat (List.length cs) + Z.of_nat (List.length ws) + 1)) buf
                   = hs ++ NL :: ms ++ NL :: payload).
      { replace (3 + Z.of_nat (List.length cs) + Z.of_nat (List.length ws) + 1)
          with (3 + Z.of_nat (List.length cs) + Z.of_nat (List.length (ws ++ [SP])))
          by (rewrite app_length; simpl; lia).
        apply suf_app; [|lia]. rewrite S4. now rewrite <- app_assoc. }
      rewrite (consume_uint_complete _ _ _ hs h _ S5 Hhs ltac:(lia) ltac:(unfold digit; lia)).
      cbn [bind].
      replace (negb (t =? 49) && negb (t =? 52)) with true by lia.
      assert (S6 : skipn (Z.to_nat (3 + Z.of_nat (List.length cs) + Z.of_nat (List.length ws) + 1 + Z.of_nat (List.length hs) + 1)) buf
                   = ms ++ NL :: payload).
      { replace (3 + Z.of_nat (List.length cs) + Z.of_nat (List.length ws) + 1 + Z.of_nat (List.length hs) + 1)
          with (3 + Z.of_nat (List.length cs) + Z.of_nat (List.length ws) + 1 + Z.of_nat (List.length (hs ++ [NL])))
          by (rewrite app_length; simpl; lia).
        apply suf_app; [|lia]. rewrite S5. now rewrite <- app_assoc. }
      rewrite (consume_uint_complete _ _ _ ms m _ S6 Hms ltac:(lia) ltac:(unfold digit; lia)).
      cbn [bind]. exists m. do 3 f_equal. rewrite !app_length. cbn [List.length]. lia.
    + rewrite S3, Ews. simpl. reflexivity.
    + unfold digit in Hd; lia.
    + unfold buf. simpl. rewrite !app_length. lia.
  - destruct (numeral_hd _ _ Hws) as (d & dt & Ews & Hd).
    set (buf := ([80; t; NL] ++ cs ++ ws ++ [SP] ++ hs ++ [NL]) ++ payload) in *.
    assert (Hb : buf = 80 :: t :: NL :: cs ++ ws ++ SP :: hs ++ NL :: payload).
    { unfold buf. simpl. do 3 f_equal. rewrite <- !app_assoc. simpl. do 3 f_equal.
      rewrite <- !app_assoc. reflexivity. }
    replace (rd buf 1) with (@Ok Z t) by now rewrite Hb.
    replace (rd buf 0) with (@Ok Z 80) by now rewrite Hb.
    replace (rd buf 2) with (@Ok Z NL) by now rewrite Hb.
    cbn [bind].
    replace (negb (80 =? 80) || ((t <? 49) || (54 <? t)) || negb (NL =? 10)) with false by lia.
    assert (S3 : skipn (Z.to_nat 3) buf = cs ++ ws ++ SP :: hs ++ NL :: payload) by now rewrite Hb.
    unfold skip_comments. cbv zeta.
    rewrite (skip_comments_complete buf cs d (dt ++ SP :: hs ++ NL :: payload)); auto; try lia.
    + cbn [bind].
      assert (S4 := suf_app _ _ _ _ S3 ltac:(lia)).
      rewrite (consume_uint_complete _ _ _ ws w _ S4 Hws ltac:(lia) ltac:(unfold digit; lia)).
      cbn [bind].
      assert (S5 : skipn (Z.to_nat (3 + Z.of_nat (List.length cs) + Z.of_nat (List.length ws) + 1)) buf
                   = hs ++ NL :: payload).
      { replace (3 + Z.of_nat (List.length cs) + Z.of_nat (List.length ws) + 1)
          with (3 + Z.of_nat (List.length cs) + Z.of_nat (List.length (ws ++ [SP])))
          by (rewrite app_length; simpl; lia).
        apply suf_app; [|lia]. rewrite S4. now rewrite <- app_assoc. }
      rewrite (consume_uint_complete _ _ _ hs h _ S5 Hhs ltac:(lia) ltac:(unfold digit; lia)).
      cbn [bind].
      replace (negb (t =? 49) && negb (t =? 52)) with false by lia.
      exists 0. do 3 f_equal. rewrite !app_length. cbn [List.length]. lia.
    + rewrite S3, Ews. simpl. reflexivity.
    + unfold digit in Hd; lia.
    + unfold buf. simpl. rewrite !app_length. lia.
Qed.

Lemma parse_header_sound buf :
  parse_header buf = Ok None \/
  exists t w h m hdr payload, buf = hdr ++ payload /\ header_text t w h hdr /\
    9 <= Z.of_nat (List.length buf) /\
    parse_header buf = Ok (Some (mkhdr t w h m (Z.of_nat (List.length hdr)))).
Proof.
  unfold parse_header.
  destruct (Z.ltb_spec (Z.of_nat (List.length buf)) 9) as [H9|H9]; [now left|].
  destruct buf as [|c0 [|t [|c2 rest]]]; simpl in H9; try lia.
  set (buf := c0 :: t :: c2 :: rest) in *.
  change (rd buf 1) with (@Ok Z t). change (rd buf 0) with (@Ok Z c0).
  change (rd buf 2) with (@Ok Z c2). cbn [bind].
  destruct (negb (c0 =? 80) || ((t <? 49) || (54 <? t)) || negb (c2 =? 10)) eqn:B; [now left|].
  assert (Hc0 : c0 = 80) by lia. assert (Hc2 : c2 = 10) by lia. assert (Ht : 49 <= t <= 54) by lia. subst c0 c2.
  assert (Hl3 : 3 <= Z.of_nat (List.length buf)) by (unfold buf; simpl List.length; lia).
  assert (H9' : 9 <= Z.of_nat (List.length buf)) by (unfold buf; simpl List.length; lia).
  destruct (skip_comments_sound buf (S (List.length buf)) 3) as (p1 & E1 & H1); [lia|lia|].
  unfold skip_comments. cbv zeta. rewrite E1. cbn [bind].
  destruct (consume_uint_sound buf p1 32) as [E2|(w & p2 & ws & E2 & Nw & Sw & Pw & Lw)].
  { destruct H1 as [->|(H1 & _)]; lia. }
  { rewrite E2. now left. }
  rewrite E2. cbn [bind].
  destruct H1 as [->|(Hp1 & cs & Hcs & Scs & Pcs)].
  { exfalso. rewrite Nat2Z.id, skipn_all in Sw. destruct ws; discriminate. }
  destruct (consume_uint_sound buf p2 10) as [E3|(h & p3 & hs & E3 & Nh & Sh & Ph & Lh)]; [lia|..].
  { rewrite E3. now left. }
  rewrite E3. cbn [bind].
  destruct (negb (t =? 49) && negb (t =? 52)) eqn:Bt.
  - destruct (consume_uint_sound buf p3 10) as [E4|(m & p4 & ms & E4 & Nm & Sm & Pm & Lm)]; [lia|..].
    { rewrite E4. now left. }
    rewrite E4. cbn [bind]. right.
    exists t, w, h, m, ([80; t; NL] ++ cs ++ ws ++ [SP] ++ hs ++ [NL] ++ ms ++ [NL]),
      (skipn (Z.to_nat p4) buf).
    split; [|split; [|split]].
    + change buf with ([80; t; NL] ++ skipn (Z.to_nat 3) buf) at 1.
      rewrite Scs, Sw, Sh, Sm. rewrite <- !app_assoc. reflexivity.
    + econstructor; eauto; lia.
    + exact H9'.
    + do 3 f_equal. rewrite !app_length. cbn [List.length]. lia.
  - right. exists t, w, h, 0, ([80; t; NL] ++ cs ++ ws ++ [SP] ++ hs ++ [NL]),
      (skipn (Z.to_nat p3) buf).
    split; [|split; [|split]].
    + change buf with ([80; t; NL] ++ skipn (Z.to_nat 3) buf) at 1.
      rewrite Scs, Sw, Sh. rewrite <- !app_assoc. reflexivity.
    + econstructor; eauto; lia.
    + exact H9'.
    + do 3 f_equal. rewrite !app_length. cbn [List.length]. lia.
Qed.

(** ** P6 *)
Lemma luma_bytes r g b :
  0 <= r < 256 -> 0 <= g < 256 -> 0 <= b < 256 -> luma r g b = luminance_of r g b.
Proof.
  intros Hr Hg Hb. unfold luma, luminance_of. apply Z.mod_small. lia.
Qed.

Definition p6_pixel (buf : list Z) (lum p k : Z) : pixel :=
  threshold (luma (nth (Z.to_nat (p + 3 * k)) buf 0) (nth (Z.to_nat (p + 3 * k + 1)) buf 0)
                  (nth (Z.to_nat (p + 3 * k + 2)) buf 0)) lum.

Lemma decode_p6_ok buf lum n p :
  0 <= p -> 0 <= n -> Z.of_nat (List.length buf) - p = 3 * n ->
  decode_p6 buf lum n p = Ok (map (p6_pixel buf lum p) (zrange n)).
Proof.
  intros Hp Hn Hlen. unfold decode_p6. cbv zeta.
  edestruct (@loop_total (Z * list pixel) (list pixel)) with
    (fuel := S (List.length buf)) (s := (p, @nil pixel))
    (I := fun '((q, o) : Z * list pixel) => exists k, 0 <= k <= n /\ q = p + 3 * k /\
            o = map (p6_pixel buf lum p) (zrange k))
    (m := fun '((q, _) : Z * list pixel) => Z.to_nat (Z.of_nat (List.length buf) - q))
    (Q := fun o => o = map (p6_pixel buf lum p) (zrange n))
    as (r & E & HQ).
  3:{ lia. }
  3:{ rewrite HQ in E. exact E. }
  - intros [q o] (k & Hk & -> & ->). cbv beta iota.
    destruct (Z.ltb_spec (p + 3 * k) (Z.of_nat (List.length buf))).
    + rewrite !(rd_nth 0) by lia. cbn [bind].
      rewrite emit_ok by (rewrite map_length, zrange_length; lia). cbn [bind].
      split; [|lia]. exists (k + 1). split; [lia|]. split; [lia|].
      rewrite zrange_S, map_app by lia. reflexivity.
    + assert (k = n) by lia. now subst.
  - exists 0. repeat split; try lia.
Qed.

(** ** P4 *)
Definition p4_bit (buf : list Z) (p x : Z) : pixel :=
  if Z.testbit (nth (Z.to_nat (p + x / 8)) buf 0) (7 - x mod 8) then 45 else 120.

Lemma decode_p4_row_ok buf cap w p out :
  bytes buf -> 0 <= p -> 0 <= w <= 2147483647 ->
  p + (w + 7) / 8 <= Z.of_nat (List.length buf) ->
  Z.of_nat (List.length out) + w <= cap ->
  decode_p4_row buf cap w p out =
  Ok (p + (w + 7) / 8, out ++ map (p4_bit buf p) (zrange w)).
Proof.
  intros Hb Hp Hw Hlen Hcap. unfold decode_p4_row.
  destruct (@for_up_total (Z * Z * Z * list pixel)
    (fun _ '(p, c, i, out) =>
         '(c, p) <- (if Z.rem i 8 =? 0 then (v <- rd buf p ;; Ok (v, p + 1)) else Ok (c, p)) ;;
         out' <- emit cap out (if Z.testbit c 7 then 45 else 120) ;;
         if i =? 2147483647 then UB else Ok (p, u32 (c * 2), i + 1, out'))
    (fun k '(q, c, i, o) => i = k /\ q = p + (k + 7) / 8 /\
       (k mod 8 <> 0 -> c = nth (Z.to_nat (p + k / 8)) buf 0 * 2 ^ (k mod 8)) /\
       o = out ++ map (p4_bit buf p) (zrange k))
    (Z.to_nat w) 0) with (s := (p, 0, 0, out)) as (s' & E & HI).
  - intros k [[[q c] i] o] Hk (-> & -> & Hc & ->).
    assert (Hr : Z.rem k 8 = k mod 8) by (apply Z.rem_mod_nonneg; lia).
    rewrite Hr.
    assert (Hbyte : 0 <= nth (Z.to_nat (p + k / 8)) buf 0 < 256).
    { assert (Hin : In (nth (Z.to_nat (p + k / 8)) buf 0) buf) by (apply nth_In; lia).
      unfold bytes in Hb. rewrite Forall_forall in Hb. now apply Hb in Hin. }
    assert (Hm : (k mod 8 = 0 /\ (k + 7) / 8 = k / 8 /\ (k + 1 + 7) / 8 = k / 8 + 1) \/
                 (k mod 8 <> 0 /\ (k + 7) / 8 = k / 8 + 1 /\ (k + 1 + 7) / 8 = k / 8 + 1)) by lia.
    assert (Hn : (k + 1) mod 8 <> 0 -> (k + 1) mod 8 = k mod 8 + 1 /\ (k + 1) / 8 = k / 8) by lia.
    assert (Hk8 : 0 <= k mod 8 < 8) by (apply Z.mod_pos_bound; lia).
    set (B := nth (Z.to_nat (p + k / 8)) buf 0) in *.
    assert (Hpow : forall j, 0 <= j < 9 -> 0 <= B * 2 ^ j < 4294967296).
    { intros j Hj. assert (2 ^ j <= 2 ^ 8) by (apply Z.pow_le_mono_r; lia).
      assert (0 < 2 ^ j) by (apply Z.pow_pos_nonneg; lia). change (2 ^ 8) with 256 in H. nia. }
    assert (Hstep : exists c', (if k mod 8 =? 0 then v <- rd buf (p + (k + 7) / 8);; Ok (v, p + (k + 7) / 8 + 1)
       else Ok (c, p + (k + 7) / 8)) = Ok (c', p + (k + 1 + 7) / 8) /\ c' = B * 2 ^ (k mod 8)).
    { destruct (Z.eqb_spec (k mod 8) 0) as [H0|H0].
      - destruct Hm as [(_ & Hm1 & Hm2)|(? & _)]; [|lia].
        rewrite Hm1, Hm2, H0. rewrite (rd_nth 0) by lia. cbn [bind].
        exists B. split; [do 2 f_equal; lia|]. rewrite Z.pow_0_r. lia.
      - destruct Hm as [(? & _)|(_ & Hm1 & Hm2)]; [lia|].
        rewrite Hm1, Hm2. exists c. split; [reflexivity|]. apply Hc, H0. }
    destruct Hstep as (c' & -> & ->). cbn [bind].
    rewrite Z.mul_pow2_bits by lia.
    rewrite emit_ok by (rewrite app_length, map_length, zrange_length; lia). cbn [bind].
    destruct (Z.eqb_spec k 2147483647); [lia|].
    eexists; split; [reflexivity|]. repeat split.
    + intros H0. apply Hn in H0. destruct H0 as (E1 & E2). rewrite E1, E2. fold B.
      rewrite u32_small.
      * rewrite Z.pow_add_r by lia. change (2 ^ 1) with 2. ring.
      * replace (B * 2 ^ (k mod 8) * 2) with (B * 2 ^ (k mod 8 + 1))
          by (rewrite Z.pow_add_r by lia; change (2 ^ 1) with 2; ring).
        apply Hpow; lia.
    + rewrite zrange_S, map_app, app_assoc by lia. reflexivity.
  - repeat split.
    + replace ((0 + 7) / 8) with 0 by reflexivity. lia.
    + intros H. exfalso. apply H. reflexivity.
    + simpl. now rewrite app_nil_r.
  - rewrite E. destruct s' as [[[q c] i] o]. destruct HI as (_ & -> & _ & ->).
    cbn [bind]. rewrite Z2Nat.id by lia. rewrite Z.add_0_l. reflexivity.
Qed.

Lemma decode_p4_ok buf w h p :
  bytes buf -> 0 <= p -> 0 < w <= 2147483647 -> 0 <= h ->
  Z.of_nat (List.length buf) - p = (w + 7) / 8 * h ->
  decode_p4 buf (w * h) w h p =
  Ok (rowmajor w h (fun x y => p4_bit buf (p + y * ((w + 7) / 8)) x)).
Proof.
  intros Hb Hp Hw Hh Hlen. unfold decode_p4.
  destruct (@for_up_total (Z * list pixel)
    (fun _ '(p, out) => decode_p4_row buf (w * h) w p out)
    (fun k '(q, o) => q = p + k * ((w + 7) / 8) /\
       o = rowmajor w k (fun x y => p4_bit buf (p + y * ((w + 7) / 8)) x))
    (Z.to_nat h) 0) with (s := (p, @nil pixel)) as (s' & E & HI).
  - intros k [q o] Hk (-> & ->).
    assert (0 <= (w + 7) / 8) by lia.
    rewrite decode_p4_row_ok; auto; try lia.
    + eexists; split; [reflexivity|]. split; [lia|]. now rewrite rowmajor_snoc by lia.
    + assert ((k + 1) * ((w + 7) / 8) <= h * ((w + 7) / 8)) by (apply Z.mul_le_mono_nonneg_r; lia).
      lia.
    + rewrite rowmajor_length by lia.
      assert (w * (k + 1) <= w * h) by (apply Z.mul_le_mono_nonneg_l; lia). lia.
  - split; [lia|]. unfold rowmajor. now rewrite (zrange_0 0) by lia.
  - rewrite E. destruct s' as [q o]. destruct HI as (_ & ->). cbn [bind].
    now rewrite Z2Nat.id by lia.
Qed.

(** ** ASCII *)

Definition ascii_body buf img_size : (Z * Z * list pixel) -> res ((Z * Z * list pixel) + (Z * list pixel)) :=
    (fun '(p, counter, out) =>
       if p <? Z.of_nat (List.length buf) then
         c <- rd buf p ;;
         if c =? 32 then Ok (inl (p + 1, counter, out))
         else if c =? 48 then
           out' <- emit img_size out 45 ;;
           (if u64 (counter + 1) =? img_size then Ok (inr (p, out'))
            else Ok (inl (p + 1, u64 (counter + 1), out')))
         else if c =? 49 then
           out' <- emit img_size out 120 ;;
           (if u64 (counter + 1) =? img_size then Ok (inr (p, out'))
            else Ok (inl (p + 1, u64 (counter + 1), out')))
         else if c =? 10 then Ok (inl (p + 1, counter, out))
         else Throw ExBadData
       else Ok (inr (p, out))).

Lemma decode_ascii_gen buf n l : forall fuel p out,
  0 <= p -> skipn (Z.to_nat p) buf = l -> p <= Z.of_nat (List.length buf) ->
  (List.length l < fuel)%nat ->
  0 < n < 4294967296 -> Z.of_nat (List.length out) < n ->
  let digits := filter ascii_digit l in
  (exists e, loop fuel (ascii_body buf n) (p, Z.of_nat (List.length out), out) = Throw e /\
      ~ Forall (fun c => ascii_digit c = true \/ ascii_blank c = true) l) \/
  (Z.of_nat (List.length out + List.length digits) < n /\
   Forall (fun c => ascii_digit c = true \/ ascii_blank c = true) l /\
   loop fuel (ascii_body buf n) (p, Z.of_nat (List.length out), out) =
   Ok (Z.of_nat (List.length buf), out ++ map ascii_pixel digits)) \/
  (n <= Z.of_nat (List.length out + List.length digits) /\
   exists q o c, loop fuel (ascii_body buf n) (p, Z.of_nat (List.length out), out) = Ok (q, o) /\
     p <= q < Z.of_nat (List.length buf) /\ rd buf q = Ok c /\ ascii_digit c = true).
Proof.
  revert n; induction l as [|c l IH]; intros n fuel p out Hp Hs Hle Hf Hn Ho digits;
    (destruct fuel as [|fuel]; [lia|]); cbn [loop].
  - apply suf_nil in Hs; [|lia].
    assert (EB : ascii_body buf n (p, Z.of_nat (List.length out), out) = Ok (inr (p, out))).
    { unfold ascii_body. destruct (Z.ltb_spec p (Z.of_nat (List.length buf))); [lia|reflexivity]. }
    rewrite EB.
    right; left. simpl. rewrite app_nil_r. repeat split; auto; try lia.
    now replace (Z.of_nat (List.length buf)) with p by lia.
  - destruct (suf_cons _ _ _ _ Hs Hp) as (Hrd & Htl & Hlt).
    assert (EB : ascii_body buf n (p, Z.of_nat (List.length out), out) =
      if c =? 32 then Ok (inl (p + 1, Z.of_nat (List.length out), out))
      else if ascii_digit c then
        (if Z.of_nat (List.length (out ++ [ascii_pixel c])) =? n then Ok (inr (p, out ++ [ascii_pixel c]))
         else Ok (inl (p + 1, Z.of_nat (List.length (out ++ [ascii_pixel c])), out ++ [ascii_pixel c])))
      else if c =? 10 then Ok (inl (p + 1, Z.of_nat (List.length out), out))
      else Throw ExBadData).
    { unfold ascii_body. destruct (Z.ltb_spec p (Z.of_nat (List.length buf))); [|lia].
      rewrite Hrd. cbn [bind]. rewrite !emit_ok by lia. cbn [bind].
      rewrite u64_small by lia.
      replace (Z.of_nat (List.length (out ++ [ascii_pixel c]))) with (Z.of_nat (List.length out) + 1)
        by (rewrite app_length; simpl; lia).
      unfold ascii_digit, ascii_pixel.
      destruct (Z.eqb_spec c 32); [reflexivity|].
      destruct (Z.eqb_spec c 48); [reflexivity|].
      destruct (Z.eqb_spec c 49); reflexivity. }
    rewrite EB. clear EB.
    assert (Hdig : ascii_digit c = true ->
       digits = c :: filter ascii_digit l) by (intros H; unfold digits; simpl; now rewrite H).
    assert (Hnd : ascii_digit c = false ->
       digits = filter ascii_digit l) by (intros H; unfold digits; simpl; now rewrite H).
    assert (Hblank : ascii_blank c = true -> ascii_digit c = false)
      by (unfold ascii_blank, ascii_digit; lia).
    assert (Hgoon : ascii_blank c = true ->
       (exists e, loop fuel (ascii_body buf n) (p + 1, Z.of_nat (List.length out), out) = Throw e /\
          ~ Forall (fun c => ascii_digit c = true \/ ascii_blank c = true) (c :: l)) \/
       (Z.of_nat (List.length out + List.length digits) < n /\
        Forall (fun c => ascii_digit c = true \/ ascii_blank c = true) (c :: l) /\
        loop fuel (ascii_body buf n) (p + 1, Z.of_nat (List.length out), out) =
        Ok (Z.of_nat (List.length buf), out ++ map ascii_pixel digits)) \/
       (n <= Z.of_nat (List.length out + List.length digits) /\
        exists q o c, loop fuel (ascii_body buf n) (p + 1, Z.of_nat (List.length out), out) = Ok (q, o) /\
        p <= q < Z.of_nat (List.length buf) /\ rd buf q = Ok c /\ ascii_digit c = true)).
    { intros Hb. rewrite (Hnd (Hblank Hb)).
      destruct (IH n fuel (p + 1) out) as [(e & E & H)|[(H & HF & E)|(H & q & o & c' & E & H1 & H2)]];
        auto; try lia.
      - simpl in Hf; lia.
      - left. exists e. split; [exact E|]. intros HF. apply H. now inversion HF.
      - right; left. repeat split; auto.
      - right; right. split; [exact H|]. exists q, o, c'. repeat split; auto; try lia. apply H2. apply H2. }
    destruct (Z.eqb_spec c 32) as [->|H32]; [apply Hgoon; reflexivity|].
    destruct (ascii_digit c) eqn:D.
    + rewrite (Hdig eq_refl).
      assert (Hl1 : Z.of_nat (List.length (out ++ [ascii_pixel c])) = Z.of_nat (List.length out) + 1)
        by (rewrite app_length; simpl; lia).
      destruct (Z.eqb_spec (Z.of_nat (List.length (out ++ [ascii_pixel c]))) n) as [En|En].
      * right; right. cbn [List.length]. split; [lia|].
        exists p, (out ++ [ascii_pixel c]), c. repeat split; auto; lia.
      * destruct (IH n fuel (p + 1) (out ++ [ascii_pixel c]))
          as [(e & E & H)|[(H & HF & E)|(H & q & o & c' & E & H1 & H2)]]; auto; try lia.
        -- simpl in Hf; lia.
        -- left. exists e. split; [exact E|]. intros HF. apply H. now inversion HF.
        -- right; left. cbn [List.length]. rewrite E. repeat split; auto; try lia.
           simpl map. now rewrite <- app_assoc.
        -- right; right. cbn [List.length]. split; [lia|]. exists q, o, c'. repeat split; auto; try lia.
           apply H2. apply H2.
    + destruct (Z.eqb_spec c 10) as [->|H10]; [apply Hgoon; reflexivity|].
      left. exists ExBadData. split; [reflexivity|]. intros HF.
      inversion HF as [|? ? [Hd|Hb] _]; subst; [congruence|].
      unfold ascii_blank in Hb. lia.
Qed.

Lemma skip_blank_digit buf p c :
  0 <= p < Z.of_nat (List.length buf) -> rd buf p = Ok c -> ascii_digit c = true ->
  skip_blank buf p = Ok p.
Proof.
  intros Hp Hr Hd. unfold skip_blank. cbv zeta. cbn [loop].
  destruct (Z.ltb_spec p (Z.of_nat (List.length buf))); [|lia].
  rewrite Hr. cbn [bind]. replace ((c =? 32) || (c =? 10)) with false; [reflexivity|].
  unfold ascii_digit in Hd. lia.
Qed.

Lemma skip_blank_end buf : skip_blank buf (Z.of_nat (List.length buf)) = Ok (Z.of_nat (List.length buf)).
Proof.
  unfold skip_blank. cbv zeta. cbn [loop]. now rewrite Z.ltb_irrefl.
Qed.

(** ** image_of_bytes *)
Lemma header_w_h t w h hdr : header_text t w h hdr ->
  0 <= w < 4294967296 /\ 0 <= h < 4294967296 /\ 49 <= t <= 54.
Proof.
  inversion 1; subst;
  match goal with Hw : numeral ?a w, Hh : numeral ?b h |- _ =>
    pose proof (numeral_nonneg _ _ Hw); pose proof (numeral_nonneg _ _ Hh);
    destruct Hw as (_ & _ & _ & ?), Hh as (_ & _ & _ & ?) end; lia.
Qed.

Lemma numeral_len ds v : numeral ds v -> 1 <= Z.of_nat (List.length ds).
Proof. intros (Hne & _). destruct ds; [congruence|simpl; lia]. Qed.

Lemma header_p6_len w h t hdr : t <> 49 -> t <> 52 -> header_text t w h hdr -> 9 <= Z.of_nat (List.length hdr).
Proof.
  intros Ht1 Ht2. inversion 1; subst; [|lia].
  repeat match goal with Hw : numeral _ _ |- _ => apply numeral_len in Hw end.
  rewrite !app_length. cbn [List.length]. lia.
Qed.

Lemma img_size_ok w h :
  0 <= w < 4294967296 -> 0 <= h < 4294967296 -> u64 (w * h) = w * h.
Proof. intros. apply u64_small. nia. Qed.

Lemma image_of_bytes_size t w h hdr payload lum :
  header_text t w h hdr -> w * h = 0 \/ 4294967296 <= w * h ->
  exists e, image_of_bytes (hdr ++ payload) lum = Throw e.
Proof.
  intros Ht Hs. unfold image_of_bytes.
  destruct (parse_header_sound (hdr ++ payload)) as [E|(t' & w' & h' & m' & hdr' & p' & _ & _ & H9 & _)].
  { rewrite E. simpl. eauto. }
  destruct (parse_header_complete _ _ _ _ payload Ht H9) as (m & E). rewrite E. cbn [bind h_width h_height].
  destruct (header_w_h _ _ _ _ Ht) as (Hw & Hh & _).
  rewrite img_size_ok by assumption.
  destruct (Z.eqb_spec (w * h) 0); [eauto|].
  destruct (Z.eqb_spec (w * h) (u32 (w * h))) as [Eq|]; simpl; [|eauto].
  pose proof (u32_range (w * h)). lia.
Qed.

Lemma p6_law w h hdr payload lum :
  header_text 54 w h hdr -> bytes payload -> 0 < w * h < 4294967296 ->
  (Z.of_nat (List.length payload) = 3 * (w * h) ->
   exists img, image_of_bytes (hdr ++ payload) lum = Ok img /\ wf_image img /\
     iw img = w /\ ih img = h /\
     forall x y r g b, 0 <= x < w -> 0 <= y < h ->
       nth_error payload (Z.to_nat (3 * (y * w + x))) = Some r ->
       nth_error payload (Z.to_nat (3 * (y * w + x) + 1)) = Some g ->
       nth_error payload (Z.to_nat (3 * (y * w + x) + 2)) = Some b ->
       pix img x y = Some (if luminance_of r g b <? lum then 45 else 120)) /\
  (Z.of_nat (List.length payload) <> 3 * (w * h) ->
   exists e, image_of_bytes (hdr ++ payload) lum = Throw e).
Proof.
  intros Ht Hb Hs.
  destruct (header_w_h _ _ _ _ Ht) as (Hw & Hh & _).
  assert (H9 : 9 <= Z.of_nat (List.length hdr)) by (apply (header_p6_len w h 54); [lia|lia|exact Ht]).
  destruct (parse_header_complete _ _ _ _ payload Ht) as (m & E); [rewrite app_length; lia|].
  unfold image_of_bytes. rewrite E. cbn [bind h_width h_height h_type h_end].
  rewrite img_size_ok by assumption.
  destruct (Z.eqb_spec (w * h) 0); [lia|].
  rewrite u32_small by lia. rewrite Z.eqb_refl. cbn [negb].
  change (54 =? 54) with true. cbv iota.
  rewrite u64_small by lia. rewrite app_length, Nat2Z.inj_add.
  replace (Z.of_nat (List.length hdr) + Z.of_nat (List.length payload) - Z.of_nat (List.length hdr))
    with (Z.of_nat (List.length payload)) by lia.
  split; intros HL.
  - destruct (Z.eqb_spec (Z.of_nat (List.length payload)) (w * h * 3)); [|lia]. cbn [negb].
    rewrite decode_p6_ok; try lia; [|rewrite app_length; lia].
    cbn [bind]. eexists; split; [reflexivity|].
    split; [|split; [reflexivity|split; [reflexivity|]]].
    + repeat split; cbn [iw ih idata]; try lia.
      rewrite map_length, zrange_length. lia.
    + intros x y r g b Hx Hy Hr Hg Hbb.
      assert (Hi : 0 <= y * w + x < w * h) by (apply idx_bound; lia).
      unfold pix. cbn [iw ih idata].
      replace ((0 <=? x) && (x <? w) && (0 <=? y) && (y <? h)) with true by lia.
      rewrite nth_error_map, zrange_nth by lia. cbn [option_map].
      rewrite Z2Nat.id by lia. unfold p6_pixel.
      assert (Hnth : forall j c, 0 <= j -> nth_error payload (Z.to_nat (3 * (y * w + x) + j)) = Some c ->
        nth (Z.to_nat (Z.of_nat (List.length hdr) + 3 * (y * w + x) + j)) (hdr ++ payload) 0 = c
        /\ 0 <= c < 256).
      { intros j c Hj Hc. split.
        - rewrite app_nth2 by lia.
          replace (Z.to_nat (Z.of_nat (List.length hdr) + 3 * (y * w + x) + j) - List.length hdr)%nat
            with (Z.to_nat (3 * (y * w + x) + j)) by lia.
          now apply nth_error_nth.
        - apply nth_error_In in Hc. unfold bytes in Hb. rewrite Forall_forall in Hb. now apply Hb. }
      replace (3 * (y * w + x)) with (3 * (y * w + x) + 0) in Hr by lia.
      replace (Z.of_nat (List.length hdr) + 3 * (y * w + x))
        with (Z.of_nat (List.length hdr) + 3 * (y * w + x) + 0) at 1 by lia.
      destruct (Hnth 0 r ltac:(lia) Hr) as (-> & Br).
      destruct (Hnth 1 g ltac:(lia) Hg) as (-> & Bg).
      destruct (Hnth 2 b ltac:(lia) Hbb) as (-> & Bb).
      rewrite luma_bytes by assumption. reflexivity.
  - destruct (Z.eqb_spec (Z.of_nat (List.length payload)) (w * h * 3)); [lia|]. cbn [negb]. eauto.
Qed.

Lemma ceil8_le w : 1 <= w -> (w + 7) / 8 <= w.
Proof. lia. Qed.

Lemma p4_law w h hdr payload lum :
  header_text 52 w h hdr -> bytes (hdr ++ payload) -> 0 < w * h < 4294967296 ->
  w < 2147483648 ->
  (9 <= Z.of_nat (List.length (hdr ++ payload)) ->
   Z.of_nat (List.length payload) = (w + 7) / 8 * h ->
   exists img, image_of_bytes (hdr ++ payload) lum = Ok img /\ wf_image img /\
     iw img = w /\ ih img = h /\
     forall x y c, 0 <= x < w -> 0 <= y < h ->
       nth_error payload (Z.to_nat (y * ((w + 7) / 8) + x / 8)) = Some c ->
       pix img x y = Some (if Z.testbit c (7 - x mod 8) then 45 else 120)) /\
  (Z.of_nat (List.length payload) <> (w + 7) / 8 * h ->
   exists e, image_of_bytes (hdr ++ payload) lum = Throw e).
Proof.
  intros Ht Hb Hs Hw31.
  destruct (header_w_h _ _ _ _ Ht) as (Hw & Hh & _).
  assert (Hw1 : 1 <= w) by nia. assert (Hh1 : 1 <= h) by nia.
  assert (Hsize : 0 <= (w + 7) / 8 * h < 4294967296).
  { pose proof (ceil8_le w Hw1). assert (0 <= (w + 7) / 8) by lia. nia. }
  assert (Hgo : 9 <= Z.of_nat (List.length (hdr ++ payload)) ->
    image_of_bytes (hdr ++ payload) lum =
    if negb (Z.of_nat (List.length payload) =? (w + 7) / 8 * h) then Throw ExBadLength
    else d <- decode_p4 (hdr ++ payload) (w * h) w h (Z.of_nat (List.length hdr)) ;; Ok (mkimage w h d)).
  { intros H9. destruct (parse_header_complete _ _ _ _ payload Ht H9) as (m & E).
    unfold image_of_bytes. rewrite E. cbn [bind h_width h_height h_type h_end].
    rewrite img_size_ok by assumption.
    destruct (Z.eqb_spec (w * h) 0); [lia|].
    rewrite u32_small by lia. rewrite Z.eqb_refl. cbn [negb].
    change (52 =? 54) with false. change (52 =? 52) with true. cbv iota.
    rewrite (u32_small (w + 7)) by lia. rewrite u32_small by lia.
    rewrite app_length, Nat2Z.inj_add.
    replace (Z.of_nat (List.length hdr) + Z.of_nat (List.length payload) - Z.of_nat (List.length hdr))
      with (Z.of_nat (List.length payload)) by lia.
    reflexivity. }
  split.
  - intros H9 HL. rewrite Hgo by exact H9. rewrite HL, Z.eqb_refl. cbn [negb].
    rewrite decode_p4_ok; auto; try lia; [|rewrite app_length; lia].
    cbn [bind]. eexists; split; [reflexivity|].
    split; [apply rowmajor_wf; lia|]. split; [reflexivity|]. split; [reflexivity|].
    intros x y c Hx Hy Hc. rewrite rowmajor_pix by lia. f_equal. unfold p4_bit.
    assert (Hnn : 0 <= y * ((w + 7) / 8)) by (apply Z.mul_nonneg_nonneg; lia).
    rewrite app_nth2 by lia.
    replace (Z.to_nat (Z.of_nat (List.length hdr) + y * ((w + 7) / 8) + x / 8) - List.length hdr)%nat
      with (Z.to_nat (y * ((w + 7) / 8) + x / 8)) by lia.
    now rewrite (nth_error_nth _ _ _ Hc).
  - intros HL.
    destruct (parse_header_sound (hdr ++ payload)) as [E|(t' & w' & h' & m' & hdr' & p' & _ & _ & H9 & _)].
    { unfold image_of_bytes. rewrite E. simpl. eauto. }
    rewrite Hgo by exact H9.
    destruct (Z.eqb_spec (Z.of_nat (List.length payload)) ((w + 7) / 8 * h)); [lia|]. simpl. eauto.
Qed.


(** ASCII payloads: what the code does. *)
Lemma ascii_law t w h hdr payload lum :
  t = 49 \/ t = 51 -> header_text t w h hdr -> 0 < w * h < 4294967296 ->
  9 <= Z.of_nat (List.length (hdr ++ payload)) ->
  let digits := filter ascii_digit payload in
  (exists e, image_of_bytes (hdr ++ payload) lum = Throw e /\
     (~ Forall (fun c => ascii_digit c = true \/ ascii_blank c = true) payload \/
      w * h <= Z.of_nat (List.length digits))) \/
  (Forall (fun c => ascii_digit c = true \/ ascii_blank c = true) payload /\
   Z.of_nat (List.length digits) < w * h /\
   image_of_bytes (hdr ++ payload) lum = Ok (mkimage w h (map ascii_pixel digits))).
Proof.
  intros Htt Ht Hs H9 digits.
  destruct (header_w_h _ _ _ _ Ht) as (Hw & Hh & _).
  destruct (parse_header_complete _ _ _ _ payload Ht H9) as (m & E).
  unfold image_of_bytes. rewrite E. cbn [bind h_width h_height h_type h_end].
  rewrite img_size_ok by assumption.
  destruct (Z.eqb_spec (w * h) 0); [lia|].
  rewrite u32_small by lia. rewrite Z.eqb_refl. cbn [negb].
  replace (t =? 54) with false by lia. replace (t =? 52) with false by lia.
  replace ((t =? 51) || (t =? 49)) with true by lia. cbv iota.
  unfold decode_ascii. cbv zeta. fold (ascii_body (hdr ++ payload) (w * h)).
  destruct (decode_ascii_gen (hdr ++ payload) (w * h) payload
     (S (List.length (hdr ++ payload))) (Z.of_nat (List.length hdr)) [])
    as [(e & EL & H)|[(H & HF & EL)|(H & q & o & c & EL & H1 & H2 & H3)]]; try lia.
  - rewrite Nat2Z.id, skipn_app, skipn_all, Nat.sub_diag. reflexivity.
  - rewrite app_length; lia.
  - rewrite app_length; lia.
  - simpl; lia.
  - change (Z.of_nat (@List.length Z [])) with 0 in EL. rewrite EL. cbn [bind]. left. eauto.
  - change (Z.of_nat (@List.length Z [])) with 0 in EL. rewrite EL. cbn [bind]. rewrite skip_blank_end. cbn [bind].
    rewrite Z.eqb_refl. cbn [negb]. right. repeat split; auto.
  - change (Z.of_nat (@List.length Z [])) with 0 in EL. rewrite EL. cbn [bind].
    rewrite (skip_blank_digit _ q c) by (auto; lia). cbn [bind].
    destruct (Z.eqb_spec q (Z.of_nat (List.length (hdr ++ payload)))); [lia|]. cbn [negb].
    left. exists ExBadLength. split; [reflexivity|]. right. simpl in H. exact H.
Qed.

(** Never UB nor out of fuel, whatever the file. *)
Lemma no_ub buf lum :
  bytes buf ->
  (forall hdr payload w h, buf = hdr ++ payload -> header_text 52 w h hdr -> w < 2147483648) ->
  (exists img, image_of_bytes buf lum = Ok img) \/ (exists e, image_of_bytes buf lum = Throw e).
Proof.
  intros Hb Hg.
  destruct (parse_header_sound buf) as [E|(t & w & h & m & hdr & payload & -> & Ht & H9 & E)].
  { right. unfold image_of_bytes. rewrite E. simpl. eauto. }
  destruct (header_w_h _ _ _ _ Ht) as (Hw & Hh & Htr).
  destruct (Z_le_gt_dec (w * h) 0) as [H0|H0].
  { right. eapply image_of_bytes_size; [exact Ht|]. left; nia. }
  destruct (Z_lt_le_dec (w * h) 4294967296) as [H1|H1].
  2:{ right. eapply image_of_bytes_size; [exact Ht|]. now right. }
  assert (Hbp : bytes payload) by (unfold bytes in *; now apply Forall_app in Hb).
  assert (Ht' : t = 49 \/ t = 51 \/ t = 52 \/ t = 54 \/ t = 50 \/ t = 53) by lia.
  destruct Ht' as [->|[->|[->|[->|Ht']]]].
  - destruct (ascii_law 49 w h hdr payload lum) as [(e & H & _)|(_ & _ & H)]; eauto; lia.
  - destruct (ascii_law 51 w h hdr payload lum) as [(e & H & _)|(_ & _ & H)]; eauto; lia.
  - destruct (p4_law w h hdr payload lum) as (HA & HB); auto; try lia.
    + now apply (Hg hdr payload w h).
    + destruct (Z.eq_dec (Z.of_nat (List.length payload)) ((w + 7) / 8 * h)) as [Eq|Ne].
      * destruct (HA H9 Eq) as (img & H & _). eauto.
      * destruct (HB Ne). eauto.
  - destruct (p6_law w h hdr payload lum) as (HA & HB); auto; try lia.
    destruct (Z.eq_dec (Z.of_nat (List.length payload)) (3 * (w * h))) as [Eq|Ne].
    + destruct (HA Eq) as (img & H & _). eauto.
    + destruct (HB Ne). eauto.
  - right. unfold image_of_bytes. rewrite E. cbn [bind h_width h_height h_type h_end].
    rewrite img_size_ok by assumption.
    destruct (Z.eqb_spec (w * h) 0); [lia|].
    rewrite u32_small by lia. rewrite Z.eqb_refl. cbn [negb].
    replace (t =? 54) with false by lia. replace (t =? 52) with false by lia.
    replace ((t =? 51) || (t =? 49)) with false by lia. eauto.
Qed.

Lemma decode_p4_ub buf cap w h p :
  0 < w -> 0 < h -> Z.of_nat (List.length buf) <= p -> decode_p4 buf cap w h p = UB.
Proof.
  intros Hw Hh Hp. unfold decode_p4.
  destruct (Z.to_nat h) as [|n] eqn:En; [lia|]. cbn [for_up].
  unfold decode_p4_row. destruct (Z.to_nat w) as [|k] eqn:Ek; [lia|]. cbn [for_up].
  change (Z.rem 0 8 =? 0) with true. cbv iota. rewrite rd_UB by lia. reflexivity.
Qed.

Lemma p4_overflow_ub lum :
  image_of_bytes (str "P4" ++ [10] ++ str "4294967295 1" ++ [10]) lum = UB.
Proof.
  set (buf := str "P4" ++ [10] ++ str "4294967295 1" ++ [10]).
  assert (E : parse_header buf = Ok (Some (mkhdr 52 4294967295 1 0 16))) by (vm_compute; reflexivity).
  assert (HL : Z.of_nat (List.length buf) = 16) by (vm_compute; reflexivity).
  unfold image_of_bytes. rewrite E, HL. cbn [bind h_width h_height h_type h_end].
  change (u64 (4294967295 * 1)) with 4294967295. change (u32 4294967295) with 4294967295.
  change (u32 (u32 (4294967295 + 7) / 8 * 1)) with 0.
  change (4294967295 =? 0) with false. change (4294967295 =? 4294967295) with true.
  change (52 =? 54) with false. change (52 =? 52) with true. change (16 - 16 =? 0) with true.
  cbn [negb]. now rewrite (decode_p4_ub buf _ 4294967295 1 16) by lia.
Qed.

(** ** read_all *)
Lemma read_all_ok f size chunks :
  0 <= size -> Forall (fun c => 0 <= c) chunks ->
  read_all f size chunks = Ok (firstn (Z.to_nat size) f).
Proof.
  intros Hs Hc. unfold read_all.
  assert (G : forall fuel (rest chunks : list Z) remaining (buf : list Z),
    (List.length rest < fuel)%nat -> Forall (fun c => 0 <= c) chunks -> 0 <= remaining ->
    Z.of_nat (List.length buf) + remaining = size ->
    loop fuel (fun '(rest, chunks, remaining, buf) =>
       let avail := Z.min remaining (Z.of_nat (List.length rest)) in
       let want := match chunks with c :: _ => c | [] => avail end in
       if want <? 0 then Throw ExIo
       else
         let n := Z.min avail (Z.max 1 want) in
         if n =? 0 then Ok (inr buf)
         else
           buf' <- (if Z.of_nat (List.length buf) + n <=? size
                    then Ok (buf ++ firstn (Z.to_nat n) rest) else UB) ;;
           Ok (inl (skipn (Z.to_nat n) rest, tl chunks, remaining - n, buf')))
      (rest, chunks, remaining, buf) = Ok (buf ++ firstn (Z.to_nat remaining) rest)).
  { induction fuel as [|fuel IH]; intros rest cs rem buf Hf Hcs Hr Hb; [lia|].
    cbn [loop]. cbv zeta.
    set (avail := Z.min rem (Z.of_nat (List.length rest))).
    set (want := match cs with c :: _ => c | [] => avail end).
    assert (Hw : 0 <= want).
    { unfold want. destruct cs as [|c cs']; [unfold avail; lia|]. now inversion Hcs. }
    destruct (Z.ltb_spec want 0); [lia|].
    set (n := Z.min avail (Z.max 1 want)).
    destruct (Z.eqb_spec n 0) as [H0|H0].
    - assert (avail = 0) by lia. unfold avail in *.
      assert (E : firstn (Z.to_nat rem) rest = []).
      { destruct (Z.eq_dec rem 0) as [->|]; [reflexivity|].
        destruct rest as [|a rest']; [now rewrite firstn_nil|]. simpl in *. lia. }
      now rewrite E, app_nil_r.
    - assert (Hn : 1 <= n <= rem /\ n <= Z.of_nat (List.length rest)) by (unfold n, avail in *; lia).
      destruct (Z.leb_spec (Z.of_nat (List.length buf) + n) size); [|lia]. cbn [bind].
      rewrite IH.
      + rewrite <- app_assoc. f_equal. f_equal.
        replace (Z.to_nat rem) with (Z.to_nat n + Z.to_nat (rem - n))%nat by lia.
        rewrite <- (firstn_skipn (Z.to_nat n) rest) at 3.
        rewrite firstn_app. rewrite (firstn_length_le rest) by lia.
        rewrite (firstn_all2 (firstn _ rest)) by (rewrite firstn_length; lia).
        do 2 f_equal. lia.
      + rewrite skipn_length. lia.
      + destruct cs; [constructor|]. now inversion Hcs.
      + lia.
      + rewrite app_length, firstn_length. lia. }
  rewrite G; auto; try lia.
Qed.
