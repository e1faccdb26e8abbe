(** Glyph files: the reader inverts the writer. *)
From Verif Require Import Base BaseProofs ImageModel ImageSpec StreamModel StreamProofs GlyphIoModel GlyphIoSpec.

Notation good l := (mkis l false false true).

Lemma plain_no_space w : plain_text w -> w <> [] /\ Forall (fun c => is_space c = false) w.
Proof.
  intros [NE H]. split; [exact NE|]. apply Forall_forall. intros c Hc. specialize (H c Hc).
  unfold is_space. rewrite orb_false_iff, andb_false_iff, Z.eqb_neq, !Z.leb_gt. lia.
Qed.

Lemma spaces_1 c : is_space c = true -> spaces [c].
Proof. intros H. constructor; [exact H|constructor]. Qed.

Lemma get_unsigned_print old p n r :
  spaces p -> 0 <= n < 4294967296 -> stops is_digit r -> null r = false ->
  get_unsigned old (good (p ++ print_uint n ++ r)) = (n, good r).
Proof.
  intros S Hn Hc Nr. unfold get_unsigned.
  rewrite get_uint_print; [rewrite Nr; reflexivity|assumption|discriminate|assumption|lia|exact Hc].
Qed.

Lemma get_word_text old p w r :
  spaces p -> plain_text w -> (match r with c :: _ => is_space c = true | [] => False end) ->
  get_word old (good (p ++ w ++ r)) = (w, good r).
Proof.
  intros S Hw Hr. apply plain_no_space in Hw as [Nw Hw].
  rewrite get_word_written; [|assumption..|destruct r; [exact I|exact Hr]].
  destruct r; [destruct Hr|]. reflexivity.
Qed.

Lemma read_view_written old p v c r :
  storable_view v -> spaces p -> is_space c = true ->
  read_view old (good (p ++ write_view v ++ c :: r)) = (v, good (c :: r)).
Proof.
  intros (Hw & Hf & Hl) S Hc. destruct v as [w f l]. cbn [vw_word vw_font vw_line] in *.
  assert (Dc : is_digit c = false).
  { destruct (is_digit c) eqn:E; [|reflexivity]. apply digit_not_space in E. congruence. }
  unfold read_view, write_view. cbn [vw_word vw_font vw_line]. rewrite <- !app_assoc.
  rewrite get_word_text by (assumption || reflexivity).
  rewrite get_word_text by (assumption || reflexivity || (apply spaces_1; reflexivity)).
  rewrite get_unsigned_print by (assumption || reflexivity || (apply spaces_1; reflexivity)).
  reflexivity.
Qed.

(** The same text, with the new line before each view. *)
Lemma views_text vs r :
  [10] ++ flat_map (fun v => write_view v ++ [10]) vs ++ r =
  flat_map (fun v => [10] ++ write_view v) vs ++ [10] ++ r.
Proof.
  induction vs as [|v vs IH]; [reflexivity|]. cbn [flat_map]. rewrite <- !app_assoc.
  rewrite <- IH. rewrite !app_assoc. reflexivity.
Qed.

Lemma write_view_nonempty v : (1 <= List.length (write_view v))%nat.
Proof. unfold write_view. rewrite !app_length. cbn [List.length]. lia. Qed.

Lemma views_length vs r : (List.length vs <= List.length (flat_map (fun v => [10%Z] ++ write_view v) vs ++ r))%nat.
Proof.
  induction vs as [|v vs IH]; cbn [List.length flat_map]; [lia|].
  rewrite <- !app_assoc, !app_length. rewrite app_length in IH. cbn [List.length]. lia.
Qed.

Lemma read_views_written old vs p r :
  Z.of_nat (List.length vs) < 4294967296 -> Forall storable_view vs -> spaces p ->
  read_views old (good (p ++ write_views vs ++ r)) = Ok (vs, good (10 :: r)).
Proof.
  intros Hn Hvs S. unfold read_views, write_views. rewrite <- !app_assoc.
  rewrite get_unsigned_print by (assumption || lia || reflexivity).
  cbn [is_ok is_fail negb]. rewrite views_text. cbn [is_rest].
  match goal with |- loop ?n ?b _ = _ => set (body := b); set (fuel := n) end.
  assert (Hfuel : (List.length vs < fuel)%nat).
  { pose proof (views_length vs ([10] ++ r)). unfold fuel. lia. }
  clearbody fuel.
  assert (G : forall rest done fuel, vs = done ++ rest -> (List.length rest < fuel)%nat ->
    loop fuel body (Z.of_nat (List.length done), done,
      good (flat_map (fun v => [10] ++ write_view v) rest ++ [10] ++ r)) = Ok (vs, good (10 :: r))).
  { clear fuel Hfuel. induction rest as [|v rest IH]; intros done fuel E Hf;
      (destruct fuel as [|fuel]; [lia|]); cbn [loop]; unfold body at 1.
    - rewrite app_nil_r in E. subst done. rewrite Z.ltb_irrefl. reflexivity.
    - replace (Z.of_nat (List.length done) <? Z.of_nat (List.length vs)) with true
        by (symmetry; rewrite Z.ltb_lt, E, app_length; cbn [List.length]; lia).
      cbn [flat_map]. rewrite <- !app_assoc.
      assert (X : exists c l, flat_map (fun v => [10] ++ write_view v) rest ++ [10] ++ r = c :: l /\ is_space c = true).
      { destruct rest; cbn; eauto. }
      destruct X as (c & l & EX & Hc). rewrite EX.
      assert (Hv : storable_view v) by (rewrite Forall_forall in Hvs; apply Hvs; rewrite E; apply in_or_app; right; left; reflexivity).
      rewrite (read_view_written _ [10]) by (assumption || (apply spaces_1; reflexivity)).
      cbn [is_ok is_fail negb bind]. rewrite <- EX.
      specialize (IH (done ++ [v]) fuel). rewrite app_length in IH. cbn [List.length] in IH.
      rewrite Nat2Z.inj_add in IH. apply IH; [rewrite <- app_assoc; exact E|cbn [List.length] in Hf; lia]. }
  exact (G vs [] fuel eq_refl Hfuel).
Qed.

Lemma read_img_written old img p r :
  wf_image img -> spaces p ->
  read_img old (good (p ++ write_img img ++ r)) = (img, good r).
Proof.
  intros (Hw & Hh & Ha & Hl) S. unfold read_img, write_img, read_bounds. rewrite <- !app_assoc.
  rewrite get_unsigned_print by (assumption || lia || reflexivity).
  rewrite get_unsigned_print by (lia || reflexivity || (apply spaces_1; reflexivity)).
  cbn [is_ok is_fail negb]. unfold skip_char, set_rest. cbn [app is_rest is_eof is_fail is_skipws].
  rewrite read_bytes_written; [destruct img; reflexivity|].
  rewrite Hl. symmetry. apply u32_small. split; [apply Z.mul_nonneg_nonneg; lia|lia].
Qed.

Lemma read_glyph_written old g p r :
  storable g -> spaces p ->
  read_glyph old (good (p ++ write_glyph g ++ r)) = Ok (g, good (10 :: r)).
Proof.
  intros (Hi & Hn & Hvs) S. unfold read_glyph, write_glyph. rewrite <- !app_assoc.
  rewrite read_img_written by assumption. cbn [is_ok is_fail negb].
  rewrite read_views_written by (assumption || (apply spaces_1; reflexivity)).
  cbn [bind]. destruct g; reflexivity.
Qed.

Lemma read_glyph_end old p :
  spaces p -> exists s, read_glyph old (good p) = Ok (old, s) /\ is_eof s = true /\ is_fail s = true.
Proof.
  intros S. unfold read_glyph, read_img, read_bounds, get_unsigned, get_uint.
  unfold sentry at 1. cbn [is_eof is_fail is_rest is_skipws orb negb andb].
  rewrite <- (app_nil_r p), drop_spaces_app by (assumption || exact I). cbn [null].
  rewrite sentry_bad by reflexivity. cbn. eexists. split; [destruct old; reflexivity|]. split; reflexivity.
Qed.

Lemma glyphs_length gs : (List.length gs <= List.length (write_glyphs gs))%nat.
Proof.
  induction gs as [|g gs IH]; [cbn; lia|]. unfold write_glyphs in *. cbn [flat_map List.length].
  rewrite app_length. unfold write_glyph at 1. rewrite !app_length. cbn [List.length]. lia.
Qed.

Lemma read_glyphs_written gs : Forall storable gs ->
  exists s, read_glyphs (open_stream (write_glyphs gs)) = Ok (gs, s) /\ is_eof s = true.
Proof.
  intros Hgs. unfold read_glyphs, open_stream. cbn [is_rest].
  match goal with |- exists s, loop ?n ?b _ = _ /\ _ => set (body := b); set (fuel := n) end.
  assert (Hfuel : (List.length gs < fuel)%nat) by (pose proof (glyphs_length gs); unfold fuel; lia).
  clearbody fuel.
  assert (G : forall rest done fuel old p, gs = done ++ rest -> spaces p -> (List.length rest < fuel)%nat ->
    exists s, loop fuel body (old, done, good (p ++ write_glyphs rest)) = Ok (gs, s) /\ is_eof s = true).
  { clear fuel Hfuel. induction rest as [|g rest IH]; intros done fuel old p E S Hf;
      (destruct fuel as [|fuel]; [lia|]); cbn [loop]; unfold body at 1.
    - cbn [write_glyphs flat_map]. rewrite app_nil_r.
      destruct (read_glyph_end (mkglyph (mkimage 0 0 []) old) p S) as (s & -> & He & Hs).
      cbn [bind]. unfold is_ok. rewrite Hs. cbn [negb]. exists s.
      rewrite app_nil_r in E. subst done. split; [reflexivity|exact He].
    - unfold write_glyphs. cbn [flat_map]. fold (write_glyphs rest).
      assert (Hg : storable g) by (rewrite Forall_forall in Hgs; apply Hgs; rewrite E; apply in_or_app; right; left; reflexivity).
      rewrite read_glyph_written by assumption. cbn [bind is_ok is_fail negb].
      apply (IH (done ++ [g]) fuel _ [10]); [rewrite <- app_assoc; exact E|apply spaces_1; reflexivity|cbn [List.length] in Hf; lia]. }
  destruct (G gs [] fuel [] [] eq_refl (Forall_nil _) Hfuel) as (s & E & He). exists s. split; [exact E|exact He].
Qed.

Lemma glyph_file_round_trip gs : Forall storable gs ->
  load_file read_glyphs (write_glyphs gs) = Ok gs.
Proof.
  intros H. destruct (read_glyphs_written gs H) as (s & E & He).
  unfold load_file. rewrite E. cbn [bind]. rewrite He. reflexivity.
Qed.

(** Truncated files. *)
Lemma get_word_cut old p w r q :
  spaces p -> plain_text w -> (match r with c :: _ => is_space c = true | [] => False end) ->
  prefix q (p ++ w ++ r) ->
  (exists q', q = p ++ w ++ q' /\ prefix q' r /\ get_word old (good q) = (w, mkis q' (null q') false true)) \/
  (exists v s, get_word old (good q) = (v, s) /\ dead s).
Proof.
  intros S Hw Hr P. destruct (plain_no_space w Hw) as [Nw Fw].
  destruct (prefix_app q p _ P) as [(q1 & -> & P1)|(c & t & E)].
  - destruct (prefix_app q1 _ _ P1) as [(q2 & -> & P2)|(c & t & E)].
    + left. exists q2. split; [reflexivity|]. split; [exact P2|].
      apply get_word_written; [assumption..|]. destruct P2 as [x ->]. destruct q2; [exact I|exact Hr].
    + right. rewrite E in Fw. apply Forall_app in Fw as [Fw _]. destruct q1 as [|d q1].
      * rewrite app_nil_r. unfold get_word. rewrite sentry_spaces by exact S. do 2 eexists. split; [reflexivity|]. split; reflexivity.
      * pose proof (get_word_written old p (d :: q1) [] S ltac:(discriminate) Fw I) as G.
        rewrite app_nil_r in G. rewrite G. do 2 eexists. split; [reflexivity|]. split; reflexivity.
  - right. pose proof (prefix_spaces q p c t S E) as Sq. unfold get_word. rewrite sentry_spaces by exact Sq.
    do 2 eexists. split; [reflexivity|]. split; reflexivity.
Qed.

Lemma read_view_dead old s : dead s -> exists v s', read_view old s = (v, s') /\ dead s' /\ is_fail s' = true.
Proof.
  intros D. unfold read_view, get_unsigned. rewrite get_word_dead by exact D.
  rewrite get_word_dead by apply dead_fail, D. rewrite get_uint_dead by apply dead_fail, dead_fail, D.
  do 2 eexists. split; [reflexivity|]. split; [apply dead_fail, dead_fail, dead_fail, D|apply set_state_fail].
Qed.

Lemma read_view_cut old p v r q :
  storable_view v -> spaces p -> stops is_digit r -> prefix q (p ++ write_view v ++ r) ->
  (exists q', q = p ++ write_view v ++ q' /\ prefix q' r /\ read_view old (good q) = (v, mkis q' (null q') false true)) \/
  (exists v' s', read_view old (good q) = (v', s') /\ dead s' /\
    (is_fail s' = false -> vw_word v' = vw_word v /\ vw_font v' = vw_font v)).
Proof.
  intros (Hw & Hf & Hl) S Hr P. destruct v as [w f l]. cbn [vw_word vw_font vw_line] in *.
  unfold read_view, write_view in *. cbn [vw_word vw_font vw_line] in *. rewrite <- !app_assoc in P.
  assert (K : forall (w : list Z) s, dead s -> exists v' s', (let '(l0, s2) := get_unsigned (vw_line old) s in (mkview w f l0, s2)) = (v', s') /\ dead s' /\ (is_fail s' = false -> vw_word v' = w /\ vw_font v' = f)).
  { intros w' s D. unfold get_unsigned. rewrite get_uint_dead by exact D. do 2 eexists. split; [reflexivity|].
    split; [apply dead_fail, D|]. rewrite set_state_fail. discriminate. }
  assert (KK : forall (w0 : list Z) s, dead s -> exists v' s', (let '(f0, s1) := get_word (vw_font old) s in let '(l0, s2) := get_unsigned (vw_line old) s1 in (mkview w0 f0 l0, s2)) = (v', s') /\ dead s' /\ (is_fail s' = false -> vw_word v' = w /\ vw_font v' = f)).
  { intros w' s D. rewrite get_word_dead by exact D. unfold get_unsigned. rewrite get_uint_dead by apply dead_fail, D.
    do 2 eexists. split; [reflexivity|]. split; [apply dead_fail, dead_fail, D|]. rewrite set_state_fail. discriminate. }
  destruct (get_word_cut (vw_word old) p w ([32] ++ f ++ [32] ++ print_uint l ++ r) q S Hw eq_refl P) as [(q1 & -> & P1 & ->)|(v & s & -> & D)];
    [|right; apply (KK v s D)].
  destruct (null q1) eqn:N1; [destruct q1; [|discriminate]; right; apply (KK w); split; reflexivity|].
  destruct (get_word_cut (vw_font old) [32] f ([32] ++ print_uint l ++ r) q1 (spaces_1 32 eq_refl) Hf eq_refl P1) as [(q2 & -> & P2 & ->)|(v & s & -> & D)].
  2: { right. unfold get_unsigned. rewrite get_uint_dead by exact D. do 2 eexists. split; [reflexivity|].
       split; [apply dead_fail, D|]. rewrite set_state_fail. discriminate. }
  destruct (null q2) eqn:N2; [destruct q2; [|discriminate]; right; apply (K w); split; reflexivity|].
  destruct (get_uint_cut 4294967296 (vw_line old) [32] l r q2 true (spaces_1 32 eq_refl) (fun H => ltac:(discriminate H)) Hl ltac:(lia) Hr P2)
    as [(q3 & -> & P3 & G)|(v & s & G & D & _)]; fold get_unsigned in G; rewrite G.
  - left. exists q3. split; [rewrite <- !app_assoc; reflexivity|]. split; [exact P3|reflexivity].
  - right. do 2 eexists. split; [reflexivity|]. split; [exact D|]. auto.
Qed.

(** A printed number has no leading zero. *)
Lemma print_digits_head f : forall n d t, 1 <= n < 10 ^ Z.of_nat f -> print_digits f n = d ++ t -> d <> [] -> 1 <= digits_value d.
Proof.
  induction f as [|f IH]; intros n d t Hn E Nd; [cbn in Hn; lia|]. cbn [print_digits] in E.
  destruct (Z.ltb_spec n 10).
  - destruct d as [|c d]; [congruence|]. cbn [app] in E. injection E as <- E. symmetry in E. apply app_eq_nil in E as [-> ->].
    change (1 <= 0 * 10 + (48 + n - 48)). lia.
  - assert (Hn' : 1 <= n / 10 < 10 ^ Z.of_nat f).
    { rewrite Nat2Z.inj_succ, Z.pow_succ_r in Hn by lia.
      split; [apply Z.div_le_lower_bound; lia|apply Z.div_lt_upper_bound; lia]. }
    destruct (prefix_app d (print_digits f (n / 10)) [48 + n mod 10]) as [(q & -> & P)|(c & r & E2)]; [exists t; exact E| |].
    + destruct (prefix_cons _ _ _ P) as [->|(q' & -> & P')].
      * rewrite app_nil_r. apply (IH (n / 10) _ [] Hn'); [rewrite app_nil_r; reflexivity|]. rewrite app_nil_r in Nd. exact Nd.
      * apply prefix_nil in P'. subst q'. rewrite digits_value_app.
        pose proof (print_digits_value f (n / 10) ltac:(lia)). pose proof (Z.mod_pos_bound n 10 ltac:(lia)). lia.
    + apply (IH (n / 10) d (c :: r) Hn' E2 Nd).
Qed.
Lemma print_uint_head n d c t : 0 <= n < 18446744073709551616 -> print_uint n = d ++ c :: t -> d <> [] -> 1 <= digits_value d.
Proof.
  intros Hn E Nd. destruct (Z.eq_dec n 0) as [->|Nz].
  - change (print_uint 0) with [48] in E. destruct d as [|x [|y d]]; [congruence|discriminate|discriminate].
  - refine (print_digits_head 20 n d (c :: t) _ E Nd). change (10 ^ Z.of_nat 20) with 100000000000000000000. lia.
Qed.

Lemma split_at_short n l : Z.of_nat (List.length l) < n -> split_at n l = (l, []).
Proof.
  revert n. induction l as [|c l IH]; intros n H; [reflexivity|]. cbn [List.length] in H. cbn [split_at].
  destruct (Z.leb_spec n 0); [lia|]. rewrite IH by lia. reflexivity.
Qed.

Definition labels (vs : list view) := map (fun v => (vw_word v, vw_font v)) vs.

(** The views of a glyph whose text is cut before its last new line. *)
Lemma read_views_cut old vs q :
  Z.of_nat (List.length vs) < 4294967296 -> Forall storable_view vs ->
  prefix q ([10] ++ print_uint (Z.of_nat (List.length vs)) ++ flat_map (fun v => [10] ++ write_view v) vs) ->
  exists vs' s, read_views old (good q) = Ok (vs', s) /\ is_eof s = true /\ (is_fail s = false -> labels vs' = labels vs).
Proof.
  intros Hn Hvs P. unfold read_views.
  assert (Hn0 : 0 <= Z.of_nat (List.length vs) < 4294967296) by lia.
  assert (Hr : stops is_digit (flat_map (fun v => [10] ++ write_view v) vs)) by (destruct vs; [exact I|reflexivity]).
  (* a dead stream at the start of a view *)
  assert (K : forall n i done s fuel, i < n -> dead s -> (0 < fuel)%nat ->
    exists vs' s', loop fuel (fun st : Z * list view * istream =>
        let '(i, vs, s) := st in
        if i <? n then
          let '(v, s') := read_view (nth (Z.to_nat i) old (mkview [] [] 0)) s in
          if is_ok s' then Ok (inl (i + 1, vs ++ [v], s')) else Ok (inr (vs, s'))
        else Ok (inr (vs, s))) (i, done, s) = Ok (vs', s') /\ is_eof s' = true /\ is_fail s' = true).
  { intros n i done s fuel Hi D Hf. destruct fuel as [|fuel]; [lia|]. cbn [loop].
    destruct (Z.ltb_spec i n); [|lia]. destruct (read_view_dead (nth (Z.to_nat i) old (mkview [] [] 0)) s D) as (v & s' & -> & [D' _] & F').
    unfold is_ok. rewrite F'. cbn [negb bind]. eauto. }
  destruct (get_uint_cut 4294967296 0 [10] (Z.of_nat (List.length vs)) _ q true (spaces_1 10 eq_refl) (fun H => ltac:(discriminate H)) Hn0 ltac:(lia) Hr P)
    as [(q1 & -> & P1 & G)|(v & s & G & D & Hd)]; fold get_unsigned in G; rewrite G; clear G.
  - cbn [is_ok is_fail negb]. cbn [is_rest].
    match goal with |- exists a b, loop ?n ?b0 _ = _ /\ _ => set (body := b0); set (fuel := n) end.
    assert (Hfuel : (List.length q1 + 1 < fuel)%nat) by (unfold fuel; lia). clearbody fuel.
    assert (L : forall rest done q fuel, vs = done ++ rest -> prefix q (flat_map (fun v => [10] ++ write_view v) rest) ->
      (List.length q + 1 < fuel)%nat ->
      exists vs' s, loop fuel body (Z.of_nat (List.length done), done, mkis q (null q) false true) = Ok (vs', s) /\
        (is_eof s = true) /\ (is_fail s = false -> labels vs' = labels vs)).
    { clear fuel Hfuel P P1 q1. induction rest as [|v rest IH]; intros done q fuel E P Hf.
      - destruct fuel as [|fuel]; [lia|]. cbn [loop]. unfold body at 1. rewrite app_nil_r in E. subst done.
        rewrite Z.ltb_irrefl. cbn in P. apply prefix_nil in P. subst q. cbn [bind null].
        do 2 eexists. split; [reflexivity|]. split; [reflexivity|]. auto.
      - assert (Hlt : Z.of_nat (List.length done) < Z.of_nat (List.length vs)) by (rewrite E, app_length; cbn [List.length]; lia).
        destruct (null q) eqn:Nq.
        + destruct (K (Z.of_nat (List.length vs)) (Z.of_nat (List.length done)) done (mkis q true false true) fuel Hlt) as (vs' & s' & EL & He & F);
            [destruct q; [split; reflexivity|discriminate]|lia|].
          exists vs', s'. split; [exact EL|]. split; [exact He|]. congruence.
        + destruct fuel as [|fuel]; [lia|]. cbn [loop]. unfold body at 1.
          destruct (Z.ltb_spec (Z.of_nat (List.length done)) (Z.of_nat (List.length vs))); [|lia].
          cbn [flat_map] in P. rewrite <- app_assoc in P.
          assert (Hv : storable_view v) by (rewrite Forall_forall in Hvs; apply Hvs; rewrite E; apply in_or_app; right; left; reflexivity).
          assert (Hr' : stops is_digit (flat_map (fun v => [10] ++ write_view v) rest)) by (destruct rest; [exact I|reflexivity]).
          destruct (read_view_cut (nth (Z.to_nat (Z.of_nat (List.length done))) old (mkview [] [] 0)) [10] v _ q Hv (spaces_1 10 eq_refl) Hr' P)
            as [(q' & -> & P' & ->)|(v' & s' & -> & D & Hs)].
          * cbn [is_ok is_fail negb bind].
            specialize (IH (done ++ [v]) q' fuel). rewrite app_length, Nat2Z.inj_add in IH. cbn [List.length] in IH.
            apply IH; [rewrite <- app_assoc; exact E|exact P'|].
            rewrite app_length in Hf. cbn [List.length] in Hf. rewrite app_length in Hf. lia.
          * destruct (is_fail s') eqn:Fs; unfold is_ok; rewrite Fs; cbn [negb bind].
            -- do 2 eexists. split; [reflexivity|]. split; [exact (proj1 D)|]. congruence.
            -- destruct rest as [|v2 rest].
               ++ destruct fuel as [|fuel]; [lia|]. cbn [loop]. unfold body at 1.
                  replace (Z.of_nat (List.length done) + 1 <? Z.of_nat (List.length vs)) with false
                    by (symmetry; rewrite Z.ltb_ge, E, app_length; cbn [List.length]; lia).
                  cbn [bind]. do 2 eexists. split; [reflexivity|]. split; [exact (proj1 D)|]. intros _.
                  rewrite E. unfold labels. rewrite !map_app. cbn [map]. destruct (Hs eq_refl) as [-> ->]. reflexivity.
               ++ destruct (K (Z.of_nat (List.length vs)) (Z.of_nat (List.length done) + 1) (done ++ [v']) s' fuel) as (vs' & s2 & EL & He & F);
                    [rewrite E, app_length; cbn [List.length]; lia|exact D|lia|].
                  exists vs', s2. split; [exact EL|]. split; [exact He|]. congruence. }
    exact (L vs [] q1 fuel eq_refl P1 Hfuel).
  - unfold is_ok. destruct (is_fail s) eqn:F; cbn [negb].
    + do 2 eexists. split; [reflexivity|]. split; [exact (proj1 D)|]. congruence.
    + destruct (proj2 Hd eq_refl) as (d & c & t & _ & Nd & Ed & ->).
      pose proof (print_uint_head (Z.of_nat (List.length vs)) d c t ltac:(lia) Ed Nd) as Hv.
      match goal with |- exists a b, loop ?n _ _ = _ /\ _ =>
        destruct (K (digits_value d) 0 [] s n ltac:(lia) D ltac:(lia)) as (vs' & s2 & EL & He & F2) end.
      exists vs', s2. split; [exact EL|]. split; [exact He|]. congruence.
Qed.

Lemma read_glyph_cut old g p q : storable g -> spaces p -> strict_prefix q (write_glyph g) ->
  exists g' s, read_glyph old (good (p ++ q)) = Ok (g', s) /\ is_eof s = true /\ (is_fail s = false -> same_labels g' g).
Proof.
  intros ((Hw & Hh & Ha & Hl) & Hn & Hvs) S (c & t & E).
  (* the text without its last new line *)
  assert (P : prefix (p ++ q) (p ++ print_uint (iw (gl_img g)) ++ [32] ++ print_uint (ih (gl_img g)) ++ [32] ++ idata (gl_img g) ++
    [10] ++ print_uint (Z.of_nat (List.length (gl_views g))) ++ flat_map (fun v => [10] ++ write_view v) (gl_views g))).
  { unfold write_glyph, write_img, write_views in E. rewrite <- !app_assoc in E.
    rewrite <- (app_nil_r (flat_map _ (gl_views g))) in E. rewrite views_text in E. cbn [app] in E.
    destruct (exists_last (l := c :: t) ltac:(discriminate)) as (u & x & Eu). rewrite Eu in E.
    exists u. rewrite <- app_assoc. f_equal.
    match type of E with ?A ++ 32 :: ?B ++ 32 :: ?C ++ 10 :: ?D ++ ?F ++ [10] = _ =>
      replace (A ++ 32 :: B ++ 32 :: C ++ 10 :: D ++ F ++ [10]) with ((A ++ [32] ++ B ++ [32] ++ C ++ [10] ++ D ++ F) ++ [10]) in E
        by (rewrite <- !app_assoc; reflexivity) end.
    rewrite (app_assoc q u) in E. apply app_inj_tail in E as [E _]. exact E. }
  set (img := gl_img g) in *. set (vs := gl_views g) in *.
  unfold read_glyph, read_img, read_bounds.
  assert (K0 : forall img' s, dead s -> is_fail s = true -> exists g' s', (if is_ok s then '(vs, s) <- read_views (gl_views old) s ;; Ok (mkglyph img' vs, s)
      else Ok (mkglyph img' (gl_views old), s)) = Ok (g', s') /\ is_eof s' = true /\ (is_fail s' = false -> same_labels g' g)).
  { intros img' s D F. unfold is_ok. rewrite F. cbn [negb]. do 2 eexists. split; [reflexivity|]. split; [exact (proj1 D)|]. congruence. }
  assert (K1 : forall s, dead s -> exists s', get_unsigned 0 s = (0, s') /\ dead s' /\ is_fail s' = true).
  { intros s D. unfold get_unsigned. rewrite get_uint_dead by exact D. eexists. split; [reflexivity|].
    split; [apply dead_fail, D|apply set_state_fail]. }
  assert (Hdig : forall r, stops is_digit (32 :: r)) by reflexivity.
  destruct (get_uint_cut 4294967296 0 p (iw img) _ (p ++ q) true S (fun H => ltac:(discriminate H)) Hw ltac:(lia) (Hdig _) P)
    as [(q1 & Eq1 & P1 & G)|(v & s & G & D & _)]; fold get_unsigned in G; rewrite G; clear G.
  2: { destruct (K1 s D) as (s' & -> & D' & F'). unfold is_ok at 1. rewrite F'. cbn [negb]. apply K0; assumption. }
  destruct (null q1) eqn:N1.
  { destruct q1; [|discriminate]. destruct (K1 (mkis [] true false true)) as (s' & -> & D' & F'); [split; reflexivity|].
    unfold is_ok at 1. rewrite F'. cbn [negb]. apply K0; assumption. }
  assert (K2 : forall w h s, dead s -> exists g' s', (let '(img0, s0) :=
      match (if is_ok s then Some (w, h) else None) with
      | Some (w, h) => let '(p, s) := read_bytes (u32 (w * h)) (skip_char s) in (mkimage w h p, s)
      | None => (gl_img old, s) end in
      if is_ok s0 then '(vs, s) <- read_views (gl_views old) s0 ;; Ok (mkglyph img0 vs, s)
      else Ok (mkglyph img0 (gl_views old), s0)) = Ok (g', s') /\ is_eof s' = true /\ (is_fail s' = false -> same_labels g' g)).
  { intros w h s D. destruct (is_ok s) eqn:Os.
    - rewrite skip_char_dead by exact D. rewrite read_bytes_dead by exact D.
      apply K0; [apply dead_fail, D|apply set_state_fail].
    - apply K0; [exact D|]. unfold is_ok in Os. destruct (is_fail s); [reflexivity|discriminate]. }
  destruct (get_uint_cut 4294967296 0 [32] (ih img) _ q1 true (spaces_1 32 eq_refl) (fun H => ltac:(discriminate H)) Hh ltac:(lia) (Hdig _) P1)
    as [(q2 & Eq2 & P2 & G)|(v & s & G & D & _)]; fold get_unsigned in G; rewrite G; clear G.
  2: { apply (K2 (iw img) v s D). }
  destruct (prefix_cons _ _ _ P2) as [->|(q3 & -> & P3)].
  { cbn [null]. apply K2. split; reflexivity. }
  cbn [null is_ok is_fail negb]. unfold skip_char, set_rest. cbn [is_rest is_eof is_fail is_skipws].
  assert (Ea : u32 (iw img * ih img) = Z.of_nat (List.length (idata img))).
  { rewrite Hl. apply u32_small. split; [apply Z.mul_nonneg_nonneg; lia|lia]. }
  destruct (prefix_app _ _ _ P3) as [(q4 & -> & P4)|(c' & t' & E')].
  - rewrite read_bytes_written by (symmetry; exact Ea). cbn [is_ok is_fail negb].
    destruct (read_views_cut (gl_views old) vs q4 Hn Hvs P4) as (vs' & s & -> & He & Hv).
    cbn [bind]. do 2 eexists. split; [reflexivity|]. split; [exact He|]. intros F. split.
    + cbn [gl_img]. unfold img. destruct (gl_img g); reflexivity.
    + cbn [gl_views]. apply Hv, F.
  - unfold read_bytes, sentry. cbn [is_eof is_fail is_rest is_skipws orb negb andb].
    assert (Hq : Z.of_nat (List.length q3) < u32 (iw img * ih img)).
    { rewrite Ea, E', app_length. cbn [List.length]. lia. }
    rewrite split_at_short by exact Hq. destruct (Z.ltb_spec (Z.of_nat (List.length q3)) (u32 (iw img * ih img))); [|lia].
    apply K0; [split; reflexivity|reflexivity].
Qed.

Lemma glyph_file_prefix gs q : Forall storable gs -> prefix q (write_glyphs gs) ->
  exists a b q1 gs', gs = a ++ b /\ q = write_glyphs a ++ q1 /\ load_file read_glyphs q = Ok gs' /\
    match b with
    | [] => q1 = [] /\ gs' = a
    | g :: _ => strict_prefix q1 (write_glyph g) /\
        (gs' = a \/ exists g', gs' = a ++ [g'] /\ same_labels g' g)
    end.
Proof.
  intros Hgs P. unfold load_file, read_glyphs, open_stream. cbn [is_rest].
  match goal with |- context [loop ?n ?b _] => set (body := b); set (fuel := n) end.
  assert (Hfuel : (List.length q + 1 < fuel)%nat) by (unfold fuel; lia). clearbody fuel.
  assert (G : forall rest done fuel old p q, gs = done ++ rest -> spaces p -> prefix q (write_glyphs rest) -> (List.length q + 1 < fuel)%nat ->
    exists a b q1 gs' s, rest = a ++ b /\ q = write_glyphs a ++ q1 /\
      loop fuel body (old, done, good (p ++ q)) = Ok (done ++ gs', s) /\ is_eof s = true /\
      match b with
      | [] => q1 = [] /\ gs' = a
      | g :: _ => strict_prefix q1 (write_glyph g) /\ (gs' = a \/ exists g', gs' = a ++ [g'] /\ same_labels g' g)
      end).
  { clear q P fuel Hfuel. induction rest as [|g rest IH]; intros done fuel old p q E S P Hf;
      (destruct fuel as [|fuel]; [lia|]); cbn [loop]; unfold body at 1.
    - cbn in P. apply prefix_nil in P. subst q. rewrite app_nil_r.
      destruct (read_glyph_end (mkglyph (mkimage 0 0 []) old) p S) as (s & -> & He & Hs).
      cbn [bind]. unfold is_ok. rewrite Hs. cbn [negb]. exists [], [], [], [], s.
      split; [reflexivity|]. split; [reflexivity|]. split; [rewrite app_nil_r; reflexivity|]. split; [exact He|]. auto.
    - assert (Hg : storable g) by (rewrite Forall_forall in Hgs; apply Hgs; rewrite E; apply in_or_app; right; left; reflexivity).
      unfold write_glyphs in P. cbn [flat_map] in P. fold (write_glyphs rest) in P.
      destruct (prefix_app _ _ _ P) as [(q' & -> & P')|(c & t & Ec)].
      + rewrite read_glyph_written by assumption. cbn [bind is_ok is_fail negb].
        destruct (IH (done ++ [g]) fuel (gl_views g) [10] q') as (a & b & q1 & gs' & s & -> & -> & EL & He & Hb);
          [rewrite <- app_assoc; exact E|apply spaces_1; reflexivity|exact P'| |].
        { rewrite app_length in Hf. assert (1 <= List.length (write_glyph g))%nat; [|lia].
          unfold write_glyph. rewrite !app_length. cbn [List.length]. lia. }
        exists (g :: a), b, q1, (g :: gs'), s. split; [reflexivity|].
        split; [unfold write_glyphs; cbn [flat_map]; rewrite <- app_assoc; reflexivity|].
        split; [cbn [app] in EL; rewrite EL, <- app_assoc; reflexivity|]. split; [exact He|].
        destruct b as [|g2 b]; [destruct Hb as [-> ->]; auto|]. destruct Hb as [Hp Hb]. split; [exact Hp|].
        destruct Hb as [-> |(g' & -> & Hs)]; [left; reflexivity|right; exists g'; auto].
      + destruct (read_glyph_cut (mkglyph (mkimage 0 0 []) old) g p q Hg S (ex_intro _ c (ex_intro _ t Ec))) as (g' & s & -> & He & Hs).
        cbn [bind]. unfold is_ok. destruct (is_fail s) eqn:F; cbn [negb].
        * exists [], (g :: rest), q, [], s. rewrite app_nil_r.
          split; [reflexivity|]. split; [reflexivity|]. split; [reflexivity|]. split; [exact He|].
          split; [exists c, t; exact Ec|]. left. reflexivity.
        * exists [], (g :: rest), q, [g'].
          destruct fuel as [|fuel]; [lia|]. cbn [loop]. unfold body at 1.
          assert (R : exists g2, read_glyph (mkglyph (mkimage 0 0 []) (gl_views g')) s = Ok (g2, set_state false true (set_state false true s))).
          { unfold read_glyph, read_img, read_bounds, get_unsigned, get_uint.
            rewrite (sentry_bad false s) by (rewrite He; reflexivity).
            rewrite sentry_bad by (rewrite set_state_fail; apply orb_true_r).
            unfold is_ok. rewrite set_state_fail. cbn [negb]. rewrite set_state_fail. cbn [negb]. eauto. }
          destruct R as (g2 & ->). cbn [bind]. unfold is_ok. rewrite set_state_fail. cbn [negb].
          eexists. split; [reflexivity|]. split; [reflexivity|]. split; [reflexivity|].
          split; [unfold set_state; cbn; rewrite He; reflexivity|].
          split; [exists c, t; exact Ec|]. right. exists g'. split; [reflexivity|]. apply Hs. reflexivity. }
  destruct (G gs [] fuel [] [] q eq_refl (Forall_nil _) P Hfuel) as (a & b & q1 & gs' & s & -> & -> & EL & He & Hb).
  cbn [app] in EL. exists a, b, q1, gs'. split; [reflexivity|]. split; [reflexivity|]. split; [|exact Hb].
  rewrite EL. cbn [bind]. rewrite He. reflexivity.
Qed.
