(** Zones of a balance, enumerations in streams. *)
From Verif Require Import Base BaseProofs ImageModel StratModel StreamModel StreamProofs GlyphIoModel GlyphIoProofs MiscModel MiscSpec.

Lemma horizontal_zone_ok img t b : 0 <= t < 4294967296 -> 0 <= b < 4294967296 -> 0 <= ih img ->
  horizontal_zone img (mktb t b) = zone_of (ih img) t b.
Proof.
  intros Ht Hb Hh. unfold horizontal_zone, zone_of. cbn [tb_top tb_bottom].
  assert (B : forall d, 0 <= box_zone img d <= 2) by (intros d; unfold box_zone; destruct (ih img / 4 <? d); [destruct (ih img <? d)|]; lia).
  assert (Z1 : forall d, box_zone img d = if d <=? ih img / 4 then 0 else if d <=? ih img then 1 else 2).
  { intros d. unfold box_zone. destruct (Z.ltb_spec (ih img / 4) d), (Z.leb_spec d (ih img / 4)), (Z.ltb_spec (ih img) d), (Z.leb_spec d (ih img)); lia. }
  destruct (Z.ltb_spec b t) as [H|H].
  - rewrite (u32_small (t - b)) by lia. rewrite u32_small by (pose proof (B (t - b)); lia). rewrite Z1, Z.sgn_pos, Z.abs_eq by lia. lia.
  - destruct (Z.ltb_spec t b) as [H'|H'].
    + rewrite (u32_small (b - t)) by lia. rewrite u32_small by (pose proof (B (b - t)); lia). rewrite Z1, Z.sgn_neg, Z.abs_neq by lia.
      replace (- (t - b)) with (b - t) by lia. lia.
    + replace (t - b) with 0 by lia. reflexivity.
Qed.
Lemma zone_of_law h t b : 0 <= h -> 1 <= zone_of h t b <= 5 /\ zone_of h t b + zone_of h b t = 6 /\
  (zone_of h t b = 3 <-> Z.abs (t - b) <= h / 4) /\
  forall t' b', t - b <= t' - b' -> zone_of h t b <= zone_of h t' b'.
Proof.
  intros Hh. pose proof (Z.div_pos h 4 Hh ltac:(lia)). pose proof (Z.div_le_upper_bound h 4 h ltac:(lia) ltac:(lia)).
  assert (E : forall t b, zone_of h t b = if t - b <? - h then 1 else if t - b <? - (h / 4) then 2 else if t - b <=? h / 4 then 3 else if t - b <=? h then 4 else 5).
  { intros x y. unfold zone_of.
    destruct (Z.leb_spec (Z.abs (x - y)) (h / 4)), (Z.leb_spec (Z.abs (x - y)) h), (Z.ltb_spec (x - y) (- h)), (Z.ltb_spec (x - y) (- (h / 4))),
      (Z.leb_spec (x - y) (h / 4)), (Z.leb_spec (x - y) h); try lia; (destruct (Z.sgn_spec (x - y)) as [(A & ->)|[(A & ->)|(A & ->)]]); lia. }
  assert (F : forall t' b', t - b <= t' - b' -> zone_of h t b <= zone_of h t' b').
  { intros t' b' Hd. rewrite !E.
    repeat match goal with |- context [?a <? ?b] => destruct (Z.ltb_spec a b) | |- context [?a <=? ?b] => destruct (Z.leb_spec a b) end; lia. }
  split; [|split; [|split; [|exact F]]]; rewrite !E;
    repeat match goal with |- context [?a <? ?b] => destruct (Z.ltb_spec a b) | |- context [?a <=? ?b] => destruct (Z.leb_spec a b) end; lia.
Qed.

Lemma read_enum_written e blank r : spaces blank -> 0 <= e < 4294967296 -> stops is_digit r ->
  read_enum (open_stream (blank ++ write_enum e ++ r)) = Ok (e, mkis r (null r) false true).
Proof.
  intros Sp He Hr. unfold read_enum, write_enum, open_stream.
  destruct (print_uint_cons e ltac:(lia)) as (c & l & E & Hc).
  rewrite sentry_good; [|exact Sp|discriminate|rewrite E; cbn; apply digit_not_space; exact Hc|rewrite E; discriminate].
  unfold get_unsigned. rewrite get_uint_print; [reflexivity|exact Sp|discriminate|exact He|lia|exact Hr].
Qed.
Lemma drop_all l : drop_spaces l = [] <-> forall c, In c l -> is_space c = true.
Proof.
  induction l as [|c l IH]; [split; [intros _ c []|reflexivity]|]. cbn [drop_spaces]. destruct (is_space c) eqn:E.
  - rewrite IH. split; [intros H x [<-|Hx]; [exact E|exact (H x Hx)]|intros H x Hx; apply H; right; exact Hx].
  - split; [discriminate|]. intros H. rewrite (H c (or_introl eq_refl)) in E. discriminate E.
Qed.
Lemma some_not_space l : drop_spaces l <> [] <-> exists c, In c l /\ is_space c = false.
Proof.
  split.
  - induction l as [|c l IH]; [intros H; contradiction H; reflexivity|]. cbn [drop_spaces]. destruct (is_space c) eqn:E.
    + intros H. destruct (IH H) as (x & Hx & Ex). exists x. split; [right; exact Hx|exact Ex].
    + intros _. exists c. split; [left; reflexivity|exact E].
  - intros (c & Hc & E) H. rewrite drop_all in H. rewrite (H c Hc) in E. discriminate E.
Qed.
Lemma read_enum_defined s : is_skipws s = true -> (read_enum s = UB <-> ~ something_left s).
Proof.
  intros Sk. unfold read_enum, something_left, sentry. rewrite Sk. destruct (is_eof s), (is_fail s); cbn [orb negb andb];
    try (split; [intros _ (A & B & _); discriminate|reflexivity]).
  rewrite <- some_not_space. destruct (drop_spaces (is_rest s)); cbn [null].
  - split; [|reflexivity]. intros _ (_ & _ & H). apply H. reflexivity.
  - split; [discriminate|]. intros H. exfalso. apply H. split; [reflexivity|]. split; [reflexivity|discriminate].
Qed.
(** Anything that is read is a value of the underlying type, even if it fails. *)
Lemma get_uint_range m old s : 1 <= m -> 0 <= old < m -> 0 <= fst (get_uint m old s) < m.
Proof.
  intros Hm Ho. unfold get_uint. destruct (sentry false s) as [[|] s1]; [|exact Ho]. destruct (span_int (is_rest s1)) as [[neg ds] r] eqn:Es.
  destruct (null ds); [cbn [fst]; lia|]. destruct (Z.leb_spec m (digits_value ds)); [cbn [fst]; lia|]. cbn [fst].
  destruct neg; [apply Z.mod_pos_bound; lia|]. split; [|assumption].
  assert (D : forall l a, 0 <= a -> Forall (fun c => is_digit c = true) l -> 0 <= fold_left (fun a d => a * 10 + (d - 48)) l a).
  { induction l as [|d l IH]; intros a Ha F; [exact Ha|]. inversion F as [|? ? Hd F']; subst. cbn [fold_left]. apply IH; [|exact F'].
    unfold is_digit in Hd. lia. }
  apply D; [lia|].
  assert (G : forall l, Forall (fun c => is_digit c = true) (fst (span_digits l))).
  { induction l as [|d l IH]; [constructor|]. cbn [span_digits]. destruct (is_digit d) eqn:Ed; [|constructor].
    destruct (span_digits l) as [ds' r']. cbn [fst] in *. constructor; assumption. }
  unfold span_int in Es. destruct (is_rest s1) as [|c l]; [inversion Es; subst; constructor|].
  destruct ((c =? 45) || (c =? 43)).
  - pose proof (G l) as Gl. destruct (span_digits l) as [ds' r']. inversion Es; subst; exact Gl.
  - pose proof (G (c :: l)) as Gl. destruct (span_digits (c :: l)) as [ds' r']. inversion Es; subst; exact Gl.
Qed.
Lemma read_enum_range s e s' : read_enum s = Ok (e, s') -> 0 <= e < 4294967296.
Proof.
  unfold read_enum. destruct (sentry false s) as [[|] ?]; [|discriminate]. intros H. injection H as H.
  pose proof (get_uint_range 4294967296 0 s ltac:(lia) ltac:(lia)) as R. unfold get_unsigned in H. rewrite H in R. exact R.
Qed.
