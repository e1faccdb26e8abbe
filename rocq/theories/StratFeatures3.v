(** Alternations of a whole image, bars, relationships. *)
From Verif Require Import Base BaseProofs ImageModel ImageSpec ImageProofs StratModel StratSpec StratProofs StratFeatures2.

Lemma existsb_ext {A} (f g : A -> bool) l : (forall a, In a l -> f a = g a) -> existsb f l = existsb g l.
Proof.
  induction l as [|a l IH]; intros H; [reflexivity|]. cbn [existsb].
  rewrite (H a), IH; auto; [intros; apply H; now right|now left].
Qed.

Lemma bool_iff (a b : bool) : (a = true <-> b = true) -> a = b.
Proof. destruct a, b; intuition congruence. Qed.

Lemma existsb_rev_range (P : Z -> bool) n :
  0 <= n -> existsb (fun i => P (n - 1 - i)) (zrange n) = existsb P (zrange n).
Proof.
  intros Hn. apply bool_iff. rewrite !existsb_exists. split; intros (i & Hi & Hp).
  - exists (n - 1 - i). rewrite zrange_In in *. split; [lia|exact Hp].
  - exists (n - 1 - i). rewrite zrange_In in *. split; [lia|]. now replace (n - 1 - (n - 1 - i)) with i by lia.
Qed.

Section Rot.
Variables img r : image.
Hypothesis Hw : iw r = ih img.
Hypothesis Hh : ih r = iw img.
Hypothesis P : forall x y, 0 <= x < iw r -> 0 <= y < ih r -> pix r x y = pix img (iw img - 1 - y) x.

Lemma rot_ink x y : 0 <= x < ih img -> 0 <= y < iw img -> ink r x y = ink img (iw img - 1 - y) x.
Proof. intros. unfold ink. rewrite P; [reflexivity|lia|lia]. Qed.

Lemma rot_column y0 n x :
  0 <= y0 -> 0 <= n -> y0 + n <= iw img -> 0 <= x < ih img ->
  column_ink r y0 (y0 + n) x = row_ink img (iw img - y0 - n) (iw img - y0) x.
Proof.
  intros H1 H2 H3 Hx. unfold column_ink, row_ink.
  replace (y0 + n - y0) with n by lia. replace (iw img - y0 - (iw img - y0 - n)) with n by lia.
  rewrite <- (existsb_rev_range (fun x0 => ink img (iw img - y0 - n + x0) x)) by lia.
  apply existsb_ext. intros i Hi. rewrite zrange_In in Hi. rewrite rot_ink by lia. f_equal. lia.
Qed.
End Rot.

Lemma alternations_ok img :
  wf_image img -> 1 <= iw img -> 1 <= ih img -> ih img < 2147483648 ->
  exists img90, rotate90 img = Ok img90 /\ alternations img img90 = Ok (alternations_spec img).
Proof.
  intros Hwf Hw Hh Hb. destruct (rotate90_law img Hwf) as (r & Er & Hwfr & Hwr & Hhr & Pr).
  exists r. split; [exact Er|].
  assert (Hwf' := Hwf). destruct Hwf' as (Hw' & Hh' & Ha & Hl).
  pose proof (rot_ink img r Hwr Hhr Pr) as Ri. pose proof (rot_column img r Hwr Hhr Pr) as Rc.
  unfold alternations. cbv zeta.
  assert (H3 : 0 <= ih img / 3 <= ih img) by (split; [apply Z.div_pos; lia|apply Z.div_le_upper_bound; lia]).
  assert (W3 : 0 <= iw img / 3 <= iw img) by (split; [apply Z.div_pos; lia|apply Z.div_le_upper_bound; lia]).
  assert (W2 : 0 <= (iw img - 1) / 2 < iw img) by (split; [apply Z.div_pos; lia|apply Z.div_lt_upper_bound; lia]).
  assert (H2 : 0 <= (2 * ih img - 1) / 3 < ih img) by (split; [apply Z.div_pos; lia|apply Z.div_lt_upper_bound; lia]).
  assert (E0 : (if ih img <? 2 then Ok (mkalt false 0) else alt_row img ((ih img - 2) / 3)) =
    Ok (if ih img <? 2 then mkalt false 0 else line_alternation (fun x => ink img x ((ih img - 2) / 3)) (iw img))).
  { destruct (Z.ltb_spec (ih img) 2) as [L|L]; [reflexivity|].
    apply alt_row_ok; auto. split; [apply Z.div_pos; lia|apply Z.div_lt_upper_bound; lia]. }
  rewrite E0. cbn [bind]. rewrite (u32_small (ih img * 2 - 1)) by lia.
  replace (ih img * 2 - 1) with (2 * ih img - 1) by lia.
  rewrite (alt_row_ok img) by auto. cbn [bind].
  rewrite (alt_block_ok img) by (auto; lia). cbn [bind].
  rewrite (alt_block_ok img) by (auto; lia). cbn [bind].
  rewrite u32_small by lia. rewrite Hhr.
  rewrite (alt_row_ok r) by (auto; lia). cbn [bind].
  rewrite (alt_block_ok r) by (auto; lia). cbn [bind].
  rewrite (alt_block_ok r) by (auto; lia). cbn [bind].
  unfold alternations_spec. cbv zeta. rewrite Hwr.
  replace (ih img - ih img / 3 + ih img / 3) with (ih img) by lia.
  rewrite Z.add_0_l. do 6 f_equal; [|f_equal; [|f_equal]].
  - apply line_alternation_ext; [lia|]. intros i Hi. rewrite Ri by lia. f_equal.
    pose proof (Z.div_mod (iw img - 1) 2 ltac:(lia)). pose proof (Z.div_mod (iw img) 2 ltac:(lia)).
    pose proof (Z.mod_pos_bound (iw img - 1) 2 ltac:(lia)). pose proof (Z.mod_pos_bound (iw img) 2 ltac:(lia)).
    lia.
  - apply line_alternation_ext; [lia|]. intros i Hi. rewrite Rc by lia. f_equal; lia.
  - apply line_alternation_ext; [lia|]. intros i Hi. rewrite <- (Z.add_0_l (iw img / 3)) at 1.
    rewrite Rc by lia. f_equal; lia.
Qed.

(** * hbar *)

Lemma forallb_zrange_S (P : Z -> bool) n : 0 <= n ->
  forallb P (zrange (n + 1)) = forallb P (zrange n) && P n.
Proof. intros. rewrite zrange_S by auto. rewrite forallb_app. simpl. now rewrite andb_true_r. Qed.

Lemma all_letters_ok img y :
  wf_image img -> 0 <= y < ih img ->
  all_letters (idata img) (y * iw img) (iw img) = Ok (full_row img y).
Proof.
  intros Hwf Hy. assert (Hwf' := Hwf). destruct Hwf' as (Hw' & Hh' & Ha & Hl).
  unfold all_letters.
  match goal with |- loop ?n0 ?b0 ?s0 = _ => edestruct (@loop_total Z bool b0) with
    (I := fun p => exists i, p = y * iw img + i /\ 0 <= i <= iw img /\
            forallb (fun x => ink img x y) (zrange i) = true)
    (m := fun p => Z.to_nat (iw img - (p - y * iw img)))
    (Q := fun r => r = full_row img y) (fuel := n0) (s := s0)
    as (r & E & HQ) end.
  4: { rewrite E. now f_equal. }
  2: { exists 0. split; [lia|]. split; [lia|reflexivity]. }
  2: { cbv beta. lia. }
  cbv beta. intros p (i & -> & Hi & Hf).
  destruct (Z.eqb_spec (y * iw img + i) (y * iw img + iw img)) as [Eq|Ne].
  - assert (i = iw img) by lia. subst i. symmetry. exact Hf.
  - rewrite rd_pix by (auto; lia). cbn [bind]. rewrite <- ink_pget by (auto; lia).
    destruct (ink img i y) eqn:Ei.
    + split; [|lia]. exists (i + 1). split; [lia|]. split; [lia|].
      rewrite forallb_zrange_S by lia. now rewrite Hf, Ei.
    + symmetry. unfold full_row. apply not_true_iff_false. rewrite forallb_forall. intros C.
      specialize (C i). rewrite zrange_In in C. rewrite C in Ei by lia. discriminate.
Qed.

(** Number of rows y starting a group of full rows. *)
Lemma full_row_outside img : 1 <= iw img -> full_row img (-1) = false.
Proof.
  intros H. unfold full_row. apply not_true_iff_false. rewrite forallb_forall. intros C.
  specialize (C 0). rewrite zrange_In in C. specialize (C ltac:(lia)).
  unfold ink, pix in C. rewrite andb_false_r in C. discriminate.
Qed.

Lemma hbar_ok img :
  wf_image img -> 1 <= iw img ->
  hbar img = Ok (bar_count img).
Proof.
  intros Hwf Hw. assert (Hwf' := Hwf). destruct Hwf' as (Hw' & Hh' & Ha & Hl).
  unfold hbar, bar_count. rewrite (end_offset img Hwf).
  set (g := fun y => if full_row img y && negb (full_row img (y - 1)) then 1 else 0).
  assert (Hg : forall n, 0 <= n -> 0 <= zsum g n <= n).
  { intros n Hn. split.
    - apply zsum_nonneg; intros; unfold g; destruct (_ && _); lia.
    - transitivity (zsum (fun _ => 1) n); [|rewrite zsum_const; lia].
      apply zsum_le; intros; unfold g; destruct (_ && _); lia. }
  match goal with |- loop ?n0 ?b0 ?s0 = _ => edestruct (@loop_total (Z * bool * Z) Z b0) with
    (I := fun '((p, prev, n) : Z * bool * Z) => exists y, p = y * iw img /\ 0 <= y <= ih img /\
            prev = full_row img (y - 1) /\ n = zsum g y)
    (m := fun '((p, prev, n) : Z * bool * Z) => Z.to_nat (ih img - p / iw img))
    (Q := fun r => r = zsum g (ih img)) (fuel := n0) (s := s0)
    as (r & E & HQ) end.
  4: { rewrite E. now f_equal. }
  2: { exists 0. split; [lia|]. split; [lia|]. split; [symmetry; now apply full_row_outside|]. now rewrite zsum_0. }
  2: { cbv beta iota. rewrite Z.div_0_l by lia. lia. }
  intros ((p & prev) & n) (y & -> & Hy & -> & ->).
  destruct (Z.eqb_spec (y * iw img) (ih img * iw img)) as [Eq|Ne].
  - assert (y = ih img) by nia. now subst y.
  - assert (y <> ih img) by (intro; subst; lia).
    rewrite all_letters_ok by (auto; lia). cbn [bind].
    assert (Em : (y * iw img + iw img) / iw img = y + 1)
      by (replace (y * iw img + iw img) with ((y + 1) * iw img) by lia; apply Z.div_mul; lia).
    assert (Es : zsum g (y + 1) = zsum g y + g y) by (apply zsum_S; lia).
    specialize (Hg y ltac:(lia)).
    assert (Eg : g y = if full_row img y && negb (full_row img (y - 1)) then 1 else 0) by reflexivity.
    destruct (full_row img y) eqn:Ef; rewrite Em, Z.div_mul by lia; (split; [|lia]);
      exists (y + 1); (split; [lia|]); (split; [lia|]); replace (y + 1 - 1) with y by lia;
      (split; [now rewrite Ef|]); rewrite Es, Eg; cbn [andb].
    + destruct (full_row img (y - 1)); cbn [negb]; [lia|]. rewrite u32_small; lia.
    + lia.
Qed.

(** * Relationships *)

Lemma interval_compute_ok i a b :
  0 < i -> 100 * i < 4294967296 -> 0 <= a <= i -> 0 <= b <= i ->
  interval_compute i a b = Ok (100 - 100 * Z.abs (a - b) / i).
Proof.
  intros Hi Hb Ha Hbb. unfold interval_compute, compute_relationship.
  replace (if a <? b then b - a else a - b) with (Z.abs (a - b)) by (destruct (Z.ltb_spec a b); lia).
  rewrite u32_small by lia. rewrite divu_ok by lia. cbn [bind].
  rewrite (Z.mul_comm _ 100).
  assert (0 <= 100 * Z.abs (a - b) / i <= 100).
  { split; [apply Z.div_pos; lia|apply Z.div_le_upper_bound; lia]. }
  now rewrite u32_small by lia.
Qed.

Lemma interval_law i a b :
  0 < i -> 100 * i < 4294967296 -> 0 <= a <= i -> 0 <= b <= i ->
  exists v, interval_compute i a b = Ok v /\ interval_compute i b a = Ok v /\ 0 <= v <= 100 /\
    (a = b -> v = 100) /\
    v = 100 - 100 * Z.abs (a - b) / i /\
    (forall c u, 0 <= c <= i -> Z.abs (a - b) <= Z.abs (a - c) ->
      interval_compute i a c = Ok u -> u <= v).
Proof.
  intros Hi Hb Ha Hbb. exists (100 - 100 * Z.abs (a - b) / i).
  split; [now apply interval_compute_ok|]. split.
  { rewrite interval_compute_ok by auto. do 3 f_equal. lia. }
  split.
  { assert (0 <= 100 * Z.abs (a - b) / i <= 100).
    { split; [apply Z.div_pos; lia|apply Z.div_le_upper_bound; lia]. } lia. }
  split. { intros ->. rewrite Z.sub_diag. change (Z.abs 0) with 0. rewrite Z.mul_0_r, Z.div_0_l; lia. }
  split; [reflexivity|].
  intros c u Hc Hle Hu. rewrite interval_compute_ok in Hu by auto.
  assert (Eu : u = 100 - 100 * Z.abs (a - c) / i) by congruence. clear Hu.
  assert (100 * Z.abs (a - b) / i <= 100 * Z.abs (a - c) / i) by (apply Z.div_le_mono; lia). lia.
Qed.

Lemma interval_in_dist_ok a b d :
  0 <= a -> 0 <= b -> 0 <= d -> a + d < 4294967296 -> b + d < 4294967296 ->
  interval_in_dist a b d = true <-> d < Z.abs (a - b).
Proof.
  intros. unfold interval_in_dist. destruct (Z.ltb_spec a b); rewrite u32_small by lia; rewrite Z.ltb_lt; lia.
Qed.

Lemma alt_eqb_eq a b : alt_eqb a b = true <-> a = b.
Proof.
  unfold alt_eqb. destruct a as [s c], b as [s0 c0]; cbn [alt_start alt_count]. rewrite andb_true_iff, eqb_true_iff, Z.eqb_eq.
  split; [intros (-> & ->); reflexivity|intros E; now inversion E].
Qed.

Lemma count_eq_combine {T} (eqb : T -> T -> bool) a b :
  count_eq eqb a b = Z.of_nat (List.length (filter (fun '(x, y) => eqb x y) (combine a b))).
Proof.
  revert b; induction a as [|x a IH]; intros [|y b]; try reflexivity.
  cbn [count_eq combine filter]. rewrite IH. destruct (eqb x y); cbn [List.length]; lia.
Qed.

Lemma filter_all_or {A} (f : A -> bool) l :
  (List.length (filter f l) <= List.length l)%nat /\
  (List.length (filter f l) = List.length l <-> forallb f l = true).
Proof.
  induction l as [|a l (IH1 & IH2)]; cbn [filter List.length forallb]; [split; [lia|tauto]|].
  destruct (f a); cbn [List.length andb].
  - split; [lia|]. rewrite <- IH2. lia.
  - split; [lia|]. split; [lia|discriminate].
Qed.

Lemma forallb_combine_eq {T} (eqb : T -> T -> bool) (Heq : forall x y, eqb x y = true <-> x = y) a b :
  List.length a = List.length b ->
  forallb (fun '(x, y) => eqb x y) (combine a b) = true <-> a = b.
Proof.
  revert b; induction a as [|x a IH]; intros [|y b] Hl; try discriminate; cbn [combine forallb]; [tauto|].
  rewrite andb_true_iff, Heq, IH by (cbn [List.length] in Hl; lia).
  split; [intros (-> & ->); reflexivity|intros E; now inversion E].
Qed.

Lemma array_law {T} (eqb : T -> T -> bool) (Heq : forall x y, eqb x y = true <-> x = y) a b d :
  a <> [] -> List.length a = List.length b ->
  exists v, array_compute eqb a b = Ok v /\ array_compute eqb b a = Ok v /\ 0 <= v <= 100 /\
    (v = 100 <-> a = b) /\
    v = 100 * Z.of_nat (List.length (filter (fun '(x, y) => eqb x y) (combine a b))) / Z.of_nat (List.length a) /\
    array_in_dist eqb a b d = Ok (d <=? v).
Proof.
  intros Hne Hl. unfold array_in_dist, array_compute.
  assert (Hsym : forall a b, count_eq eqb a b = count_eq eqb b a).
  { clear -Heq. induction a as [|x a IH]; intros [|y b]; try reflexivity. cbn [count_eq]. rewrite IH.
    assert (E : eqb x y = eqb y x) by (apply bool_iff; rewrite !Heq; intuition congruence).
    now rewrite E. }
  assert (Hpos : 0 < Z.of_nat (List.length a)) by (destruct a; [congruence|cbn [List.length]; lia]).
  rewrite (Hsym b a), <- Hl, !divu_ok by lia. rewrite count_eq_combine. cbn [bind].
  pose proof (filter_all_or (fun '((x, y) : T * T) => eqb x y) (combine a b)) as (Hle & Hall).
  pose proof (forallb_combine_eq eqb Heq a b Hl) as Hc.
  rewrite combine_length, <- Hl, Nat.min_id in Hle, Hall.
  set (k := List.length (filter _ _)) in *. clearbody k.
  exists (Z.of_nat k * 100 / Z.of_nat (List.length a)).
  assert (Hv : 0 <= Z.of_nat k * 100 / Z.of_nat (List.length a) <= 100).
  { split; [apply Z.div_pos; lia|apply Z.div_le_upper_bound; lia]. }
  split; [reflexivity|]. split; [reflexivity|]. split; [exact Hv|].
  split; [|split; [f_equal; lia|reflexivity]].
  rewrite <- Hc, <- Hall. split.
  - intros E. pose proof (Z.mul_div_le (Z.of_nat k * 100) (Z.of_nat (List.length a)) Hpos). lia.
  - intros ->. rewrite Z.mul_comm. apply Z.div_mul. lia.
Qed.
