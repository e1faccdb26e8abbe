(** Zone features and their comparison. *)
From Verif Require Import Base BaseProofs ImageModel ImageSpec ImageProofs StratModel StratSpec StratProofs ProofTools SortModel SortProofs ZoneModel ZoneSpec ZoneProofs ZoneProofs2.
From Coq Require Import Permutation Sorted.

Lemma count_zone_ok junk img ctx :
  wf_image img -> 1 <= iw img -> 1 <= ih img -> iw img * ih img < 1073741824 ->
  exists k lab zc, count_zone_compute junk img ctx = Ok zc /\ 0 <= k <= iw img * ih img /\ zone_numbering img k lab /\
    (forall x y, 0 <= x < iw img -> 0 <= y < ih img -> rd (zc_buf zc) (y * iw img + x) = Ok (lab x y)) /\
    zi_count (zc_zone zc) = k /\
    forall v, 1 <= v <= k ->
      zi_get (zc_zone zc) 0 (v - 1) = Ok (on_top img lab v) /\
      zi_get (zc_zone zc) 1 (v - 1) = Ok (on_right img lab v) /\
      zi_get (zc_zone zc) 2 (v - 1) = Ok (on_bottom img lab v) /\
      zi_get (zc_zone zc) 3 (v - 1) = Ok (on_left img lab v).
Proof.
  intros Hwf Hw Hh Hb. destruct (count_zone_raw junk img ctx Hwf Hw Hh Hb) as (k & lab & zc & len & E & N & Hk & Hl & C & Hm).
  exists k, lab, zc. split; [exact E|]. split; [lia|]. split; [exact N|]. split; [exact Hm|]. split; [apply C|].
  intros v Hv.
  rewrite !(zi_get_ok _ k len (side_count img lab)) by (auto; lia). repeat split.
Qed.

Section Feature.
Variables (img : image) (k : Z) (lab : Z -> Z -> Z) (zi : zone_info).
Hypothesis Hk : 0 <= k < 4294967296.
Hypothesis Hw : 0 <= iw img.
Hypothesis Hh : 0 <= ih img.
Hypothesis Hcount : zi_count zi = k.
Hypothesis Hget : forall v, 1 <= v <= k ->
      zi_get zi 0 (v - 1) = Ok (on_top img lab v) /\
      zi_get zi 1 (v - 1) = Ok (on_right img lab v) /\
      zi_get zi 2 (v - 1) = Ok (on_bottom img lab v) /\
      zi_get zi 3 (v - 1) = Ok (on_left img lab v).

Lemma side_pos v : 0 <= on_top img lab v <= iw img /\ 0 <= on_right img lab v <= ih img /\
  0 <= on_bottom img lab v <= iw img /\ 0 <= on_left img lab v <= ih img.
Proof. repeat split; apply (ind_sum_range (fun _ => _)); auto. Qed.

Lemma count_zones_S n P : 0 <= n -> count_zones (n + 1) P = count_zones n P + (if P (n + 1) then 1 else 0).
Proof. intros Hn. unfold count_zones. now rewrite zsum_S. Qed.

Lemma count_zones_range n P : 0 <= n -> 0 <= count_zones n P <= n.
Proof. intros Hn. apply (ind_sum_range (fun i => P (i + 1))); auto. Qed.

Lemma count_used_ok d f :
  (forall v, 1 <= v <= k -> zi_get zi d (v - 1) = Ok (f v) /\ 0 <= f v) ->
  count_used_zone zi d = Ok (count_zones k (fun v => 0 <? f v)).
Proof.
  intros Hf. unfold count_used_zone. rewrite Hcount.
  for_up_with (fun i n => n = count_zones i (fun v => 0 <? f v)).
  - intros i n Hi ->. destruct (Hf (i + 1) ltac:(lia)) as (E & Hp).
    replace (i + 1 - 1) with i in E by lia. rewrite E. cbn [bind]. eexists; split; [reflexivity|].
    rewrite count_zones_S by lia. pose proof (count_zones_range i (fun v => 0 <? f v) ltac:(lia)).
    destruct (Z.eqb_spec (f (i + 1)) 0), (Z.ltb_spec 0 (f (i + 1))); try lia. rewrite u32_small; lia.
  - reflexivity.
  - f_equal. rewrite Hloop. f_equal. lia.
Qed.

Definition touches v : bool :=
  (0 <? on_top img lab v) || (0 <? on_right img lab v) || (0 <? on_bottom img lab v) || (0 <? on_left img lab v).

Lemma count_total_ok : count_total_used_zone zi = Ok (count_zones k touches).
Proof.
  unfold count_total_used_zone. rewrite Hcount.
  for_up_with (fun i n => n = count_zones i touches).
  - intros i n Hi ->. destruct (Hget (i + 1) ltac:(lia)) as (E0 & E1 & E2 & E3).
    replace (i + 1 - 1) with i in * by lia. pose proof (side_pos (i + 1)) as (P0 & P1 & P2 & P3).
    pose proof (count_zones_range i touches ltac:(lia)).
    rewrite count_zones_S by lia.
    assert (T : touches (i + 1) = (0 <? on_top img lab (i + 1)) || (0 <? on_right img lab (i + 1)) || (0 <? on_bottom img lab (i + 1)) || (0 <? on_left img lab (i + 1))) by reflexivity.
    set (b := touches (i + 1)) in *. clearbody b. set (c := count_zones i touches) in *. clearbody c.
    rewrite E0. cbn [bind]. destruct (Z.eqb_spec (on_top img lab (i + 1)) 0) as [Z0|Z0]; cbn [negb].
    2: { eexists; split; [reflexivity|]. assert (Eb : b = true) by (rewrite T, !orb_true_iff, !Z.ltb_lt; lia). rewrite Eb. rewrite u32_small; lia. }
    rewrite E1. cbn [bind]. destruct (Z.eqb_spec (on_right img lab (i + 1)) 0) as [Z1|Z1]; cbn [negb].
    2: { eexists; split; [reflexivity|]. assert (Eb : b = true) by (rewrite T, !orb_true_iff, !Z.ltb_lt; lia). rewrite Eb. rewrite u32_small; lia. }
    rewrite E2. cbn [bind]. destruct (Z.eqb_spec (on_bottom img lab (i + 1)) 0) as [Z2|Z2]; cbn [negb].
    2: { eexists; split; [reflexivity|]. assert (Eb : b = true) by (rewrite T, !orb_true_iff, !Z.ltb_lt; lia). rewrite Eb. rewrite u32_small; lia. }
    rewrite E3. cbn [bind]. destruct (Z.eqb_spec (on_left img lab (i + 1)) 0) as [Z3|Z3]; cbn [negb].
    + eexists; split; [reflexivity|]. assert (Eb : b = false) by (rewrite T, !orb_false_iff, !Z.ltb_ge; lia). rewrite Eb. lia.
    + eexists; split; [reflexivity|]. assert (Eb : b = true) by (rewrite T, !orb_true_iff, !Z.ltb_lt; lia). rewrite Eb. rewrite u32_small; lia.
  - reflexivity.
  - f_equal. rewrite Hloop. f_equal. lia.
Qed.

Lemma count_zones_compl n P : 0 <= n -> n - count_zones n P = count_zones n (fun v => negb (P v)).
Proof.
  intros Hn. unfold count_zones.
  assert (E : zsum (fun i => if P (i + 1) then 1 else 0) n + zsum (fun i => if negb (P (i + 1)) then 1 else 0) n = n).
  { rewrite <- zsum_add. rewrite (zsum_ext _ (fun _ => 1)); [rewrite zsum_const; lia|].
    intros i Hi. destruct (P (i + 1)); reflexivity. }
  lia.
Qed.

Lemma zone_value_ok : wf_image img -> 1 <= iw img -> 1 <= ih img ->
  zone_value img zi = Ok [bool_u (ink img 0 0); bool_u (ink img (iw img - 1) (ih img - 1));
    count_zones k (fun v => 0 <? on_top img lab v);
    count_zones k (fun v => 0 <? on_right img lab v);
    count_zones k (fun v => 0 <? on_bottom img lab v);
    count_zones k (fun v => 0 <? on_left img lab v);
    count_zones k (fun v => negb (touches v))].
Proof.
  intros Hwf Hw1 Hh1. unfold zone_value. assert (Hwf' := Hwf). destruct Hwf' as (Hw' & Hh' & _ & _).
  rewrite (u32_small (iw img - 1)), (u32_small (ih img - 1)) by lia.
  rewrite !img_at_ok by (auto; lia). cbn [bind]. rewrite <- !ink_pget by (auto; lia).
  rewrite (count_used_ok 0 (on_top img lab)) by (intros v Hv; split; [apply Hget; auto|apply side_pos]). cbn [bind].
  rewrite (count_used_ok 1 (on_right img lab)) by (intros v Hv; split; [apply Hget; auto|apply side_pos]). cbn [bind].
  rewrite (count_used_ok 2 (on_bottom img lab)) by (intros v Hv; split; [apply Hget; auto|apply side_pos]). cbn [bind].
  rewrite (count_used_ok 3 (on_left img lab)) by (intros v Hv; split; [apply Hget; auto|apply side_pos]). cbn [bind].
  rewrite count_total_ok. cbn [bind]. rewrite Hcount.
  pose proof (count_zones_range k touches ltac:(lia)). rewrite u32_small by lia.
  now rewrite count_zones_compl by lia.
Qed.

(** * Proportions *)

Lemma contact_pos v : 0 <= contact img lab v.
Proof.
  pose proof (side_pos v) as (P0 & P1 & P2 & P3). unfold contact.
  destruct (0 <? on_top img lab v), (0 <? on_right img lab v), (0 <? on_bottom img lab v); lia.
Qed.

Lemma contact_le v : contact img lab v <= on_top img lab v + on_right img lab v + on_bottom img lab v + on_left img lab v.
Proof.
  pose proof (side_pos v) as (P0 & P1 & P2 & P3). unfold contact.
  destruct (0 <? on_top img lab v), (0 <? on_right img lab v), (0 <? on_bottom img lab v); lia.
Qed.

Lemma contact_le_max v : contact img lab v <= Z.max (iw img) (ih img).
Proof.
  pose proof (side_pos v) as (P0 & P1 & P2 & P3). unfold contact.
  destruct (0 <? on_top img lab v), (0 <? on_right img lab v), (0 <? on_bottom img lab v); lia.
Qed.

Lemma pz_value_ok v : 1 <= v <= k -> pz_value zi (v - 1) = Ok (contact img lab v).
Proof.
  intros Hv. destruct (Hget v Hv) as (E0 & E1 & E2 & E3). pose proof (side_pos v) as (P0 & P1 & P2 & P3).
  unfold pz_value, contact. rewrite E0. cbn [bind].
  destruct (Z.eqb_spec (on_top img lab v) 0), (Z.ltb_spec 0 (on_top img lab v)); try lia; cbn [negb]; [|reflexivity].
  rewrite E1. cbn [bind].
  destruct (Z.eqb_spec (on_right img lab v) 0), (Z.ltb_spec 0 (on_right img lab v)); try lia; cbn [negb]; [|reflexivity].
  rewrite E2. cbn [bind].
  destruct (Z.eqb_spec (on_bottom img lab v) 0), (Z.ltb_spec 0 (on_bottom img lab v)); try lia; cbn [negb]; [|reflexivity].
  exact E3.
Qed.

(** Each border pixel is in one zone at most. *)
Lemma ind_once l n : 0 <= n -> 0 <= zsum (fun i => if l =? i + 1 then 1 else 0) n <= (if (1 <=? l) && (l <=? n) then 1 else 0).
Proof.
  intros Hn. pattern n. revert n Hn. apply natlike_ind; [|intros m Hm IH; unfold Z.succ in *].
  - rewrite zsum_0 by lia. destruct ((1 <=? l) && (l <=? 0)); lia.
  - rewrite zsum_S by lia. set (S := zsum _ m) in *. clearbody S.
    destruct (Z.eqb_spec l (m + 1)), (Z.leb_spec 1 l), (Z.leb_spec l m), (Z.leb_spec l (m + 1)); cbn [andb] in *; lia.
Qed.

Lemma side_sum (g : Z -> Z) n j : 0 <= n -> 0 <= j ->
  zsum (fun i => zsum (fun x => if g x =? i + 1 then 1 else 0) n) j <= n.
Proof.
  intros Hn Hj. pattern n. revert n Hn. apply natlike_ind; [|intros m Hm IH; unfold Z.succ in *].
  - rewrite zsum_zero; [lia|]. intros i Hi. now rewrite zsum_0.
  - rewrite (zsum_ext _ (fun i => zsum (fun x => if g x =? i + 1 then 1 else 0) m + (if g m =? i + 1 then 1 else 0)))
      by (intros i Hi; rewrite zsum_S by lia; reflexivity).
    rewrite zsum_add. pose proof (ind_once (g m) j Hj) as H. destruct ((1 <=? g m) && (g m <=? j)); lia.
Qed.

Lemma contact_sum j : 0 <= j -> 0 <= zsum (fun i => contact img lab (i + 1)) j <= 2 * (iw img + ih img).
Proof.
  intros Hj. split; [apply zsum_nonneg; intros; apply contact_pos|].
  transitivity (zsum (fun i => on_top img lab (i + 1) + on_right img lab (i + 1) + on_bottom img lab (i + 1) + on_left img lab (i + 1)) j).
  { apply zsum_le. intros i Hi. apply contact_le. }
  rewrite !zsum_add.
  pose proof (side_sum (fun x => lab x 0) (iw img) j Hw Hj) as S0.
  pose proof (side_sum (fun y => lab (iw img - 1) y) (ih img) j Hh Hj) as S1.
  pose proof (side_sum (fun x => lab x (ih img - 1)) (iw img) j Hw Hj) as S2.
  pose proof (side_sum (fun y => lab 0 y) (ih img) j Hh Hj) as S3.
  unfold on_top, on_right, on_bottom, on_left. cbv beta in *. lia.
Qed.

Lemma border_zones_S j : 0 <= j ->
  border_zones img (j + 1) lab = border_zones img j lab ++ (if 0 <? contact img lab (j + 1) then [j + 1] else []).
Proof.
  intros Hj. unfold border_zones. rewrite zrange_S by lia. rewrite map_app, filter_app. reflexivity.
Qed.

Lemma sum_app (a b : list Z) : fold_right Z.add 0 (a ++ b) = fold_right Z.add 0 a + fold_right Z.add 0 b.
Proof. induction a as [|x a IH]; cbn [app fold_right]; lia. Qed.

Lemma contact_total_zsum j : 0 <= j -> contact_total img j lab = zsum (fun i => contact img lab (i + 1)) j.
Proof.
  intros Hj. pattern j. revert j Hj. apply natlike_ind; [|intros m Hm IH; unfold Z.succ in *].
  - now rewrite zsum_0.
  - rewrite zsum_S by lia. unfold contact_total in *. rewrite border_zones_S by lia. rewrite map_app, sum_app, IH.
    pose proof (contact_pos (m + 1)). destruct (Z.ltb_spec 0 (contact img lab (m + 1))); cbn [map fold_right]; lia.
Qed.

Lemma border_zones_length j : 0 <= j -> Z.of_nat (List.length (border_zones img j lab)) <= j.
Proof.
  intros Hj. pattern j. revert j Hj. apply natlike_ind; [|intros m Hm IH; unfold Z.succ in *].
  - cbn. lia.
  - rewrite border_zones_S by lia. rewrite app_length. destruct (0 <? contact img lab (m + 1)); cbn [List.length]; lia.
Qed.

Lemma pz_values_ok : 2 * (iw img + ih img) < 4294967296 ->
  pz_values zi = Ok (contact_total img k lab, map (contact img lab) (border_zones img k lab)).
Proof.
  intros Hb. unfold pz_values. rewrite Hcount.
  for_up_with (fun i '((t, l) : Z * list Z) => t = contact_total img i lab /\ l = map (contact img lab) (border_zones img i lab)).
  - intros i (t & l) Hi (-> & ->).
    pose proof (pz_value_ok (i + 1) ltac:(lia)) as E. replace (i + 1 - 1) with i in E by lia. rewrite E. cbn [bind].
    pose proof (contact_pos (i + 1)) as Hp.
    assert (Et : contact_total img (i + 1) lab = contact_total img i lab + contact img lab (i + 1)).
    { rewrite !contact_total_zsum by lia. rewrite zsum_S by lia. reflexivity. }
    rewrite border_zones_S by lia. rewrite map_app, Et.
    destruct (Z.eqb_spec (contact img lab (i + 1)) 0) as [Z0|Z0].
    + eexists; split; [reflexivity|]. rewrite Z0. change (0 <? 0) with false. cbn [map]. rewrite app_nil_r. split; [lia|reflexivity].
    + replace (0 <? contact img lab (i + 1)) with true by lia.
      pose proof (border_zones_length i ltac:(lia)) as Hlen.
      rewrite emit_ok by (rewrite map_length; lia). cbn [bind]. eexists; split; [reflexivity|].
      split; [|reflexivity]. rewrite u32_small; [reflexivity|].
      pose proof (contact_sum (i + 1) ltac:(lia)). rewrite zsum_S in H by lia.
      rewrite <- contact_total_zsum in H by lia.
      assert (0 <= contact_total img i lab) by (rewrite contact_total_zsum by lia; apply zsum_nonneg; intros; apply contact_pos).
      lia.
  - split; reflexivity.
  - destruct st as (t & l), Hloop as (-> & ->). cbn [bind]. replace (0 + Z.of_nat (Z.to_nat k)) with k by lia. reflexivity.
Qed.

Lemma pz_percents_ok total l : total <> 0 -> (forall n, In n l -> 0 <= n /\ 100 * n < 4294967296) ->
  pz_percents total l = Ok (map (fun n => 100 * n / total) l).
Proof.
  intros Ht. induction l as [|n l IH]; intros Hn; [reflexivity|]. cbn [pz_percents map].
  destruct (Hn n (or_introl eq_refl)). rewrite u32_small by lia. rewrite divu_ok by auto. cbn [bind].
  rewrite IH by (intros; apply Hn; now right). cbn [bind]. do 3 f_equal. lia.
Qed.

Lemma sum_ge (l : list Z) n : (forall m, In m l -> 0 <= m) -> In n l -> n <= fold_right Z.add 0 l.
Proof.
  induction l as [|a l IH]; intros Hp Hin; [contradiction|]. cbn [fold_right].
  assert (0 <= fold_right Z.add 0 l).
  { assert (Hp' : forall m, In m l -> 0 <= m) by (intros; apply Hp; now right). clear -Hp'.
    induction l as [|b l IH]; cbn [fold_right]; [lia|]. pose proof (Hp' b (or_introl eq_refl)).
    specialize (IH (fun m Hm => Hp' m (or_intror Hm))). lia. }
  destruct Hin as [->|Hin]; [lia|]. specialize (IH (fun m Hm => Hp m (or_intror Hm)) Hin).
  pose proof (Hp a (or_introl eq_refl)). lia.
Qed.

Lemma sum_div (l : list Z) t : 0 < t -> (forall m, In m l -> 0 <= m) ->
  fold_right Z.add 0 (map (fun n => 100 * n / t) l) <= 100 * fold_right Z.add 0 l / t.
Proof.
  intros Ht. induction l as [|a l IH]; intros Hp; cbn [map fold_right]; [rewrite Z.mul_0_r, Z.div_0_l; lia|].
  specialize (IH (fun m Hm => Hp m (or_intror Hm))).
  set (s := fold_right Z.add 0 l) in *. set (s' := fold_right Z.add 0 (map _ l)) in *.
  apply Z.div_le_lower_bound; [lia|].
  pose proof (Z.mul_div_le (100 * a) t Ht). pose proof (Z.mul_div_le (100 * s) t Ht).
  assert (t * s' <= t * (100 * s / t)) by (apply Z.mul_le_mono_nonneg_l; lia). lia.
Qed.

Lemma pz_load_ok sort : is_std_sort Z.ltb sort ->
  2 * (iw img + ih img) < 4294967296 -> 100 * Z.max (iw img) (ih img) < 4294967296 ->
  exists q, pz_load sort zi = Ok q /\ StronglySorted Z.le q /\
    Permutation q (map (fun v => 100 * contact img lab v / contact_total img k lab) (border_zones img k lab)) /\
    (forall n, In n q -> 0 <= n <= 100) /\ fold_right Z.add 0 q <= 100.
Proof.
  intros Hs Hb Hb2. unfold pz_load. rewrite pz_values_ok by exact Hb. cbn [bind].
  set (bz := border_zones img k lab) in *.
  assert (Hpos : forall n, In n (map (contact img lab) bz) -> 0 < n).
  { intros n Hn. apply in_map_iff in Hn. destruct Hn as (v & <- & Hv). unfold bz, border_zones in Hv.
    apply filter_In in Hv. lia. }
  assert (Hmax : forall n, In n (map (contact img lab) bz) -> 100 * n < 4294967296).
  { intros n Hn. apply in_map_iff in Hn. destruct Hn as (v & <- & Hv). pose proof (contact_le_max v). lia. }
  assert (Ep : pz_percents (contact_total img k lab) (map (contact img lab) bz) =
    Ok (map (fun v => 100 * contact img lab v / contact_total img k lab) bz) /\
    (forall n, In n (map (fun v => 100 * contact img lab v / contact_total img k lab) bz) -> 0 <= n <= 100) /\
    fold_right Z.add 0 (map (fun v => 100 * contact img lab v / contact_total img k lab) bz) <= 100).
  { rewrite <- (map_map (contact img lab) (fun n => 100 * n / contact_total img k lab)).
    unfold contact_total. fold bz. set (l := map (contact img lab) bz) in *.
    destruct l as [|a l'] eqn:El; [cbn; repeat split; try lia; contradiction|]. rewrite <- El in *.
    assert (Ht : forall n, In n l -> n <= fold_right Z.add 0 l).
    { intros n Hn. apply sum_ge; auto. intros m Hm. specialize (Hpos m Hm). lia. }
    assert (Hp1 : 0 < fold_right Z.add 0 l).
    { assert (Hin : In a l) by (rewrite El; now left). specialize (Hpos a Hin). specialize (Ht a Hin). lia. }
    split; [|split].
    - apply pz_percents_ok; [lia|]. intros n Hn. split; [specialize (Hpos n Hn); lia|auto].
    - intros n Hn. apply in_map_iff in Hn. destruct Hn as (m & <- & Hm). specialize (Hpos m Hm). specialize (Ht m Hm).
      split; [apply Z.div_pos; lia|apply Z.div_le_upper_bound; lia].
    - etransitivity; [apply sum_div; [lia|intros m Hm; specialize (Hpos m Hm); lia]|].
      apply Z.div_le_upper_bound; lia. }
  destruct Ep as (Ep & Hr & Hsum). rewrite Ep. cbn [bind].
  destruct (Hs (map (fun v => 100 * contact img lab v / contact_total img k lab) bz) (zltb_strict_weak _)) as (Hp & Hso).
  eexists; split; [reflexivity|]. split.
  { unfold sorted_by in Hso. revert Hso. generalize (sort (map (fun v => 100 * contact img lab v / contact_total img k lab) bz)).
    intros q Hq. induction Hq as [|a q Hq IH Hf]; constructor; auto.
    rewrite Forall_forall in *. intros b Hbq. specialize (Hf b Hbq). lia. }
  split; [now apply Permutation_sym|]. split.
  - intros n Hn. apply Hr. eapply Permutation_in; [apply Permutation_sym; exact Hp|exact Hn].
  - etransitivity; [|exact Hsum]. apply Z.eq_le_incl.
    assert (P : forall a b : list Z, Permutation a b -> fold_right Z.add 0 a = fold_right Z.add 0 b).
    { induction 1; cbn [fold_right]; lia. }
    symmetry. apply P. exact Hp.
Qed.
End Feature.

(** * Comparison of proportions *)

Lemma pz_product_ok a b acc :
  List.length a = List.length b ->
  (forall x y, In (x, y) (combine a b) -> 0 <= x <= 100 /\ 0 <= y <= 100 /\ 0 < x + y) ->
  0 <= acc -> acc + 100 * Z.of_nat (List.length a) < 4294967296 ->
  pz_product acc a b = Ok (acc + fold_right Z.add 0 (map (fun '(x, y) => 100 * x / (x + y)) (combine a b))) /\
  0 <= fold_right Z.add 0 (map (fun '(x, y) => 100 * x / (x + y)) (combine a b)) <= 100 * Z.of_nat (List.length a).
Proof.
  revert b acc. induction a as [|x a IH]; intros [|y b] acc Hl Hv Ha Hb; try discriminate; cbn [pz_product combine map fold_right].
  - rewrite Z.add_0_r. cbn [List.length]. split; [reflexivity|lia].
  - destruct (Hv x y (or_introl eq_refl)) as (Hx & Hy & Hxy).
    rewrite (u32_small (x * 100)), (u32_small (x + y)) by lia. rewrite divu_ok by lia. cbn [bind].
    rewrite (Z.mul_comm x 100).
    assert (Hq : 0 <= 100 * x / (x + y) <= 100) by (split; [apply Z.div_pos; lia|apply Z.div_le_upper_bound; lia]).
    cbn [List.length] in *. rewrite u32_small by lia.
    destruct (IH b (acc + 100 * x / (x + y))) as (E & Hr); try lia.
    { intros x' y' Hin. apply Hv. now right. }
    rewrite E. split; [f_equal; lia|lia].
Qed.

Lemma pz_compute_ok a b :
  (forall x, In x a -> 0 <= x <= 100) -> (forall y, In y b -> 0 <= y <= 100) ->
  (forall x y, In (x, y) (combine a b) -> 0 < x + y) ->
  100 * Z.of_nat (List.length a) < 4294967296 ->
  exists v, pz_compute a b = Ok v /\ 0 <= v <= 100 /\ (a = b -> v = 100) /\
    (List.length a <> List.length b -> v = 0) /\
    (forall d, pz_in_dist a b d = Ok (d <=? v)).
Proof.
  intros Ha Hb Hv Hl. unfold pz_in_dist.
  assert (G : exists v, pz_compute a b = Ok v /\ 0 <= v <= 100 /\ (a = b -> v = 100) /\
    (List.length a <> List.length b -> v = 0)).
  2: { destruct G as (v & E & H1 & H2 & H3). exists v. split; [exact E|]. split; [exact H1|]. split; [exact H2|].
       split; [exact H3|]. intros d. now rewrite E. }
  unfold pz_compute. destruct (Nat.eqb_spec (List.length a) (List.length b)) as [E|E]; cbn [negb].
  2: { exists 0. split; [reflexivity|]. split; [lia|]. split; [congruence|auto]. }
  destruct a as [|a0 a'] eqn:Ea.
  { exists 100. split; [reflexivity|]. split; [lia|]. split; [auto|]. intros C; contradiction. }
  rewrite <- Ea in *. destruct (pz_product_ok a b 0 E) as (Ep & Hr); try lia.
  { intros x y Hin. pose proof (in_combine_l _ _ _ _ Hin). pose proof (in_combine_r _ _ _ _ Hin).
    specialize (Ha x H). specialize (Hb y H0). specialize (Hv x y Hin). lia. }
  rewrite Ep. cbn [bind]. rewrite Z.add_0_l. set (s := fold_right _ _ _) in *.
  assert (Hn : 0 < Z.of_nat (List.length a)) by (rewrite Ea; cbn [List.length]; lia).
  rewrite divu_ok by lia. cbn [bind].
  assert (Ht : 0 <= s / Z.of_nat (List.length a) <= 100).
  { split; [apply Z.div_pos; lia|apply Z.div_le_upper_bound; lia]. }
  set (t := s / Z.of_nat (List.length a)) in *.
  assert (Ec : compute_relationship t 50 100 = Ok (100 - Z.abs (t - 50))).
  { unfold compute_relationship. replace (if t <? 50 then 50 - t else t - 50) with (Z.abs (t - 50)) by (destruct (Z.ltb_spec t 50); lia).
    rewrite u32_small by lia. rewrite divu_ok by lia. cbn [bind]. rewrite Z.div_mul by lia. rewrite u32_small; [reflexivity|lia]. }
  rewrite Ec. eexists; split; [reflexivity|]. split; [lia|]. split; [|congruence].
  intros Eab. assert (t = 50); [|lia]. unfold t.
  assert (Es : s = 50 * Z.of_nat (List.length a)).
  { unfold s. rewrite <- Eab in *. clear -Hv Ha. revert Hv Ha. induction a as [|x a IH]; intros Hv Ha; [reflexivity|].
    cbn [combine map fold_right List.length]. rewrite IH.
    - pose proof (Hv x x (or_introl eq_refl)). replace (100 * x) with (50 * (x + x)) by lia. rewrite Z.div_mul by lia. lia.
    - intros x' y' Hin. apply Hv. now right.
    - intros x' Hin. apply Ha. now right. }
  rewrite Es. apply Z.div_mul. lia.
Qed.

Lemma pz_product_zero : forall a b acc, (forall x y, In (x, y) (combine a b) -> 0 <= x <= 100 /\ 0 <= y <= 100) -> In (0, 0) (combine a b) -> pz_product acc a b = UB.
Proof.
  induction a as [|x a IH]; intros b acc Hv H; [destruct H|]. destruct b as [|y b]; [destruct H|]. cbn [combine In pz_product] in *.
  destruct (Hv x y (or_introl eq_refl)) as (Hx & Hy). rewrite (u32_small (x * 100)), (u32_small (x + y)) by lia.
  destruct (Z.eq_dec (x + y) 0) as [E|E]; [rewrite E; reflexivity|]. rewrite divu_ok by lia. cbn [bind]. apply IH; [intros x' y' Hin; apply Hv; now right|].
  destruct H as [H|H]; [injection H as -> ->; lia|exact H].
Qed.
Lemma pz_compute_outcome a b :
  (forall x, In x a -> 0 <= x <= 100) -> (forall y, In y b -> 0 <= y <= 100) -> 100 * Z.of_nat (List.length a) < 4294967296 ->
  (shared_zero a b -> pz_compute a b = UB) /\ (~ shared_zero a b -> pz_compute a b = Ok (likeness a b)).
Proof.
  intros Ha Hb Hl.
  assert (Hv : forall x y, In (x, y) (combine a b) -> 0 <= x <= 100 /\ 0 <= y <= 100).
  { intros x y Hin. split; [apply Ha; exact (in_combine_l _ _ _ _ Hin)|apply Hb; exact (in_combine_r _ _ _ _ Hin)]. }
  unfold pz_compute, likeness, shared_zero. split.
  - intros (E & H). rewrite (proj2 (Nat.eqb_eq _ _) E). cbn [negb]. destruct a as [|x a]; [destruct H|]. rewrite (pz_product_zero _ _ 0 Hv H). reflexivity.
  - intros N. destruct (Nat.eqb_spec (List.length a) (List.length b)) as [E|E]; cbn [negb]; [|reflexivity]. destruct a as [|a0 a'] eqn:Ea; [reflexivity|]. rewrite <- Ea in *.
    destruct (pz_product_ok a b 0 E) as (Ep & Hr); try lia.
    { intros x y Hin. destruct (Hv x y Hin) as (H1 & H2). split; [exact H1|]. split; [exact H2|]. destruct (Z.eq_dec (x + y) 0) as [Z0|]; [|lia].
      exfalso. apply N. split; [exact E|]. replace x with 0 in Hin by lia. replace y with 0 in Hin by lia. exact Hin. }
    rewrite Ep. cbn [bind]. rewrite Z.add_0_l. assert (Hn : 0 < Z.of_nat (List.length a)) by (rewrite Ea; cbn [List.length]; lia).
    rewrite divu_ok by lia. cbn [bind]. fold (mean_share a b).
    assert (Ht : 0 <= mean_share a b <= 100) by (unfold mean_share; split; [apply Z.div_pos; lia|apply Z.div_le_upper_bound; lia]). set (t := mean_share a b) in *.
    unfold compute_relationship. replace (if t <? 50 then 50 - t else t - 50) with (Z.abs (t - 50)) by (destruct (Z.ltb_spec t 50); lia).
    rewrite u32_small by lia. rewrite divu_ok by lia. cbn [bind]. rewrite Z.div_mul by lia. rewrite u32_small; [reflexivity|lia].
Qed.

(** * The buffer of a very large image *)
Lemma zone_buffer_wraps :
  exists img, wf_image img /\ 1 <= iw img /\ 1 <= ih img /\
    forall junk, count_zone_compute junk img new_zone_ctx = UB.
Proof.
  assert (G : forall w, w = 2147483647 -> exists img, wf_image img /\ 1 <= iw img /\ 1 <= ih img /\
    forall junk, count_zone_compute junk img new_zone_ctx = UB).
  { intros w Hw. exists (mkimage w 1 (repeat 45 (Z.to_nat w))). cbn [iw ih]. split.
    { unfold wf_image. cbn [iw ih idata]. split; [lia|]. split; [lia|]. split; [lia|].
      rewrite repeat_length. lia. }
    split; [lia|]. split; [lia|]. intros junk. unfold count_zone_compute.
    assert (Ea : area (mkimage w 1 (repeat 45 (Z.to_nat w))) = w).
    { unfold area. cbn [iw ih]. rewrite u32_small; lia. }
    rewrite Ea. replace (u32 (u32 (w * 2) + 2)) with 0 by (rewrite Hw; reflexivity).
    unfold label_zones. rewrite Ea. replace (Z.to_nat w) with (S (Z.to_nat (w - 1))) by lia. reflexivity. }
  exact (G _ eq_refl).
Qed.

(** * Comparing an image with itself *)
Definition long_line : image := mkimage 1 203 (45 :: 120 :: repeat 45 201).

Lemma long_line_zero :
  exists q, (zc <- count_zone_compute (fun _ => 7) long_line new_zone_ctx ;; pz_load (isort Z.ltb) (zc_zone zc)) = Ok q /\
    pz_compute q q = UB.
Proof. exists [0; 99]. split; vm_compute; reflexivity. Qed.

(** * Statements *)
Lemma labelling_law junk img ctx :
  wf_image img -> 1 <= iw img -> 1 <= ih img -> iw img * ih img < 1073741824 ->
  exists k lab zc, count_zone_compute junk img ctx = Ok zc /\ zi_count (zc_zone zc) = k /\
    zone_numbering img k lab /\
    forall x y, 0 <= x < iw img -> 0 <= y < ih img -> rd (zc_buf zc) (y * iw img + x) = Ok (lab x y).
Proof.
  intros Hwf Hw Hh Hb. destruct (count_zone_ok junk img ctx Hwf Hw Hh Hb) as (k & lab & zc & E & Hk & N & Hm & C & _).
  exists k, lab, zc. auto.
Qed.

Lemma border_law junk img ctx :
  wf_image img -> 1 <= iw img -> 1 <= ih img -> iw img * ih img < 1073741824 ->
  exists k lab zc, count_zone_compute junk img ctx = Ok zc /\ zone_numbering img k lab /\
    (forall v, 1 <= v <= k ->
      zi_get (zc_zone zc) 0 (v - 1) = Ok (on_top img lab v) /\
      zi_get (zc_zone zc) 1 (v - 1) = Ok (on_right img lab v) /\
      zi_get (zc_zone zc) 2 (v - 1) = Ok (on_bottom img lab v) /\
      zi_get (zc_zone zc) 3 (v - 1) = Ok (on_left img lab v)) /\
    zone_value img (zc_zone zc) = Ok [bool_u (ink img 0 0); bool_u (ink img (iw img - 1) (ih img - 1));
      count_zones k (fun v => 0 <? on_top img lab v);
      count_zones k (fun v => 0 <? on_right img lab v);
      count_zones k (fun v => 0 <? on_bottom img lab v);
      count_zones k (fun v => 0 <? on_left img lab v);
      count_zones k (fun v => negb ((0 <? on_top img lab v) || (0 <? on_right img lab v) ||
                                    (0 <? on_bottom img lab v) || (0 <? on_left img lab v)))].
Proof.
  intros Hwf Hw Hh Hb. destruct (count_zone_ok junk img ctx Hwf Hw Hh Hb) as (k & lab & zc & E & Hk & N & Hm & C & Hg).
  exists k, lab, zc. split; [exact E|]. split; [exact N|]. split; [exact Hg|].
  apply zone_value_ok; auto; lia.
Qed.

Lemma proportions_law junk img ctx sort :
  wf_image img -> 1 <= iw img -> 1 <= ih img -> iw img * ih img < 42949672 -> is_std_sort Z.ltb sort ->
  exists k lab zc q, count_zone_compute junk img ctx = Ok zc /\ zone_numbering img k lab /\
    pz_load sort (zc_zone zc) = Ok q /\ StronglySorted Z.le q /\
    Permutation q (map (fun v => 100 * contact img lab v / contact_total img k lab) (border_zones img k lab)) /\
    (forall n, In n q -> 0 <= n <= 100) /\ fold_right Z.add 0 q <= 100.
Proof.
  intros Hwf Hw Hh Hb Hs. destruct (count_zone_ok junk img ctx Hwf Hw Hh ltac:(lia)) as (k & lab & zc & E & Hk & N & Hm & C & Hg).
  assert (iw img <= iw img * ih img /\ ih img <= iw img * ih img) by nia.
  destruct (pz_load_ok img k lab (zc_zone zc)) with (sort := sort) as (q & Eq & Q); auto; try lia.
  exists k, lab, zc, q. auto.
Qed.
