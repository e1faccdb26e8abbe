From Verif Require Import Base BaseProofs SortModel ImageModel StratModel ZoneModel DatasModel TrieModel UtilModel IndexModel FloatModel RecogModel RecogSpec
  RecogProofs GlyphsProofs3 Ocr6Model Ocr6Spec.
From Coq Require Import Sorted SpecFloat Permutation.

(** * Tables of counters *)
Definition tab {A} (f : Z -> A) (n : Z) : list A := map f (zrange n).
Lemma tab_length {A} (f : Z -> A) n : List.length (tab f n) = Z.to_nat n.
Proof. unfold tab. now rewrite map_length, zrange_length. Qed.
Lemma tab_nth {A} (f : Z -> A) n k : (k < Z.to_nat n)%nat -> nth_error (tab f n) k = Some (f (Z.of_nat k)).
Proof. intros H. unfold tab. now rewrite (map_nth_error f _ _ (zrange_nth n k H)). Qed.
Lemma rd_tab {A} (f : Z -> A) n i : 0 <= i < n -> rd (tab f n) i = Ok (f i).
Proof. intros H. apply rd_ok; [lia|]. rewrite tab_nth by lia. do 2 f_equal. lia. Qed.
Lemma tab_ext {A} (f g : Z -> A) n : (forall i, 0 <= i < n -> f i = g i) -> tab f n = tab g n.
Proof. intros H. apply map_ext_in. intros i Hi. apply H. now apply zrange_In. Qed.
Lemma wr_tab {A} (f : Z -> A) n i v : 0 <= i < n -> wr (tab f n) i v = Ok (tab (fun c => if c =? i then v else f c) n).
Proof.
  intros H. rewrite wr_ok by (rewrite tab_length; lia). f_equal. apply nth_error_ext. intros k.
  destruct (Nat.lt_ge_cases k (Z.to_nat n)) as [Hk|Hk].
  - rewrite tab_nth by exact Hk. destruct (Nat.eq_dec (Z.to_nat i) k) as [E|E].
    + subst k. rewrite upd_nth_same by (rewrite tab_length; lia). destruct (Z.eqb_spec (Z.of_nat (Z.to_nat i)) i); [reflexivity|lia].
    + rewrite upd_nth_other by exact E. rewrite tab_nth by exact Hk. destruct (Z.eqb_spec (Z.of_nat k) i); [lia|reflexivity].
  - rewrite (proj2 (nth_error_None _ _)) by (rewrite upd_length, tab_length; lia).
    now rewrite (proj2 (nth_error_None _ _)) by (rewrite tab_length; lia).
Qed.
Lemma repeat_tab {A} (a : A) n : repeat a (Z.to_nat n) = tab (fun _ => a) n.
Proof.
  unfold tab, zrange. rewrite map_map. generalize 0%nat. induction (Z.to_nat n) as [|k IH]; intros s; [reflexivity|].
  cbn [repeat seq map]. now rewrite (IH (S s)).
Qed.

Definition count (p : Z -> bool) (l : list Z) : Z := Z.of_nat (List.length (filter p l)).
Lemma count_snoc p l x : count p (l ++ [x]) = count p l + (if p x then 1 else 0).
Proof. unfold count. rewrite filter_app, app_length. cbn [filter]. destruct (p x); cbn [List.length]; lia. Qed.
Lemma count_nonneg p l : 0 <= count p l. Proof. unfold count. lia. Qed.
Lemma count_le p l : count p l <= Z.of_nat (List.length l).
Proof. unfold count. pose proof (filter_len p l). lia. Qed.

Lemma incr_range n k lo f : 0 <= lo -> lo + Z.of_nat k <= n -> (forall c, 0 <= c < n -> 0 <= f c < 4294967295) ->
  for_up k lo (fun m cat => v <- rd cat m ;; wr cat m (u32 (v + 1))) (tab f n) =
  Ok (tab (fun c => if (lo <=? c) && (c <? lo + Z.of_nat k) then f c + 1 else f c) n).
Proof.
  intros H1 H2 H3.
  destruct (for_up_total (fun m cat => v <- rd cat m ;; wr cat m (u32 (v + 1)))
              (fun i cat => cat = tab (fun c => if (lo <=? c) && (c <? i) then f c + 1 else f c) n) k lo) with (s := tab f n) as (s' & E & ->).
  - intros i s Hi ->. rewrite rd_tab by lia. cbn [bind]. rewrite wr_tab by lia. eexists; split; [reflexivity|]. apply tab_ext. intros c Hc.
    rewrite (proj2 (Z.ltb_ge i i)) by lia. rewrite andb_false_r. rewrite u32_small by (specialize (H3 i ltac:(lia)); lia).
    destruct (Z.eqb_spec c i) as [->|Hne].
    + destruct (Z.leb_spec lo i), (Z.ltb_spec i (i + 1)); cbn [andb]; auto; lia.
    + destruct (Z.leb_spec lo c), (Z.ltb_spec c (i + 1)), (Z.ltb_spec c i); cbn [andb]; auto; lia.
  - apply tab_ext. intros c Hc. destruct (Z.leb_spec lo c), (Z.ltb_spec c lo); cbn [andb]; auto; lia.
  - exact E.
Qed.

(** * The counters of the constructor *)
Lemma to_int_small z : 0 <= z < 2147483648 -> to_int z = z.
Proof. intros H. unfold to_int. rewrite u32_small by lia. destruct (Z.ltb_spec z 2147483648); [reflexivity|lia]. Qed.
Lemma to_int_neg z : -2147483648 <= z < 0 -> to_int z = z.
Proof.
  intros H. unfold to_int. replace (u32 z) with (z + 4294967296) by (unfold u32; symmetry; rewrite <- (Z.mod_small (z + 4294967296) 4294967296) by lia;
    replace (z + 4294967296) with (z + 1 * 4294967296) by lia; now rewrite Z_mod_plus_full).
  destruct (Z.ltb_spec (z + 4294967296) 2147483648); lia.
Qed.
Lemma to_int_id z : -2147483648 <= z < 2147483648 -> to_int z = z.
Proof. intros H. destruct (Z.ltb_spec z 0); [now apply to_int_neg|now apply to_int_small]. Qed.

Lemma partial_sum_nth l : (forall x, In x l -> 0 <= x) -> forall acc k, 0 <= acc ->
  acc + fold_right Z.add 0 l < 4294967296 -> (k < List.length l)%nat ->
  nth_error (partial_sum acc l) k = Some (acc + fold_right Z.add 0 (firstn (S k) l)).
Proof.
  induction l as [|x l IH]; intros Hl acc k H1 H2 H3; [cbn in H3; lia|].
  cbn [fold_right] in H2. pose proof (Hl x (or_introl eq_refl)).
  assert (0 <= fold_right Z.add 0 l) by (clear - Hl; assert (G : forall x, In x l -> 0 <= x) by (intros; apply Hl; now right); clear Hl; induction l as [|y l IH]; cbn; [lia|];
    pose proof (G y (or_introl eq_refl)); specialize (IH (fun z Hz => G z (or_intror Hz))); lia).
  cbn [partial_sum]. rewrite u32_small by lia. destruct k as [|k].
  - cbn. f_equal. lia.
  - cbn [nth_error]. rewrite IH; [|intros; apply Hl; now right|lia|lia|cbn in H3; lia]. f_equal. cbn [firstn fold_right]. lia.
Qed.
Lemma partial_sum_length l : forall acc, List.length (partial_sum acc l) = List.length l.
Proof. induction l as [|x l IH]; intros acc; cbn [partial_sum List.length]; [reflexivity|]. now rewrite IH. Qed.
Lemma count_split (p q : Z -> bool) l : (forall x, In x l -> p x = true -> q x = true -> False) -> count p l + count q l = count (fun x => p x || q x) l.
Proof.
  induction l as [|x l IH] using rev_ind; intros H; [reflexivity|]. rewrite !count_snoc, <- IH by (intros y Hy; apply H; apply in_or_app; auto).
  specialize (H x ltac:(apply in_or_app; right; now left)). destruct (p x), (q x); cbn [orb]; lia.
Qed.
Lemma count_ext (p q : Z -> bool) l : (forall x, In x l -> p x = q x) -> count p l = count q l.
Proof. intros H. unfold count. now rewrite (filter_ext_in _ _ _ H). Qed.
Lemma sum_counts col n : (forall x, In x col -> 0 <= x) -> 0 <= n -> fold_right Z.add 0 (tab (fun c => count (fun x => x / 10 =? c) col) n) = count (fun x => x / 10 <? n) col.
Proof.
  intros Hx Hn. revert n Hn. apply natlike_ind.
  - unfold tab. rewrite zrange_0 by lia. cbn. rewrite (count_ext _ (fun _ => false)).
    + unfold count. induction col; cbn; auto. apply IHcol. intros; apply Hx; now right.
    + intros x H. specialize (Hx x H). destruct (Z.ltb_spec (x / 10) 0); [|reflexivity]. pose proof (Z.div_pos x 10). lia.
  - intros n Hn IH. change (Z.succ n) with (n + 1). unfold tab. rewrite zrange_S, map_app, fold_right_app by lia. cbn [map fold_right].
    assert (G : forall l a, fold_right Z.add a l = fold_right Z.add 0 l + a) by (intros l a; induction l as [|y l IHl]; cbn; lia).
    rewrite G. unfold tab in IH. rewrite IH. rewrite Z.add_0_r, count_split.
    + apply count_ext. intros x Hx'. destruct (Z.ltb_spec (x / 10) n), (Z.eqb_spec (x / 10) n), (Z.ltb_spec (x / 10) (n + 1)); cbn [orb]; lia || reflexivity.
    + intros x Hx' H1 H2. lia.
Qed.
Lemma nth_firstn {A} (l : list A) : forall n k, (k < n)%nat -> nth_error (firstn n l) k = nth_error l k.
Proof. induction l as [|a l IH]; intros [|n] [|k] H; cbn; auto; try lia. apply IH. lia. Qed.
Lemma firstn_tab {A} (f : Z -> A) n k : Z.of_nat k <= n -> firstn k (tab f n) = tab f (Z.of_nat k).
Proof.
  intros H. apply nth_error_ext. intros j. destruct (Nat.lt_ge_cases j k) as [Hj|Hj].
  - rewrite nth_firstn by exact Hj. now rewrite !tab_nth by lia.
  - rewrite !(proj2 (nth_error_None _ _)); [reflexivity|rewrite tab_length; lia|rewrite firstn_length; lia].
Qed.
Lemma sorted_count_below col a : StronglySorted Z.le col -> forall k, (k < List.length col)%nat ->
  (Z.of_nat k < count (fun x => x / 10 <? a) col <-> nth k col 0 / 10 < a).
Proof.
  intros S0. induction S0 as [|x col S1 IH Hx]; intros k Hk; [cbn in Hk; lia|].
  assert (E : count (fun x => x / 10 <? a) (x :: col) = (if x / 10 <? a then 1 else 0) + count (fun x => x / 10 <? a) col)
    by (unfold count; cbn [filter]; destruct (x / 10 <? a); cbn [List.length]; lia).
  assert (C0 : a <= x / 10 -> count (fun x => x / 10 <? a) col = 0).
  { intros Hxa. unfold count. rewrite (proj2 (length_zero_iff_nil _)); [reflexivity|]. clear - Hx Hxa. induction Hx as [|y l Hy Hl IH]; [reflexivity|].
    cbn [filter]. destruct (Z.ltb_spec (y / 10) a); [|apply IH]. pose proof (Z.div_le_mono x y 10 ltac:(lia) Hy). lia. }
  rewrite E. pose proof (count_nonneg (fun x => x / 10 <? a) col). destruct k as [|k].
  - cbn [nth]. destruct (Z.ltb_spec (x / 10) a); lia.
  - cbn [nth]. cbn in Hk. rewrite <- IH by lia. destruct (Z.ltb_spec (x / 10) a); lia.
Qed.
Section Counters.
Context (interval : Z) (Hint : 0 <= interval < 1000).
Let dd := interval / 10.
Lemma dd_bounds : 0 <= dd < 100.
Proof. unfold dd. split; [apply Z.div_pos; lia|apply Z.div_lt_upper_bound; lia]. Qed.

Lemma count_near_ok col : (forall x, In x col -> 0 <= x < 4294967296) -> Z.of_nat (List.length col) < 4294967296 ->
  count_near interval col = Ok (tab (fun c => count (fun x => Z.abs (x / 10 - c) <=? dd) col) (interval + 1)).
Proof.
  pose proof dd_bounds as Hdd. unfold count_near.
  induction col as [|x col IH] using rev_ind; intros Hx Hn.
  - cbn [fold_left]. now rewrite repeat_tab.
  - rewrite fold_left_app. cbn [fold_left]. rewrite IH; [|intros y Hy; apply Hx; apply in_or_app; auto|rewrite app_length in Hn; lia].
    cbn [bind]. change ocr_div with 10. assert (Hx0 : 0 <= x < 4294967296) by (apply Hx; apply in_or_app; right; now left).
    assert (Hq : 0 <= x / 10 < 429496730) by (split; [apply Z.div_pos; lia|apply Z.div_lt_upper_bound; lia]).
    fold dd. rewrite !to_int_id by lia. rewrite app_length in Hn. cbn [List.length] in Hn.
    set (lo := Z.max (x / 10 - dd) 0). set (hi := Z.min (x / 10 + dd) interval).
    assert (Hlen : lo + Z.of_nat (Z.to_nat (hi + 1 - lo)) <= interval + 1 \/ hi + 1 - lo <= 0) by lia.
    destruct Hlen as [Hlen|Hlen].
    + rewrite incr_range; [|lia|lia|].
      * f_equal. apply tab_ext. intros c Hc. rewrite count_snoc.
        destruct (Z.leb_spec lo c), (Z.ltb_spec c (lo + Z.of_nat (Z.to_nat (hi + 1 - lo)))), (Z.leb_spec (Z.abs (x / 10 - c)) dd); cbn [andb]; lia.
      * intros c Hc. pose proof (count_nonneg (fun y => Z.abs (y / 10 - c) <=? dd) col). pose proof (count_le (fun y => Z.abs (y / 10 - c) <=? dd) col). lia.
    + replace (Z.to_nat (hi + 1 - lo)) with 0%nat by lia. cbn [for_up]. f_equal. apply tab_ext. intros c Hc. rewrite count_snoc.
      destruct (Z.leb_spec (Z.abs (x / 10 - c)) dd); lia.
Qed.

Lemma count_equal_ok col : (forall x, In x col -> 0 <= x /\ x / 10 <= interval) -> Z.of_nat (List.length col) < 4294967296 ->
  fold_left (fun acc x => cat <- acc ;; v <- rd cat (x / 10) ;; wr cat (x / 10) (u32 (v + 1))) col (Ok (repeat 0 (Z.to_nat (interval + 1)))) =
  Ok (tab (fun c => count (fun x => x / 10 =? c) col) (interval + 1)).
Proof.
  induction col as [|x col IH] using rev_ind; intros Hx Hn.
  - cbn [fold_left]. now rewrite repeat_tab.
  - rewrite fold_left_app. cbn [fold_left]. rewrite IH; [|intros y Hy; apply Hx; apply in_or_app; auto|rewrite app_length in Hn; lia].
    cbn [bind]. destruct (Hx x ltac:(apply in_or_app; right; now left)) as (Hx0 & Hx1).
    assert (Hq : 0 <= x / 10) by (apply Z.div_pos; lia). rewrite app_length in Hn. cbn [List.length] in Hn.
    rewrite rd_tab by lia. cbn [bind]. rewrite wr_tab by lia. f_equal. apply tab_ext. intros c Hc. rewrite count_snoc.
    pose proof (count_nonneg (fun y => y / 10 =? x / 10) col). pose proof (count_le (fun y => y / 10 =? x / 10) col).
    rewrite u32_small by lia. rewrite (Z.eqb_sym (x / 10) c). destruct (Z.eqb_spec c (x / 10)) as [->|]; [reflexivity|]. lia.
Qed.
Lemma count_below_ok col : (forall x, In x col -> 0 <= x /\ x / 10 <= interval) -> Z.of_nat (List.length col) < 4294967296 ->
  count_below interval col = Ok (tab (fun c => count (fun x => x / 10 <? c - dd) col) (interval + 1)).
Proof.
  intros Hx Hn. pose proof dd_bounds as Hdd. unfold count_below. change ocr_div with 10. rewrite count_equal_ok by assumption. cbn [bind]. fold dd. f_equal.
  assert (Hdi : dd <= interval) by (unfold dd; apply Z.div_le_upper_bound; lia).
  assert (Hx' : forall x, In x col -> 0 <= x) by (intros x H; now apply Hx).
  apply nth_error_ext. intros k. destruct (Nat.lt_ge_cases k (Z.to_nat (interval + 1))) as [Hk|Hk].
  - rewrite tab_nth by exact Hk. destruct (Nat.lt_ge_cases k (Z.to_nat (dd + 1))) as [Hd|Hd].
    + rewrite nth_error_app1 by (rewrite repeat_length; exact Hd). rewrite repeat_tab, tab_nth by exact Hd. f_equal.
      rewrite (count_ext _ (fun _ => false)).
      * unfold count. induction col; cbn; auto. apply IHcol; intros; [apply Hx; now right|cbn in Hn; lia|apply Hx'; now right].
      * intros x H. pose proof (Z.div_pos x 10 (Hx' x H)). destruct (Z.ltb_spec (x / 10) (Z.of_nat k - dd)); [lia|reflexivity].
    + rewrite nth_error_app2 by (rewrite repeat_length; exact Hd). rewrite repeat_length, tab_length.
      rewrite nth_firstn by lia. set (t := tab _ _).
      assert (Ht : forall x, In x t -> 0 <= x) by (intros x H; unfold t, tab in H; apply in_map_iff in H; destruct H as (c & <- & _); apply count_nonneg).
      rewrite (partial_sum_nth t Ht); [|lia| |unfold t; rewrite tab_length; lia].
      * f_equal. unfold t. rewrite firstn_tab by lia. rewrite sum_counts by (assumption || lia). rewrite Z.add_0_l. apply count_ext. intros x _. f_equal. lia.
      * unfold t. rewrite sum_counts by (assumption || lia). pose proof (count_le (fun x => x / 10 <? interval + 1) col). lia.
  - rewrite !(proj2 (nth_error_None _ _)); [reflexivity|rewrite tab_length; lia|].
    rewrite app_length, repeat_length, firstn_length, partial_sum_length, tab_length. lia.
Qed.
End Counters.

(** * The rows of a range of the first feature *)

(** * The masks *)
(** The bits of a mask. *)
Definition bits (m : list Z) (f : Z -> bool) (n : Z) : Prop :=
  n <= 64 * Z.of_nat (List.length m) /\ forall j, 0 <= j < n -> Z.testbit (nth (Z.to_nat (j / 64)) m 0) (j mod 64) = f j.
Lemma word_in m n f j : bits m f n -> 0 <= j < n -> 0 <= j / 64 < Z.of_nat (List.length m).
Proof. intros (H & _) Hj. split; [apply Z.div_pos; lia|apply Z.div_lt_upper_bound; lia]. Qed.
Lemma bits_zero n : 0 <= n -> bits (repeat 0 (Z.to_nat ((n + 63) / 64))) (fun _ => false) n.
Proof.
  intros Hn. split.
  - rewrite repeat_length. rewrite Z2Nat.id by (apply Z.div_pos; lia). pose proof (Z.div_mod (n + 63) 64). pose proof (Z.mod_pos_bound (n + 63) 64). lia.
  - intros j Hj. rewrite nth_repeat. apply Z.testbit_0_l.
Qed.
Lemma set_bit_ok m f n i : bits m f n -> 0 <= i < n -> exists m', set_bit m i = Ok m' /\ List.length m' = List.length m /\
  bits m' (fun j => if j =? i then true else f j) n.
Proof.
  intros H Hi. pose proof (word_in _ _ _ _ H Hi) as Hw. unfold set_bit. rewrite (rd_nth 0) by exact Hw. cbn [bind]. rewrite wr_ok by exact Hw.
  eexists; split; [reflexivity|]. split; [apply upd_length|]. destruct H as (H1 & H2). split; [now rewrite upd_length|]. intros j Hj.
  pose proof (Z.mod_pos_bound i 64 ltac:(lia)). pose proof (Z.mod_pos_bound j 64 ltac:(lia)).
  assert (Hwj : 0 <= j / 64 < Z.of_nat (List.length m)) by (apply (word_in m n f j); [now split|exact Hj]).
  destruct (Z.eq_dec (j / 64) (i / 64)) as [E|E].
  - rewrite E. erewrite nth_error_nth by (apply upd_nth_same; lia). rewrite Z.lor_spec, Z.shiftl_spec by lia. rewrite <- E, H2 by exact Hj.
    destruct (Z.eqb_spec j i) as [->|Hne].
    + rewrite Z.sub_diag. apply orb_true_r.
    + replace (Z.testbit 1 (j mod 64 - i mod 64)) with false; [apply orb_false_r|]. symmetry.
      assert (j mod 64 <> i mod 64) by (intros Em; apply Hne; rewrite (Z.div_mod j 64), (Z.div_mod i 64) by lia; congruence).
      destruct (Z.lt_ge_cases (j mod 64 - i mod 64) 0); [now apply Z.testbit_neg_r|]. change 1 with (2 ^ 0). apply Z.pow2_bits_false. lia.
  - assert (Hn' : nth_error (upd m (Z.to_nat (i / 64)) (Z.lor (nth (Z.to_nat (i / 64)) m 0) (Z.shiftl 1 (i mod 64)))) (Z.to_nat (j / 64)) = nth_error m (Z.to_nat (j / 64)))
      by (apply upd_nth_other; lia).
    rewrite <- H2 by exact Hj. destruct (Z.eqb_spec j i) as [->|Hne]; [congruence|]. f_equal.
    rewrite (nth_error_nth' m 0) in Hn' by lia. now apply nth_error_nth.
Qed.
Lemma bits_ext m f g n : (forall j, 0 <= j < n -> f j = g j) -> bits m f n -> bits m g n.
Proof. intros H (H1 & H2). split; [exact H1|]. intros j Hj. rewrite <- H by exact Hj. now apply H2. Qed.

Lemma mask_ok d value nb shift col : 0 <= nb -> nb + 63 < 4294967296 -> 0 <= shift -> shift + nb <= Z.of_nat (List.length col) ->
  exists m, mask_of_value d value nb shift col = Ok m /\ List.length m = Z.to_nat ((nb + 63) / 64) /\
    bits m (fun i => near d value (nth (Z.to_nat (shift + i)) col 0 / 10)) nb.
Proof.
  intros H1 H2 H3 H4. unfold mask_of_value. rewrite u32_small by lia. change ocr_div with 10.
  destruct (for_up_total (fun i m => x <- rd col (shift + i) ;; if near d value (x / 10) then set_bit m i else Ok m)
    (fun i m => List.length m = Z.to_nat ((nb + 63) / 64) /\
       bits m (fun j => (j <? i) && near d value (nth (Z.to_nat (shift + j)) col 0 / 10)) nb) (Z.to_nat nb) 0)
    with (s := repeat 0 (Z.to_nat ((nb + 63) / 64))) as (m & E & L & B).
  - intros i m Hi (L & B). rewrite (rd_nth 0) by lia. cbn [bind].
    destruct (near d value (nth (Z.to_nat (shift + i)) col 0 / 10)) eqn:En.
    + destruct (set_bit_ok m _ nb i B ltac:(lia)) as (m' & E & L' & B'). exists m'. split; [exact E|]. split; [congruence|].
      eapply bits_ext; [|exact B']. intros j Hj. cbv beta. destruct (Z.eqb_spec j i) as [->|Hne].
      * rewrite En. now destruct (Z.ltb_spec i (i + 1)); [|lia].
      * destruct (Z.ltb_spec j i), (Z.ltb_spec j (i + 1)); cbn [andb]; auto; lia.
    + exists m. split; [reflexivity|]. split; [exact L|]. eapply bits_ext; [|exact B]. intros j Hj. cbv beta.
      destruct (Z.eq_dec j i) as [->|Hne]; [rewrite En; now rewrite !andb_false_r|].
      destruct (Z.ltb_spec j i), (Z.ltb_spec j (i + 1)); cbn [andb]; auto; lia.
  - split; [apply repeat_length|]. eapply bits_ext; [|apply bits_zero; exact H1]. intros j Hj. cbv beta.
    destruct (Z.ltb_spec j 0); [lia|reflexivity].
  - exists m. split; [exact E|]. split; [exact L|]. eapply bits_ext; [|exact B]. intros j Hj. cbv beta.
    destruct (Z.ltb_spec j (0 + Z.of_nat (Z.to_nat nb))); [reflexivity|lia].
Qed.

Lemma and_mask_ok n : forall m a f g, List.length a = List.length m -> bits a f n -> bits m g n ->
  exists r, and_mask a m = Ok r /\ List.length r = List.length m /\ bits r (fun j => f j && g j) n.
Proof.
  intros m a f g L (A1 & A2) (B1 & B2).
  assert (G : forall m a, List.length a = List.length m -> exists r, and_mask a m = Ok r /\ List.length r = List.length m /\
              forall k, nth k r 0 = Z.land (nth k a 0) (nth k m 0)).
  { clear. induction m as [|x m IH]; intros [|y a] L; try discriminate L.
    - exists []. repeat split. intros k. destruct k; reflexivity.
    - destruct (IH a ltac:(cbn in L; lia)) as (r & E & Lr & Hr). cbn [and_mask]. rewrite E. cbn [bind]. eexists; split; [reflexivity|].
      split; [cbn; lia|]. intros [|k]; [reflexivity|]. apply Hr. }
  destruct (G m a L) as (r & E & Lr & Hr). exists r. split; [exact E|]. split; [exact Lr|]. split; [now rewrite Lr|].
  intros j Hj. rewrite Hr, Z.land_spec, A2, B2 by exact Hj. reflexivity.
Qed.
Lemma land_bit w k : 0 <= k -> (Z.land w (Z.shiftl 1 k) =? 0) = negb (Z.testbit w k).
Proof.
  intros Hk. destruct (Z.testbit w k) eqn:E; cbn [negb].
  - apply Z.eqb_neq. intros H. assert (T : Z.testbit (Z.land w (Z.shiftl 1 k)) k = true) by (rewrite Z.land_spec, Z.shiftl_spec, Z.sub_diag, E by lia; reflexivity).
    rewrite H, Z.testbit_0_l in T. discriminate.
  - apply Z.eqb_eq. apply Z.bits_inj'. intros j Hj. rewrite Z.land_spec, Z.testbit_0_l, Z.shiftl_spec by lia.
    destruct (Z.eq_dec j k) as [->|Hne]; [now rewrite E|]. replace (Z.testbit 1 (j - k)) with false; [apply andb_false_r|]. symmetry.
    destruct (Z.lt_ge_cases (j - k) 0); [now apply Z.testbit_neg_r|]. change 1 with (2 ^ 0). apply Z.pow2_bits_false. lia.
Qed.

(** * The search *)
Lemma score_same k v p : k = 1 \/ k = 2 -> p = d0 \/ p = d1 -> score_step k v v p = Ok p.
Proof.
  intros Hk Hp. unfold score_step. rewrite Z.ltb_irrefl, Z.sub_diag. destruct (Z.leb_spec v (v + k / 10)) as [H|H].
  - destruct Hk as [-> | ->], Hp as [-> | ->]; vm_compute; reflexivity.
  - exfalso. destruct Hk as [-> | ->]; cbn in H; lia.
Qed.
Lemma score_other v x : v <> x -> score_step 2 v x d1 = Ok d0.
Proof.
  intros H. unfold score_step. change (2 / 10) with 0. rewrite !Z.add_0_r. destruct (Z.ltb_spec v x).
  - destruct (Z.leb_spec x v); [lia|]. vm_compute; reflexivity.
  - destruct (Z.leb_spec v x); [lia|]. vm_compute; reflexivity.
Qed.
Lemma near_zero v x : near 0 v x = (x =? v).
Proof. unfold near. rewrite !Z.add_0_r. destruct (Z.ltb_spec v x), (Z.eqb_spec x v); try lia; try (apply Z.leb_gt; lia); apply Z.leb_le; lia. Qed.
Lemma algos_split : algos6 = first_feature :: others6. Proof. reflexivity. Qed.
Definition intervals_ok (s : strategy) : bool :=
  (interval6 s / 10 / ocr_div =? 0) && ((interval6 s / ocr_div =? 1) || (interval6 s / ocr_div =? 2)) && (interval6 s =? range s / 10) &&
  existsb (strategy_eqb s) simple_strategies.
Lemma algos_ok s : In s algos6 -> interval6 s / 10 / ocr_div = 0 /\ (interval6 s / ocr_div = 1 \/ interval6 s / ocr_div = 2) /\
  interval6 s = range s / 10 /\ In s simple_strategies.
Proof.
  intros Hs. assert (H : forallb intervals_ok algos6 = true) by (vm_compute; reflexivity). rewrite forallb_forall in H. specialize (H s Hs).
  unfold intervals_ok in H. rewrite !andb_true_iff, orb_true_iff, !Z.eqb_eq, existsb_exists in H. destruct H as (((H1 & H2) & H3) & s' & H4 & H5).
  apply strategy_eqb_eq in H5. subst s'. auto.
Qed.
Lemma others_algos s : In s others6 -> In s algos6. Proof. rewrite algos_split. now right. Qed.
Lemma others_cover s : In s simple_strategies -> s <> first_feature -> In s others6.
Proof.
  intros H Hne. assert (G : forallb (fun s => existsb (strategy_eqb s) (first_feature :: others6)) simple_strategies = true) by (vm_compute; reflexivity).
  rewrite forallb_forall in G. specialize (G s H). apply existsb_exists in G. destruct G as (s' & Hin & E). apply strategy_eqb_eq in E. subst s'.
  destruct Hin as [E|Hin]; [congruence|exact Hin].
Qed.
Lemma others_not_first s : In s others6 -> s <> first_feature.
Proof.
  intros H E. assert (G : forallb (fun s => negb (strategy_eqb s first_feature)) others6 = true) by (vm_compute; reflexivity).
  rewrite forallb_forall in G. specialize (G s H). subst s. rewrite (proj2 (strategy_eqb_eq _ _) eq_refl) in G. discriminate.
Qed.
Lemma zrange_sorted n : StronglySorted Z.lt (zrange n).
Proof.
  unfold zrange. generalize 0%nat. induction (Z.to_nat n) as [|k IH]; intros s; cbn [seq map]; constructor; [apply IH|].
  apply Forall_forall. intros x Hx. apply in_map_iff in Hx. destruct Hx as (y & <- & Hy). apply in_seq in Hy. lia.
Qed.

Section Search.
Context (cols : list (list fval)) (n : Z) (HT : table6 cols n).
Definition colz (s : strategy) : list Z := match get_col all_strategies cols s with Ok c => map num c | _ => [] end.
Definition val (s : strategy) (i : Z) : Z := nth (Z.to_nat i) (colz s) 0.
Lemma all_cols s : In s all_strategies -> exists c, In (s, c) (combine all_strategies cols) /\ get_col all_strategies cols s = Ok c /\ Z.of_nat (List.length c) = n /\
  forall v, In v c -> typed s v.
Proof.
  intros Hs. destruct (get_col_In s all_strategies cols Hs (t6_columns _ _ HT)) as (c & E & Hc). exists c.
  destruct (t6_rows _ _ HT s c Hc). auto.
Qed.
Lemma n_nonneg : 0 <= n.
Proof. destruct (all_cols first_feature) as (c & _ & _ & H & _); [cbv; tauto|lia]. Qed.
Lemma simple_all s : In s simple_strategies -> In s all_strategies.
Proof. intros H. unfold all_strategies. apply in_or_app. now left. Qed.
Lemma simple_val s i : In s simple_strategies -> 0 <= i < n -> 0 <= val s i < 4294967296 /\ cell6 cols s i (VNum (val s i)) /\
  (forall a, cell6 cols s i (VNum a) -> a = val s i) /\
  exists c, get_col all_strategies cols s = Ok c /\ col_at c i = Ok (VNum (val s i)) /\ Z.of_nat (List.length (colz s)) = n.
Proof.
  intros Hs Hi. destruct (all_cols s (simple_all s Hs)) as (c & Hc & Eg & L & Ty).
  assert (Eq : colz s = map num c) by (unfold colz; now rewrite Eg).
  destruct (nth_error c (Z.to_nat i)) as [v|] eqn:E; [|apply nth_error_None in E; lia].
  assert (Ty' : typed s v) by (apply Ty; eapply nth_error_In; exact E).
  assert (Hv : exists k, v = VNum k /\ 0 <= k < 4294967296).
  { clear - Ty' Hs. assert (G : forallb (fun s => match st_algo s with Alternations | Zone | ProportionalityZone => false | _ => true end) simple_strategies = true) by reflexivity.
    rewrite forallb_forall in G. specialize (G s Hs). unfold typed in Ty'. destruct (st_algo s); try discriminate G; exact Ty'. }
  destruct Hv as (k & -> & Hk).
  assert (Ev : val s i = k) by (unfold val; rewrite Eq; erewrite nth_error_nth by (apply map_nth_error; exact E); reflexivity).
  rewrite Ev. split; [exact Hk|]. split; [split; [lia|now exists c]|]. split.
  - intros a (_ & c' & Hc' & E'). assert (c' = c).
    { pose proof (get_col_unique s c' all_strategies cols all_strategies_NoDup Hc'). congruence. }
    subst c'. congruence.
  - exists c. split; [exact Eg|]. split.
    + unfold col_at. destruct (Z.ltb_spec i 0); [lia|]. now rewrite E.
    + rewrite Eq, map_length. exact L.
Qed.
Lemma colz_length s : In s simple_strategies -> Z.of_nat (List.length (colz s)) = n.
Proof. intros Hs. destruct (all_cols s (simple_all s Hs)) as (c & Hc & Eg & L & Ty). unfold colz. now rewrite Eg, map_length. Qed.
Lemma first_simple : In first_feature simple_strategies. Proof. cbv; tauto. Qed.
Lemma colz_In s x : In s simple_strategies -> In x (colz s) -> exists i, 0 <= i < n /\ x = val s i.
Proof.
  intros Hs Hx. pose proof (colz_length s Hs). destruct (In_nth _ _ 0 Hx) as (k & Hk & E). exists (Z.of_nat k). split; [lia|].
  unfold val. now rewrite Nat2Z.id.
Qed.
Lemma first_range i : 0 <= i < n -> 0 <= val first_feature i / 10 <= 20.
Proof.
  intros Hi. destruct (simple_val first_feature i first_simple Hi) as (H1 & H2 & _). split; [apply Z.div_pos; lia|].
  exact (t6_first _ _ HT _ _ H2).
Qed.
Lemma first_sorted : StronglySorted Z.le (colz first_feature).
Proof.
  assert (G : forall i j, 0 <= i <= j -> j < n -> val first_feature i <= val first_feature j).
  { intros i j H1 H2. destruct (simple_val first_feature i first_simple ltac:(lia)) as (_ & A & _). destruct (simple_val first_feature j first_simple ltac:(lia)) as (_ & B & _).
    apply (t6_order _ _ HT i j); auto. lia. }
  pose proof (colz_length first_feature first_simple) as L. unfold val in G. revert G L. generalize n. induction (colz first_feature) as [|x l IH]; intros m G L; constructor.
  - apply (IH (m - 1)); [|cbn [List.length] in L; lia]. intros i j H1 H2. specialize (G (i + 1) (j + 1) ltac:(lia) ltac:(lia)).
    replace (Z.to_nat (i + 1)) with (S (Z.to_nat i)) in G by lia. replace (Z.to_nat (j + 1)) with (S (Z.to_nat j)) in G by lia. exact G.
  - apply Forall_forall. intros y Hy. destruct (In_nth _ _ 0 Hy) as (k & Hk & E). specialize (G 0 (Z.of_nat (S k)) ltac:(lia) ltac:(cbn [List.length] in L; lia)).
    rewrite Nat2Z.id in G. cbn [nth Z.to_nat] in G. now rewrite E in G.
Qed.

Definition nb_of (c : Z) : Z := count (fun x => Z.abs (x / 10 - c) <=? 2) (colz first_feature).
Definition shift_of (c : Z) : Z := count (fun x => x / 10 <? c - 2) (colz first_feature).
Lemma shift_nb c : 0 <= shift_of c /\ 0 <= nb_of c /\ shift_of c + nb_of c <= n /\
  forall i, 0 <= i < n -> (shift_of c <= i < shift_of c + nb_of c <-> Z.abs (val first_feature i / 10 - c) <= 2).
Proof.
  assert (E : shift_of c + nb_of c = count (fun x => x / 10 <? c + 3) (colz first_feature)).
  { unfold shift_of, nb_of. rewrite count_split; cycle 1.
    - intros x _ H1 H2. apply Z.ltb_lt in H1. apply Z.leb_le in H2. lia.
    - apply count_ext. intros x _. destruct (Z.ltb_spec (x / 10) (c - 2)), (Z.leb_spec (Z.abs (x / 10 - c)) 2), (Z.ltb_spec (x / 10) (c + 3)); cbn [orb]; lia || reflexivity. }
  split; [apply count_nonneg|]. split; [apply count_nonneg|]. pose proof (colz_length first_feature first_simple) as L. split.
  - rewrite E, <- L. apply count_le.
  - intros i Hi. rewrite E. pose proof (sorted_count_below _ (c - 2) first_sorted (Z.to_nat i) ltac:(lia)) as A.
    pose proof (sorted_count_below _ (c + 3) first_sorted (Z.to_nat i) ltac:(lia)) as B. rewrite Z2Nat.id in A, B by lia.
    fold (val first_feature i) in A, B. unfold shift_of. lia.
Qed.

Definition mask (c : Z) (s : strategy) (v : Z) : list Z :=
  match mask_of_value 0 v (nb_of c) (shift_of c) (colz s) with Ok m => m | _ => [] end.
Lemma mask_spec c s v : In s simple_strategies ->
  mask_of_value 0 v (nb_of c) (shift_of c) (colz s) = Ok (mask c s v) /\ List.length (mask c s v) = Z.to_nat ((nb_of c + 63) / 64) /\
  bits (mask c s v) (fun i => val s (shift_of c + i) / 10 =? v) (nb_of c).
Proof.
  intros Hs. destruct (shift_nb c) as (H1 & H2 & H3 & _). pose proof (t6_size _ _ HT). pose proof (colz_length s Hs).
  destruct (mask_ok 0 v (nb_of c) (shift_of c) (colz s)) as (m & E & L & B); try lia. unfold mask. rewrite E. repeat split; auto; [apply B|].
  intros j Hj. rewrite (proj2 B j Hj). apply near_zero.
Qed.
Definition masks_for (c : Z) : list (list (list Z)) := map (fun s => tab (mask c s) (interval6 s + 1)) others6.
Definition search : search6 := mks6 (tab nb_of 21) (tab shift_of 21) (tab masks_for 21).
Lemma make_search : make_search6 cols = Ok search.
Proof.
  unfold make_search6. change first6 with first_feature. destruct (all_cols first_feature) as (c & Hc & Eg & L & Ty); [cbv; tauto|].
  rewrite Eg. cbn [bind]. assert (Ec : map num c = colz first_feature) by (unfold colz; now rewrite Eg). rewrite Ec.
  change (interval6 first_feature) with 20. pose proof (t6_size _ _ HT). pose proof (colz_length first_feature first_simple).
  rewrite count_near_ok; [|lia| |lia].
  2:{ intros x Hx. destruct (colz_In _ _ first_simple Hx) as (i & Hi & ->). now destruct (simple_val _ i first_simple Hi). }
  cbn [bind]. rewrite count_below_ok; [|lia| |lia].
  2:{ intros x Hx. destruct (colz_In _ _ first_simple Hx) as (i & Hi & ->). destruct (simple_val _ i first_simple Hi). pose proof (first_range i Hi). lia. }
  cbn [bind]. change (20 / 10) with 2. change (20 + 1) with 21. fold nb_of shift_of.
  unfold vsize. rewrite tab_length, Z2Nat.id by lia.
  rewrite (map_res_ok _ masks_for); [reflexivity|]. intros icat Hi. apply zrange_In in Hi.
  change (tab (fun c0 : Z => count (fun x : Z => Z.abs (x / 10 - c0) <=? 2) (colz first_feature)) 21) with (tab nb_of 21).
  change (tab (fun c0 : Z => count (fun x : Z => x / 10 <? c0 - 2) (colz first_feature)) 21) with (tab shift_of 21).
  rewrite !rd_tab by lia. cbn [bind]. apply map_res_ok. intros s Hs. destruct (algos_ok s (others_algos s Hs)) as (I1 & _ & _ & Hss).
  unfold masks_of. destruct (all_cols s (simple_all s Hss)) as (cs & _ & Es & _). rewrite Es. cbn [bind]. rewrite I1.
  apply map_res_ok. intros v _. replace (map num cs) with (colz s) by (unfold colz; now rewrite Es). apply mask_spec. exact Hss.
Qed.

Context (value : strategy -> Z) (HV : in_range6 value).
Let c0 := value first_feature / 10.
Lemma c0_range : 0 <= c0 <= 20.
Proof. unfold c0. destruct (HV first_feature first_simple) as (A & B). change (range first_feature / 10) with 20 in B. split; [apply Z.div_pos; lia|exact B]. Qed.
Definition same_tenth (s : strategy) (i : Z) : bool := val s i / 10 =? value s / 10.

Lemma and_masks_ok : forall ss a f, (forall s, In s ss -> In s others6) -> List.length a = Z.to_nat ((nb_of c0 + 63) / 64) -> bits a f (nb_of c0) ->
  exists r, and_masks a (map (fun s => tab (mask c0 s) (interval6 s + 1)) ss) (map value ss) = Ok r /\
    bits r (fun i => f i && forallb (fun s => same_tenth s (shift_of c0 + i)) ss) (nb_of c0).
Proof.
  induction ss as [|s ss IH]; intros a f Hss L B; cbn [map and_masks].
  - exists a. split; [reflexivity|]. eapply bits_ext; [|exact B]. intros. cbn [forallb]. now rewrite andb_true_r.
  - destruct (algos_ok s (others_algos s (Hss s (or_introl eq_refl)))) as (I1 & _ & I3 & Hs). destruct (HV s Hs) as (V1 & V2).
    assert (0 <= value s / 10) by (apply Z.div_pos; lia). change ocr_div with 10. unfold tenth in V2. rewrite rd_tab by lia. cbn [bind].
    destruct (mask_spec c0 s (value s / 10) Hs) as (_ & Lm & Bm).
    destruct (and_mask_ok _ _ _ _ _ (eq_trans L (eq_sym Lm)) B Bm) as (r & Er & Lr & Br). rewrite Er. cbn [bind].
    destruct (IH r _ (fun s' H => Hss s' (or_intror H)) (eq_trans Lr Lm) Br) as (r' & E' & B'). exists r'. split; [exact E'|].
    eapply bits_ext; [|exact B']. intros j Hj. cbn [forallb]. unfold same_tenth at 2. now rewrite andb_assoc.
Qed.
Lemma score6_same i p : 0 <= i < n -> p = d0 \/ p = d1 -> forall ss, (forall s, In s ss -> In s algos6 /\ same_tenth s i = true) ->
  score6 cols ss (map value ss) i p = Ok p.
Proof.
  intros Hi Hp. induction ss as [|s ss IH]; intros Hss; cbn [map score6]; [reflexivity|].
  destruct (Hss s (or_introl eq_refl)) as (Hs & E). destruct (algos_ok s Hs) as (_ & I2 & _ & Hsim).
  destruct (simple_val s i Hsim Hi) as (_ & _ & _ & c & Eg & Ec & _). rewrite Eg. cbn [bind]. rewrite Ec. cbn [bind num].
  unfold same_tenth in E. apply Z.eqb_eq in E. change ocr_div with 10 at 2 3. rewrite E.
  rewrite score_same by assumption. cbn [bind]. apply IH. intros s' H. apply Hss. now right.
Qed.
Definition sc (i : Z) : double := if same_tenth first_feature i then d1 else d0.
Lemma score6_ok i : 0 <= i < n -> forallb (fun s => same_tenth s i) others6 = true -> score6 cols algos6 (map value algos6) i d1 = Ok (sc i).
Proof.
  intros Hi Hall. rewrite forallb_forall in Hall. rewrite algos_split. cbn [map score6].
  destruct (simple_val first_feature i first_simple Hi) as (_ & _ & _ & c & Eg & Ec & _). rewrite Eg. cbn [bind]. rewrite Ec. cbn [bind num].
  change (interval6 first_feature / ocr_div) with 2. change ocr_div with 10. unfold sc, same_tenth at 1.
  destruct (Z.eqb_spec (val first_feature i / 10) (value first_feature / 10)) as [E|E].
  - rewrite E. rewrite score_same by auto. cbn [bind]. apply score6_same; auto. intros s Hs. split; [now apply others_algos|now apply Hall].
  - rewrite score_other by congruence. cbn [bind]. apply score6_same; auto. intros s Hs. split; [now apply others_algos|now apply Hall].
Qed.
Definition picked (i : Z) : bool := forallb (fun s => same_tenth s (shift_of c0 + i)) others6.
Lemma candidates_ok : candidates6 n cols search (map value algos6) =
  Ok (map (fun i => mkpr (shift_of c0 + i) (sc (shift_of c0 + i))) (filter picked (zrange (nb_of c0)))).
Proof.
  pose proof c0_range as Hc. destruct (shift_nb c0) as (S1 & S2 & S3 & _). pose proof (t6_size _ _ HT).
  rewrite algos_split. cbn [map]. unfold candidates6. change (value first_feature / ocr_div) with c0. unfold search; cbn [s6_nb s6_shift s6_masks].
  rewrite rd_tab by lia. cbn [bind]. rewrite rd_tab by lia. cbn [bind].
  assert (A : exists r, accepted6 (masks_for c0) (map value others6) = Ok r /\ bits r picked (nb_of c0)).
  { unfold masks_for, picked. assert (Ho : forall s, In s others6 -> In s others6) by auto. assert (Hne : others6 <> []) by discriminate.
    revert Ho Hne. generalize others6 at 1 3 4 5 6. intros [|s ss] Ho Hne; [congruence|]. cbn [map accepted6].
    destruct (algos_ok s (others_algos s (Ho s (or_introl eq_refl)))) as (I1 & _ & I3 & Hs). destruct (HV s Hs) as (V1 & V2).
    assert (0 <= value s / 10) by (apply Z.div_pos; lia). change ocr_div with 10. unfold tenth in V2. rewrite rd_tab by lia. cbn [bind].
    destruct (mask_spec c0 s (value s / 10) Hs) as (_ & Lm & Bm).
    destruct (and_masks_ok ss _ _ (fun s' H => Ho s' (or_intror H)) Lm Bm) as (r & Er & Br). exists r. split; [exact Er|]. exact Br. }
  destruct A as (r & Er & Br). rewrite Er. cbn [bind]. rewrite rd_tab by lia. cbn [bind].
  destruct (for_up_total
    (fun i ps => w <- rd r (i / 64) ;; if Z.land w (Z.shiftl 1 (i mod 64)) =? 0 then Ok ps
       else p <- score6 cols (first_feature :: others6) (value first_feature :: map value others6) (shift_of c0 + i) d1 ;; emit n ps (mkpr (u32 (shift_of c0 + i)) p))
    (fun i ps => ps = map (fun i => mkpr (shift_of c0 + i) (sc (shift_of c0 + i))) (filter picked (zrange i))) (Z.to_nat (nb_of c0)) 0)
    with (s := @nil prob) as (ps & E & P).
  - intros i ps Hi ->. pose proof (word_in _ _ _ i Br ltac:(lia)) as W. pose proof (proj2 Br i ltac:(lia)) as B.
    rewrite (rd_nth 0 r (i / 64) W). cbn [bind]. rewrite land_bit by (apply Z.mod_pos_bound; lia). rewrite B.
    rewrite zrange_S by lia. rewrite filter_app, map_app. cbn [filter]. destruct (picked i) eqn:Ep; cbn [negb map].
    + change (score6 cols (first_feature :: others6) (value first_feature :: map value others6) (shift_of c0 + i) d1) with (score6 cols algos6 (map value algos6) (shift_of c0 + i) d1).
      rewrite score6_ok; [|lia|exact Ep]. cbn [bind]. rewrite emit_ok.
      * rewrite u32_small by lia. eexists. split; reflexivity.
      * rewrite map_length. pose proof (filter_len picked (zrange i)) as F. rewrite zrange_length in F. lia.
    + rewrite app_nil_r. eexists. split; reflexivity.
  - reflexivity.
  - replace (0 + Z.of_nat (Z.to_nat (nb_of c0))) with (nb_of c0) in P by lia. rewrite <- P. exact E.
Qed.

Lemma candidates_exact : exists ps, candidates6 n cols search (map value algos6) = Ok ps /\ found_candidates cols n value ps.
Proof.
  eexists. split; [exact candidates_ok|]. destruct (shift_nb c0) as (S1 & S2 & S3 & S4). split; [|split].
  - rewrite map_map. cbn [pr_i]. generalize (zrange_sorted (nb_of c0)). induction (zrange (nb_of c0)) as [|x l IH]; intros H; cbn [filter map]; [constructor|].
    apply StronglySorted_inv in H. destruct H as (H1 & H2). destruct (picked x); [|now apply IH]. cbn [map]. constructor; [now apply IH|].
    rewrite Forall_forall in *. intros y Hy. apply in_map_iff in Hy. destruct Hy as (z & <- & Hz). apply filter_In in Hz. specialize (H2 z (proj1 Hz)). lia.
  - intros i. rewrite map_map. cbn [pr_i]. rewrite in_map_iff. split.
    + intros (j & <- & Hj). apply filter_In in Hj. destruct Hj as (Hj & Pj). apply zrange_In in Hj. assert (Hi : 0 <= shift_of c0 + j < n) by lia.
      split; [exact Hi|]. split.
      * intros a Ha. destruct (simple_val _ _ first_simple Hi) as (_ & _ & U & _). rewrite (U a Ha). unfold tenth. apply (S4 _ Hi). lia.
      * intros s a Hs Hne Ha. destruct (simple_val _ _ Hs Hi) as (_ & _ & U & _). rewrite (U a Ha). unfold picked in Pj. rewrite forallb_forall in Pj.
        apply Z.eqb_eq. exact (Pj s (others_cover s Hs Hne)).
    + intros (Hi & H1 & H2). exists (i - shift_of c0). split; [lia|]. apply filter_In.
      destruct (simple_val _ _ first_simple Hi) as (_ & C & _). specialize (H1 _ C). unfold tenth in H1. apply (S4 _ Hi) in H1. split; [apply zrange_In; lia|].
      unfold picked. apply forallb_forall. intros s Hs. replace (shift_of c0 + (i - shift_of c0)) with i by lia.
      destruct (algos_ok s (others_algos s Hs)) as (_ & _ & _ & Hss). destruct (simple_val _ _ Hss Hi) as (_ & C' & _). apply Z.eqb_eq.
      exact (H2 s _ Hss (others_not_first s Hs) C').
  - intros p Hp a Ha. apply in_map_iff in Hp. destruct Hp as (j & <- & Hj). cbn [pr_i pr_p] in *. apply filter_In in Hj. destruct Hj as (Hj & _).
    apply zrange_In in Hj. destruct (simple_val _ (shift_of c0 + j) first_simple ltac:(lia)) as (_ & _ & U & _). rewrite (U a Ha). reflexivity.
Qed.
End Search.

Theorem search6_exact cols n : table6 cols n -> exists sd, make_search6 cols = Ok sd /\
  forall value, in_range6 value -> exists ps, candidates6 n cols sd (map value algos6) = Ok ps /\ found_candidates cols n value ps.
Proof. intros HT. eexists. split; [exact (make_search cols n HT)|]. intros value HV. exact (candidates_exact cols n HT value HV). Qed.
