From Verif Require Import Base BaseProofs ImageModel ImageSpec ImageProofs BoxModel BoxSpec BoxProofs StratModel StratFeatures3 ShowModel Ocr6Model Ocr6Proofs AssertModel AssertSpec.

(** * Images *)

Lemma index_iff img x y :
  wf_image img -> 1 <= iw img -> 0 <= x -> 0 <= y -> y * iw img + x < 4294967296 ->
  assert_index img x y = true <-> y * iw img + x < iw img * ih img.
Proof.
  intros (_ & Hh & Ha & _) Hw Hx Hy Hs. unfold assert_index, to_size_t.
  rewrite (u32_small (y * iw img)) by nia. rewrite !u32_small by nia. apply Z.ltb_lt.
Qed.

Lemma range_ok img y :
  wf_image img -> 0 <= y <= ih img -> assert_range img 0 y = true.
Proof.
  intros (Hw & Hh & Ha & _) Hy. unfold assert_range, to_size_t.
  rewrite (u32_small (y * iw img)) by nia. rewrite !u32_small by nia. apply Z.leb_le. nia.
Qed.

Lemma section_ok img x y w h :
  wf_image img -> 0 <= x -> 0 < w -> x + w <= iw img -> 0 <= y -> 0 < h -> y + h <= ih img ->
  assert_section img x y w h = true.
Proof.
  intros (Hw & Hh & _ & _) Hx Hw' Hxw Hy Hh' Hyh. unfold assert_section, bounds_contains. cbn [fst snd].
  rewrite !u32_small by lia. rewrite !andb_true_iff, !Z.ltb_lt, !Z.leb_le. lia.
Qed.

Lemma section_iff img x y w h :
  wf_image img -> 0 <= x -> 0 <= w -> 0 <= y -> 0 <= h -> x + w < 4294967296 -> y + h < 4294967296 ->
  (assert_section img x y w h = true <-> x < iw img /\ y < ih img /\ x + w <= iw img /\ y + h <= ih img).
Proof.
  intros _ Hx Hw Hy Hh Hxw Hyh. unfold assert_section, bounds_contains. cbn [fst snd].
  rewrite !u32_small by lia. rewrite !andb_true_iff, !Z.ltb_lt, !Z.leb_le. lia.
Qed.

(** * Segmentation *)

Lemma all_true_app a b : all_true (a ++ b) <-> all_true a /\ all_true b.
Proof.
  unfold all_true. split.
  - intros H. split; intros x Hx; apply H, in_or_app; auto.
  - intros (H1 & H2) x Hx. apply in_app_or in Hx. destruct Hx; auto.
Qed.
Lemma all_true_cons a b : all_true (a :: b) <-> a = true /\ all_true b.
Proof.
  unfold all_true. split.
  - intros H. split; [apply H; now left|]. intros x Hx. apply H. now right.
  - intros (H1 & H2) x [<-|Hx]; auto.
Qed.
Lemma all_true_nil : all_true [].
Proof. intros x []. Qed.

Section Boxes.
Context (img : image) (Hs : box_searchable img).

Definition asserts_step :=
  (fun '(x, out) =>
       a <- make_box_asserts img x 0 (iw img) (ih img) ;;
       cbox <- make_box_character img x 0 (iw img) (ih img) ;;
       if box_bool cbox
       then Ok (inl (u32 (bx cbox + bw cbox), out ++ a ++ [assert_section img (bx cbox) (by_ cbox) (bw cbox) (bh cbox)]))
       else Ok (inr (out ++ a))) : Z * list bool -> res (Z * list bool + list bool).

Lemma first_index s : 0 <= s < iw img -> assert_index img s 0 = true.
Proof.
  intros H. destruct Hs as (Hw & H1 & H2 & H3). apply index_iff; auto; nia.
Qed.

Lemma asserts_loop :
  forall fuel s out, 0 <= s < iw img -> iw img - s < Z.of_nat fuel ->
  exists rest, loop fuel asserts_step (s, out) = Ok (out ++ rest) /\
    (all_true rest <-> 2 <= ih img \/ col_has_ink img (iw img - 1)).
Proof.
  pose proof (bs_facts img Hs) as (HW & HH & HA).
  induction fuel as [|f IH]; intros s out Hsx Hf; [lia|].
  cbn [loop]. unfold asserts_step at 1.
  destruct (find_column_ok img Hs s) as (x & Ex & Hx & Hno & Hyes); [lia|].
  unfold make_box_asserts. rewrite Ex. cbn [bind].
  destruct (make_box_spec img Hs s) as (b & Eb & [(Hn & H0 & H1)|Ht]); [lia| |]; rewrite Eb; cbn [bind].
  - replace (box_bool b) with false by (unfold box_bool; rewrite H0; reflexivity).
    eexists. split; [reflexivity|]. rewrite !all_true_cons. rewrite (first_index s) by lia.
    rewrite (index_iff img x 0) by (try lia; apply Hs).
    destruct (Z.eq_dec x (iw img)) as [->|Hne].
    + split.
      * intros (_ & Hlt & _). left. nia.
      * intros [H2|H2]; [split; [reflexivity|]; split; [nia|apply all_true_nil]|].
        exfalso. apply (Hno (iw img - 1)); [lia|exact H2].
    + split.
      * intros _. right. assert (Hx' : x < iw img) by lia.
        destruct (Z.eq_dec x (iw img - 1)) as [<-|Hne']; [apply Hyes; lia|].
        exfalso. apply (Hn x); [lia|apply Hyes; lia].
      * intros _. split; [reflexivity|]. split; [nia|apply all_true_nil].
  - pose proof (tight_nonempty _ _ _ Ht) as Hne. apply box_bool_iff in Hne. rewrite Hne.
    assert (Hb : s <= bx b /\ 0 < bw b /\ bx b + bw b < iw img) by (unfold tight_box in Ht; lia).
    rewrite u32_small by lia.
    destruct (IH (bx b + bw b) (out ++ [assert_index img s 0; assert_index img x 0] ++
        [assert_section img (bx b) (by_ b) (bw b) (bh b)])) as (rest & E & Hr); [lia|lia|].
    exists ([assert_index img s 0; assert_index img x 0] ++ [assert_section img (bx b) (by_ b) (bw b) (bh b)] ++ rest).
    split; [rewrite <- !app_assoc in E; exact E|].
    rewrite <- Hr. cbn [app]. rewrite !all_true_cons. rewrite (first_index s) by lia.
    assert (Hx' : x < iw img).
    { destruct (Z.eq_dec x (iw img)) as [->|Hne']; [|lia]. exfalso.
      unfold tight_box in Ht. apply (Hno (bx b)); [lia|]. apply Ht. }
    rewrite (first_index x) by lia.
    rewrite section_ok; [tauto|apply Hs|..]; unfold tight_box in Ht; lia.
Qed.

Lemma segment_asserts_ok :
  exists l, segment_asserts img = Ok l /\
    (all_true l <-> 2 <= ih img \/ col_has_ink img (iw img - 1)).
Proof.
  pose proof (bs_facts img Hs) as (HW & HH & HA).
  destruct (asserts_loop (S (Z.to_nat (iw img))) 0 []) as (l & E & H); [lia|lia|].
  exists l. split; [exact E|exact H].
Qed.
End Boxes.

Lemma clone_asserts_ok img : wf_image img ->
  (all_true (clone_asserts img) <-> 0 < iw img /\ 0 < ih img).
Proof.
  intros Hw. unfold clone_asserts. rewrite all_true_cons. pose proof Hw as (H1 & H2 & _).
  rewrite section_iff by (auto; lia). pose proof all_true_nil. intuition lia.
Qed.

(** * Features *)

Lemma features_asserts_ok img img90 :
  wf_image img -> 1 <= iw img -> 1 <= ih img ->
  wf_image img90 -> iw img90 = ih img -> ih img90 = iw img ->
  all_true (middle_asserts img ++ middle_asserts img90 ++ corner_asserts img ++ corner_asserts img90 ++
            alternation_asserts img img90).
Proof.
  assert (M : forall i, wf_image i -> 1 <= iw i -> 1 <= ih i ->
    all_true (middle_asserts i) /\ all_true (corner_asserts i)).
  { intros i Hw H1 H2. pose proof Hw as (A & B & C & _).
    unfold middle_asserts, corner_asserts. rewrite !all_true_cons.
    assert (D : 0 <= ih i / 2 < ih i) by (split; [apply Z.div_pos; lia|apply Z.div_lt_upper_bound; lia]).
    rewrite !u32_small by lia. rewrite !index_iff by (auto; nia).
    refine (conj (conj _ all_true_nil) (conj _ (conj _ all_true_nil))); nia. }
  intros Hw H1 H2 Hw9 Ew Eh.
  destruct (M img Hw H1 H2) as (M1 & M2). destruct (M img90 Hw9) as (M3 & M4); [lia|lia|].
  rewrite !all_true_app. split; [exact M1|]. split; [exact M3|]. split; [exact M2|]. split; [exact M4|].
  pose proof Hw as (A & B & C & _). pose proof Hw9 as (A9 & B9 & _).
  unfold alternation_asserts. rewrite all_true_app. split.
  - destruct (Z.ltb_spec (ih img) 2) as [L|L]; [apply all_true_nil|].
    rewrite all_true_cons. split; [|apply all_true_nil]. apply range_ok; [exact Hw|].
    split; [apply Z.div_pos; lia|]. apply Z.div_le_upper_bound; lia.
  - assert (T : forall h, 0 <= h / 3 <= h \/ h < 0).
    { intros h. destruct (Z.lt_ge_cases h 0); [now right|left]. split; [apply Z.div_pos; lia|apply Z.div_le_upper_bound; lia]. }
    rewrite !all_true_cons.
    refine (conj _ (conj _ (conj _ (conj _ (conj _ (conj _ all_true_nil)))))); (apply range_ok; [assumption|]).
    + assert (R : forall z, 0 <= u32 z < 4294967296) by (intros z; apply u32_range).
      split; [apply Z.div_pos; [apply R|lia]|].
      destruct (Z.lt_ge_cases (ih img * 2) 4294967296) as [L|L].
      * rewrite (u32_small (ih img * 2)) by lia. rewrite u32_small by lia. apply Z.div_le_upper_bound; lia.
      * pose proof (R (u32 (ih img * 2) - 1)). apply Z.div_le_upper_bound; lia.
    + lia.
    + pose proof (T (ih img)). lia.
    + rewrite u32_small by lia. split; [apply Z.div_pos; lia|apply Z.div_le_upper_bound; lia].
    + pose proof (T (ih img90)). lia.
    + lia.
Qed.

(** * Relationships *)

Lemma relation_assert_ok i a b :
  0 < i -> 100 * i < 4294967296 -> 0 <= a <= i -> 0 <= b <= i -> relation_assert a b i = Ok true.
Proof.
  intros Hi Hb Ha Hbb. unfold relation_assert. pose proof (interval_compute_ok i a b Hi Hb Ha Hbb) as E.
  unfold interval_compute in E. rewrite E. cbn [bind]. f_equal. apply Z.leb_le.
  assert (0 <= 100 * Z.abs (a - b) / i) by (apply Z.div_pos; lia). lia.
Qed.

Lemma relation_assert_iff i a b :
  0 < i -> 0 <= a < 4294967296 -> 0 <= b < 4294967296 -> 100 * Z.abs (a - b) < 4294967296 ->
  exists v, relation_assert a b i = Ok v /\ (v = true <-> 100 * Z.abs (a - b) < 101 * i).
Proof.
  intros Hi Ha Hb Hd. unfold relation_assert, compute_relationship.
  replace (if a <? b then b - a else a - b) with (Z.abs (a - b)) by (destruct (Z.ltb_spec a b); lia).
  rewrite u32_small by lia. rewrite divu_ok by lia. cbn [bind].
  eexists. split; [reflexivity|]. rewrite Z.leb_le, (Z.mul_comm _ 100).
  assert (Q : 0 <= 100 * Z.abs (a - b) / i < 4294967296).
  { split; [apply Z.div_pos; lia|apply Z.div_lt_upper_bound; nia]. }
  set (q := 100 * Z.abs (a - b) / i) in *.
  assert (E : q <= 100 <-> 100 * Z.abs (a - b) < 101 * i).
  { assert (Q2 : q < 101 <-> 100 * Z.abs (a - b) < 101 * i); [|lia].
    unfold q. split; intros H.
    - pose proof (Z.mul_succ_div_gt (100 * Z.abs (a - b)) i Hi). nia.
    - apply Z.div_lt_upper_bound; lia. }
  rewrite <- E. destruct (Z.le_gt_cases q 100) as [L|L].
  - rewrite u32_small by lia. lia.
  - replace (u32 (100 - q)) with (100 - q + 4294967296); [lia|].
    unfold u32. rewrite <- (Z.mod_small (100 - q + 4294967296) 4294967296) by lia.
    rewrite Zplus_mod, Z_mod_same_full, Z.add_0_r, Zmod_mod. reflexivity.
Qed.

(** * The groups of extract_text6 *)

Lemma last_tab {A} (f : Z -> A) n d : 0 <= n -> last (tab f (n + 1)) d = f n.
Proof.
  intros Hn. assert (L : List.length (tab f (n + 1)) = S (Z.to_nat n)) by (rewrite tab_length; lia).
  assert (N : nth_error (tab f (n + 1)) (Z.to_nat n) = Some (f n)) by (rewrite tab_nth by lia; f_equal; f_equal; lia).
  revert L N. generalize (tab f (n + 1)). generalize (Z.to_nat n). intros k l. revert k.
  induction l as [|x l IH]; intros k L N; [discriminate|]. destruct l as [|y l].
  - destruct k; [injection N as <-; reflexivity|]. cbn in L. lia.
  - destruct k as [|k]; [cbn in L; lia|]. cbn [nth_error] in N. change (last (x :: y :: l) d) with (last (y :: l) d).
    apply (IH k); [cbn [List.length] in L |- *; lia|exact N].
Qed.

Lemma groups_assert_ok interval col :
  0 <= interval < 1000 -> (forall x, In x col -> 0 <= x /\ x / 10 <= interval) ->
  Z.of_nat (List.length col) < 4294967296 -> groups_assert interval col = Ok true.
Proof.
  intros Hi Hx Hn. unfold groups_assert.
  rewrite count_near_ok; [|exact Hi| |exact Hn].
  2: { intros x Hin. specialize (Hx x Hin). split; [lia|].
       pose proof (Z.mul_succ_div_gt x 10 ltac:(lia)). lia. }
  cbn [bind]. rewrite count_below_ok; [|exact Hi|exact Hx|exact Hn]. cbn [bind].
  rewrite !last_tab by lia.
  rewrite count_split.
  - rewrite (count_ext _ (fun _ => true)).
    + assert (E : count (fun _ => true) col = Z.of_nat (List.length col)).
      { unfold count. f_equal. clear. induction col as [|x l IH]; [reflexivity|]. cbn [filter List.length]. now rewrite IH. }
      rewrite E. rewrite u32_small by lia. now rewrite Z.eqb_refl.
    + intros x Hin. destruct (Hx x Hin) as (_ & Hl).
      destruct (Z.ltb_spec (x / 10) (interval - interval / 10)), (Z.leb_spec (Z.abs (x / 10 - interval)) (interval / 10)); cbn [orb]; lia || reflexivity.
  - intros x _ H1 H2. apply Z.ltb_lt in H1. apply Z.leb_le in H2. lia.
Qed.
