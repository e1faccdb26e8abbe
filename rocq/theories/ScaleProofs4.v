(** The characters of an image that is enlarged. *)
From Verif Require Import Base BaseProofs ImageModel ImageSpec ImageProofs BoxModel BoxSpec BoxProofs ExtractSpec MarginProofs ScaleSpec ScaleProofs.

Section Scaled.
Context (j k : Z) (a b : image) (Hj : 0 < j) (Hk : 0 < k) (HS : scaled j k a b).
Lemma block_of m x : 0 < m -> m * x / m = x.
Proof. intros. rewrite Z.mul_comm, Z.div_mul; lia. Qed.
Lemma scaled_col c : col_has_ink b c <-> col_has_ink a (c / j).
Proof.
  split; intros (y & I).
  - exists (y / k). now rewrite <- (scaled_ink j k a b HS).
  - exists (k * y). rewrite (scaled_ink j k a b HS), block_of by exact Hk. exact I.
Qed.
Lemma scaled_row x0 x1 r : row_has_ink b (j * x0) (j * x1) r <-> row_has_ink a x0 x1 (r / k).
Proof.
  split; intros (x & Hx & I).
  - exists (x / j). rewrite <- (scaled_ink j k a b HS). split; [|exact I]. split; [apply Z.div_le_lower_bound; lia|apply Z.div_lt_upper_bound; lia].
  - exists (j * x). rewrite (scaled_ink j k a b HS), block_of by exact Hj. split; [nia|exact I].
Qed.
Lemma near_div y y' : y - 1 <= y' <= y + 1 -> y / k - 1 <= y' / k <= y / k + 1.
Proof.
  intros H. assert (L : (y - k) / k = y / k - 1) by (replace (y - k) with (y + (-1) * k) by lia; rewrite Z.div_add by lia; lia).
  assert (U : (y + k) / k = y / k + 1) by (replace (y + k) with (y + 1 * k) by lia; rewrite Z.div_add by lia; lia).
  rewrite <- L, <- U. split; apply Z.div_le_mono; lia.
Qed.
Lemma scaled_edge q : col_linked b (j * q + (j - 1)) <-> col_linked a q.
Proof.
  replace (j * q + (j - 1)) with (j * (q + 1) - 1) by lia. assert (E1 : (j * (q + 1) - 1) / j = q) by (replace (j * (q + 1) - 1) with (j * q + (j - 1)) by lia; apply div_block; lia).
  assert (E2 : (j * (q + 1) - 1 + 1) / j = q + 1) by (replace (j * (q + 1) - 1 + 1) with (j * (q + 1)) by lia; now apply block_of).
  split; intros (y & y' & I1 & I2 & N).
  - rewrite (scaled_ink j k a b HS), E1 in I1. rewrite (scaled_ink j k a b HS), E2 in I2. exists (y / k), (y' / k). split; [exact I1|]. split; [exact I2|now apply near_div].
  - unfold col_linked. assert (C : y' = y \/ y' = y + 1 \/ y' = y - 1) by lia.
    assert (Q : forall u, (k * (u + 1) - 1) / k = u) by (intros u; replace (k * (u + 1) - 1) with (k * u + (k - 1)) by lia; apply div_block; lia).
    destruct C as [-> | [-> | ->]].
    + exists (k * y), (k * y). rewrite !(scaled_ink j k a b HS), E1, E2, block_of by exact Hk. repeat split; [exact I1|exact I2|lia|lia].
    + exists (k * (y + 1) - 1), (k * (y + 1)). rewrite !(scaled_ink j k a b HS), E1, E2, Q, block_of by exact Hk. repeat split; [exact I1|exact I2|lia|lia].
    + exists (k * y), (k * (y - 1 + 1) - 1). rewrite !(scaled_ink j k a b HS), E1, E2, Q, block_of by exact Hk. repeat split; [exact I1|exact I2|lia|lia].
Qed.
Lemma scaled_inner q c : 0 <= c < j - 1 -> col_has_ink a q -> col_linked b (j * q + c).
Proof.
  intros Hc (y & I). exists (k * y), (k * y). rewrite !(scaled_ink j k a b HS), block_of by exact Hk. replace (j * q + c + 1) with (j * q + (c + 1)) by lia.
  rewrite !div_block by lia. repeat split; [exact I|exact I|lia|lia].
Qed.
Context (BE : blank_edge a).
Lemma edge_blank : ~ col_has_ink a (iw a - 1).
Proof. intros (y & I). now rewrite BE in I. Qed.
Lemma scaled_range c u v : j * u <= c < j * v -> u <= c / j < v.
Proof. intros H. split; [apply Z.div_le_lower_bound; lia|apply Z.div_lt_upper_bound; lia]. Qed.
Lemma tight_scaled s t : tight_box a s t -> tight_box b (j * s) (scaled_box j k t).
Proof.
  intros T. destruct HS as (EW & EH & _). unfold tight_box in *. unfold scaled_box. cbn [bx by_ bw bh].
  destruct T as (A1 & A2 & A3 & A4 & A5 & A6 & A7 & A8 & A9 & A10 & A11 & A12 & A13). rewrite EW, EH.
  replace (j * bx t + j * bw t) with (j * (bx t + bw t)) by lia. replace (k * by_ t + k * bh t) with (k * (by_ t + bh t)) by lia.
  split; [nia|]. split; [nia|]. split; [nia|]. split; [apply scaled_col; rewrite block_of by exact Hj; exact A4|].
  split; [intros c Hc K; apply scaled_col in K; exact (A5 (c / j) (scaled_range c _ _ Hc) K)|]. split; [nia|]. split.
  { intros c Hc. pose proof (Z.div_mod c j ltac:(lia)) as E. pose proof (Z.mod_pos_bound c j Hj) as M. pose proof (scaled_range c (bx t) (bx t + bw t) ltac:(lia)) as R. rewrite E. set (q := c / j) in *.
    destruct (Z.eq_dec (c mod j) (j - 1)) as [L|L].
    - rewrite L in E |- *. apply scaled_edge, A7. split; [lia|]. destruct (Z.eq_dec q (bx t + bw t - 1)) as [Eq'|]; [|lia]. exfalso. rewrite Eq' in E. lia.
    - apply scaled_inner; [lia|]. destruct (Z.eq_dec q (bx t)) as [->|N]; [exact A4|]. destruct (A7 (q - 1) ltac:(lia)) as (y & y' & _ & I & _). exists y'. now replace q with (q - 1 + 1) by lia. }
  split.
  { intros _ K. replace (j * (bx t + bw t) - 1) with (j * (bx t + bw t - 1) + (j - 1)) in K by lia. apply scaled_edge in K.
    destruct (Z.ltb_spec (bx t + bw t) (iw a - 1)) as [Q|Q]; [exact (A8 Q K)|]. destruct K as (y & y' & _ & K & _).
    apply edge_blank. exists y'. replace (iw a - 1) with (bx t + bw t - 1 + 1) by lia. exact K. }
  split; [nia|]. split; [nia|]. split; [apply scaled_row; rewrite block_of by exact Hk; exact A11|].
  split.
  { apply scaled_row. replace (k * (by_ t + bh t) - 1) with (k * (by_ t + bh t - 1) + (k - 1)) by lia. rewrite div_block by lia. exact A12. }
  intros r K. apply scaled_row, A13 in K. pose proof (Z.div_mod r k ltac:(lia)) as E. pose proof (Z.mod_pos_bound r k Hk) as M. nia.
Qed.
Lemma boxes_scaled s l : read_boxes a s l -> read_boxes b (j * s) (map (scaled_box j k) l).
Proof.
  induction 1 as [s N|s t rest T R IH]; cbn [map].
  - constructor. intros c Hc K. apply scaled_col in K. rewrite (proj1 HS) in Hc. pose proof (scaled_range c s (iw a) ltac:(lia)) as R.
    destruct (Z.eq_dec (c / j) (iw a - 1)) as [E|E]; [rewrite E in K; exact (edge_blank K)|]. apply (N (c / j)); [lia|exact K].
  - constructor; [exact (tight_scaled s t T)|]. cbn [scaled_box bx bw]. replace (j * bx t + j * bw t) with (j * (bx t + bw t)) by lia. exact IH.
Qed.
Context (Sa : box_searchable a) (Sb : box_searchable b).
Theorem segment_scaled boxes : segment a = Ok boxes -> segment b = Ok (map (scaled_box j k) boxes).
Proof.
  intros E. destruct (segment_ok a Sa) as (l & E1 & R). rewrite E in E1. injection E1 as <-. destruct (segment_ok b Sb) as (l' & E2 & R'). rewrite E2. f_equal.
  apply (read_boxes_unique b 0 l' R'). pose proof (boxes_scaled 0 boxes R) as Q. now rewrite Z.mul_0_r in Q.
Qed.
Theorem chars_scaled t im im' : char_image a t im -> char_image b (scaled_box j k t) im' -> scaled j k im im'.
Proof.
  intros (W1 & W2 & W3 & W4) (V1 & V2 & V3 & V4). cbn [scaled_box bx by_ bw bh] in *. split; [now rewrite V2, W2|]. split; [now rewrite V3, W3|]. intros x y.
  destruct (Z.leb_spec 0 x), (Z.ltb_spec x (j * bw t)), (Z.leb_spec 0 y), (Z.ltb_spec y (k * bh t)).
  2-16: unfold pix; rewrite V2, V3, W2, W3;
    replace ((0 <=? x) && (x <? j * bw t) && (0 <=? y) && (y <? k * bh t)) with false by (symmetry; repeat (apply Bool.andb_false_iff; (left + right)); rewrite ?Z.leb_gt, ?Z.ltb_ge; lia);
    destruct ((0 <=? x / j) && (x / j <? bw t) && (0 <=? y / k) && (y / k <? bh t)) eqn:Q; [exfalso|reflexivity];
    apply andb_true_iff in Q as (Q & Q4); apply andb_true_iff in Q as (Q & Q3); apply andb_true_iff in Q as (Q1 & Q2); apply Z.leb_le in Q1, Q3; apply Z.ltb_lt in Q2, Q4;
    pose proof (proj1 (mul_bound j (bw t) x Hj) (conj Q1 Q2)); pose proof (proj1 (mul_bound k (bh t) y Hk) (conj Q3 Q4)); lia.
  rewrite V4 by lia. destruct HS as (_ & _ & P). rewrite P. assert (Ex : (j * bx t + x) / j = bx t + x / j) by (rewrite Z.mul_comm, Z.div_add_l by lia; reflexivity).
  assert (Ey : (k * by_ t + y) / k = by_ t + y / k) by (rewrite Z.mul_comm, Z.div_add_l by lia; reflexivity). rewrite Ex, Ey. symmetry. apply W4; apply mul_bound; lia.
Qed.
End Scaled.
