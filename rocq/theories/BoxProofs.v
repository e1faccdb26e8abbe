(** Proofs about make_box_character and the segmentation loop. *)
From Verif Require Import Base BaseProofs ImageModel ImageSpec ImageProofs BoxModel BoxSpec.

Section Scan.
Variable img : image.
Hypothesis Hs : box_searchable img.
Let W := iw img.
Let H := ih img.

Lemma bs_wf : wf_image img. Proof. exact (proj1 Hs). Qed.

Lemma bs_facts : 1 <= W < 4294967296 /\ 1 <= H < 4294967296 /\ W * H + W < 4294967296.
Proof. destruct Hs as ((Hw & Hh & _) & H1 & H2 & H3). subst W H. lia. Qed.

Lemma rd_ink x y :
  0 <= x < W -> 0 <= y < H ->
  exists p, rd (idata img) (y * W + x) = Ok p /\ is_pix_letter p = ink img x y.
Proof.
  intros Hx Hy. exists (pget img x y). split.
  - apply rd_pix; auto using bs_wf.
  - symmetry. apply ink_pget; auto using bs_wf.
Qed.

Lemma horizontal_empty_ok x y w :
  0 <= x -> 0 <= w -> x + w <= W -> 0 <= y < H ->
  exists b, horizontal_empty (idata img) (y * W + x) w = Ok b /\
    (b = true -> forall c, x <= c < x + w -> ink img c y = false) /\
    (b = false -> exists c, x <= c < x + w /\ ink img c y = true).
Proof.
  intros Hx Hw Hxw Hy. unfold horizontal_empty.
  edestruct (@loop_total Z bool) with
    (I := fun d => exists k, d = y * W + (x + k) /\ 0 <= k <= w /\
            forall c, x <= c < x + k -> ink img c y = false)
    (m := fun d => Z.to_nat (y * W + x + w - d))
    (Q := fun b : bool =>
       (b = true -> forall c, x <= c < x + w -> ink img c y = false) /\
       (b = false -> exists c, x <= c < x + w /\ ink img c y = true))
    as (b & E & HQ).
  4: { exists b. split; [exact E|exact HQ]. }
  2: { exists 0. split; [lia|]. split; [lia|]. intros; lia. }
  2: { cbv beta iota; lia. }
  cbv beta. intros d (k & -> & Hk & Hc).
  destruct (Z.eqb_spec (y * W + (x + k)) (y * W + x + w)) as [Eq|Ne].
  - replace k with w in * by lia. split; [auto|discriminate].
  - destruct (rd_ink (x + k) y) as (p & Ep & Hp); [lia|lia|].
    rewrite Ep; simpl. rewrite Hp. destruct (ink img (x + k) y) eqn:Ei.
    + split; [discriminate|]. intros _. exists (x + k). split; [lia|exact Ei].
    + split; [|lia]. exists (k + 1). split; [lia|]. split; [lia|].
      intros c Hc'. destruct (Z.eq_dec c (x + k)) as [->|]; [exact Ei|]. apply Hc; lia.
Qed.

Lemma vertical_empty_ok x :
  0 <= x < W ->
  exists b, vertical_empty (idata img) x W H = Ok b /\
    (b = true -> ~ col_has_ink img x) /\ (b = false -> col_has_ink img x).
Proof.
  intros Hx. pose proof bs_facts as (HW & HH & HA).
  unfold vertical_empty. rewrite u32_small by nia.
  edestruct (@loop_total Z bool) with
    (I := fun d => exists k, d = k * W + x /\ 0 <= k <= H /\
            forall r, 0 <= r < k -> ink img x r = false)
    (m := fun d => Z.to_nat (H - (d - x) / W))
    (Q := fun b : bool =>
       (b = true -> ~ col_has_ink img x) /\ (b = false -> col_has_ink img x))
    as (b & E & HQ).
  4: { exists b. split; [exact E|exact HQ]. }
  2: { exists 0. split; [lia|]. split; [lia|]. intros; lia. }
  2: { replace (x - x) with 0 by lia. rewrite Z.div_0_l by lia. lia. }
  cbv beta. intros d (k & -> & Hk & Hc).
  destruct (Z.eqb_spec (k * W + x) (x + W * H)) as [Eq|Ne].
  - assert (k = H) by nia. subst k. split; [|discriminate].
    intros _ (r & Hr). pose proof (ink_inside _ _ _ Hr) as (_ & Hr').
    rewrite Hc in Hr; [discriminate|exact Hr'].
  - assert (k <> H) by (intro; subst; lia).
    destruct (rd_ink x k) as (p & Ep & Hp); [lia|lia|].
    rewrite Ep; simpl. rewrite Hp. destruct (ink img x k) eqn:Ei.
    + split; [discriminate|]. intros _. exists k. exact Ei.
    + split.
      * exists (k + 1). split; [lia|]. split; [lia|].
        intros r Hr. destruct (Z.eq_dec r k) as [->|]; [exact Ei|]. apply Hc; lia.
      * replace (k * W + x + W - x) with ((k + 1) * W) by lia.
        replace (k * W + x - x) with (k * W) by lia.
        rewrite !Z.div_mul by lia. lia.
Qed.

Definition linked_at x k : bool :=
  ink img x k && (ink img (x + 1) k || ink img (x + 1) (k - 1) || ink img (x + 1) (k + 1)).

Lemma linked_at_linked x k : linked_at x k = true -> col_linked img x.
Proof.
  unfold linked_at. intros E. apply andb_prop in E as [E1 E2].
  apply orb_prop in E2 as [E2|E2]; [apply orb_prop in E2 as [E2|E2]|].
  - exists k, k; repeat split; auto; lia.
  - exists k, (k - 1); repeat split; auto; lia.
  - exists k, (k + 1); repeat split; auto; lia.
Qed.

Lemma linked_linked_at x : col_linked img x -> exists k, 0 <= k < H /\ linked_at x k = true.
Proof.
  intros (y & y' & E1 & E2 & Hy). exists y. split.
  - apply (ink_inside _ _ _ E1).
  - unfold linked_at. rewrite E1. simpl.
    assert (y' = y \/ y' = y - 1 \/ y' = y + 1) as [->|[->| ->]] by lia; rewrite E2; lia.
Qed.

Lemma disconnected_ok x :
  0 <= x -> x + 1 < W ->
  exists b, disconnected (idata img) x W H = Ok b /\
    (b = true -> ~ col_linked img x) /\ (b = false -> col_linked img x).
Proof.
  intros Hx Hx1. pose proof bs_facts as (HW & HH & HA).
  unfold disconnected. rewrite u32_small by nia.
  edestruct (@loop_total Z bool) with
    (I := fun d => exists k, d = k * W + x /\ 0 <= k <= H /\
            forall r, 0 <= r < k -> linked_at x r = false)
    (m := fun d => Z.to_nat (H - (d - x) / W))
    (Q := fun b : bool =>
       (b = true -> ~ col_linked img x) /\ (b = false -> col_linked img x))
    as (b & E & HQ).
  4: { exists b. split; [exact E|exact HQ]. }
  2: { exists 0. split; [lia|]. split; [lia|]. intros; lia. }
  2: { replace (x - x) with 0 by lia. rewrite Z.div_0_l by lia. lia. }
  cbv beta. intros d (k & -> & Hk & Hc).
  destruct (Z.eqb_spec (k * W + x) (x + W * H)) as [Eq|Ne].
  - assert (k = H) by nia. subst k. split; [|discriminate].
    intros _ Hl. apply linked_linked_at in Hl as (r & Hr & Er).
    rewrite Hc in Er; [discriminate|exact Hr].
  - assert (k <> H) by (intro; subst; lia).
    assert (Hstep : linked_at x k = false ->
      (exists k0, k * W + x + W = k0 * W + x /\ 0 <= k0 <= H /\
         (forall r, 0 <= r < k0 -> linked_at x r = false)) /\
      (Z.to_nat (H - (k * W + x + W - x) / W) < Z.to_nat (H - (k * W + x - x) / W))%nat).
    { intros Ei. split.
      - exists (k + 1). split; [lia|]. split; [lia|].
        intros r Hr. destruct (Z.eq_dec r k) as [->|]; [exact Ei|]. apply Hc; lia.
      - replace (k * W + x + W - x) with ((k + 1) * W) by lia.
        replace (k * W + x - x) with (k * W) by lia.
        rewrite !Z.div_mul by lia. lia. }
    destruct (rd_ink x k) as (p & Ep & Hp); [lia|lia|].
    rewrite Ep; simpl. rewrite Hp. destruct (ink img x k) eqn:Ei.
    2: { apply Hstep. unfold linked_at. now rewrite Ei. }
    (* right neighbour *)
    replace (negb (k * W + x + 1 =? x + W * H)) with true by nia.
    destruct (rd_ink (x + 1) k) as (p1 & Ep1 & Hp1); [lia|lia|].
    replace (k * W + x + 1) with (k * W + (x + 1)) by lia. rewrite Ep1; simpl. rewrite Hp1.
    destruct (ink img (x + 1) k) eqn:E1.
    { split; [discriminate|]. intros _. apply (linked_at_linked x k).
      unfold linked_at. rewrite Ei, E1. reflexivity. }
    (* upper right neighbour *)
    assert (Hb : exists b, (if 0 <=? k * W + x - W + 1
        then q <- rd (idata img) (k * W + x - W + 1);; Ok (is_pix_letter q) else Ok false) = Ok b /\
        b = ink img (x + 1) (k - 1)).
    { destruct (Z.eq_dec k 0) as [->|Hk0].
      - replace (0 <=? 0 * W + x - W + 1) with false by nia. exists false. split; [reflexivity|].
        destruct (ink img (x + 1) (0 - 1)) eqn:E2; [|reflexivity].
        apply ink_inside in E2. lia.
      - replace (0 <=? k * W + x - W + 1) with true by nia.
        destruct (rd_ink (x + 1) (k - 1)) as (p2 & Ep2 & Hp2); [lia|lia|].
        replace (k * W + x - W + 1) with ((k - 1) * W + (x + 1)) by lia.
        rewrite Ep2. simpl. eauto. }
    destruct Hb as (b1 & Eb1 & Hb1). rewrite Eb1; simpl.
    destruct b1.
    { split; [discriminate|]. intros _. apply (linked_at_linked x k).
      unfold linked_at. rewrite Ei, <- Hb1. simpl. lia. }
    (* lower right neighbour *)
    assert (Hb : exists b, (if k * W + x + W + 1 <? x + W * H
        then q <- rd (idata img) (k * W + x + W + 1);; Ok (is_pix_letter q) else Ok false) = Ok b /\
        b = ink img (x + 1) (k + 1)).
    { destruct (Z.eq_dec k (H - 1)) as [->|Hk0].
      - replace ((H - 1) * W + x + W + 1 <? x + W * H) with false by nia. exists false. split; [reflexivity|].
        destruct (ink img (x + 1) (H - 1 + 1)) eqn:E2; [|reflexivity].
        apply ink_inside in E2. subst H. lia.
      - replace (k * W + x + W + 1 <? x + W * H) with true by nia.
        destruct (rd_ink (x + 1) (k + 1)) as (p2 & Ep2 & Hp2); [lia|lia|].
        replace (k * W + x + W + 1) with ((k + 1) * W + (x + 1)) by lia.
        rewrite Ep2. simpl. eauto. }
    destruct Hb as (b2 & Eb2 & Hb2). rewrite Eb2; simpl.
    destruct b2.
    { split; [discriminate|]. intros _. apply (linked_at_linked x k).
      unfold linked_at. rewrite Ei, <- Hb2. simpl. lia. }
    apply Hstep. unfold linked_at. rewrite Ei, E1, <- Hb1, <- Hb2. reflexivity.
Qed.

Lemma find_column_ok s :
  0 <= s <= W ->
  exists x, find_column img s 0 W H = Ok (x, x) /\ s <= x <= W /\
    (forall c, s <= c < x -> ~ col_has_ink img c) /\ (x < W -> col_has_ink img x).
Proof.
  intros Hsx. pose proof bs_facts as (HW & HH & HA).
  unfold find_column.
  rewrite (to_size_t_wf img s 0 bs_wf) by (fold W; nia).
  fold W. replace (0 * W + s) with s by lia.
  edestruct (@loop_total (Z * Z) (Z * Z)) with
    (I := fun '((x, d) : Z * Z) => d = x /\ s <= x <= W /\ forall c, s <= c < x -> ~ col_has_ink img c)
    (m := fun '((x, d) : Z * Z) => Z.to_nat (W - x))
    (Q := fun '((x, d) : Z * Z) => d = x /\ s <= x <= W /\ (forall c, s <= c < x -> ~ col_has_ink img c)
          /\ (x < W -> col_has_ink img x))
    as ((x & d) & E & HQ).
  4: { destruct HQ as (-> & HQ). exists x. split; [exact E|exact HQ]. }
  2: { split; [reflexivity|]. split; [lia|]. intros; lia. }
  2: { cbv beta iota; lia. }
  intros (x & d) (-> & Hx & Hc). destruct (Z.ltb_spec x W) as [Hlt|Hge].
  - destruct (vertical_empty_ok x) as (b & Eb & Ht & Hf); [lia|].
    rewrite Eb; simpl. destruct b.
    + split; [|lia]. split; [reflexivity|]. split; [lia|].
      intros c Hc'. destruct (Z.eq_dec c x) as [->|]; [auto|]. apply Hc; lia.
    + split; [reflexivity|]. split; [lia|]. split; [exact Hc|]. intros _; auto.
  - split; [reflexivity|]. split; [lia|]. split; [exact Hc|]. intros; lia.
Qed.

Lemma find_end_last x : W - 1 <= x <= W -> find_end img x x W H = Ok x.
Proof.
  intros Hx. pose proof bs_facts as (HW & HH & HA).
  unfold find_end. cbn [loop].
  rewrite u32_small by nia.
  destruct (Z.ltb_spec (x + 1) W); [lia|]. reflexivity.
Qed.

Lemma find_end_ok x :
  0 <= x -> x + 1 < W ->
  exists e, find_end img x x W H = Ok e /\ x < e < W /\
    (forall c, x <= c < e - 1 -> col_linked img c) /\
    (e < W - 1 -> ~ col_linked img (e - 1)).
Proof.
  intros Hx Hx1. pose proof bs_facts as (HW & HH & HA).
  unfold find_end.
  edestruct (@loop_total (Z * Z) Z) with
    (I := fun '((w, d) : Z * Z) => d = w /\ x <= w < W /\
            (forall c, x <= c < w -> col_linked img c) )
    (m := fun '((w, d) : Z * Z) => Z.to_nat (W - w))
    (Q := fun e => x < e < W /\
        (forall c, x <= c < e - 1 -> col_linked img c) /\
        (e < W - 1 -> ~ col_linked img (e - 1)))
    as (e & E & HQ).
  4: { exists e. split; [exact E|exact HQ]. }
  2: { split; [reflexivity|]. split; [lia|]. intros; lia. }
  2: { cbv beta iota; lia. }
  intros (w & d) (-> & Hw & Hc). rewrite u32_small by nia.
  destruct (Z.ltb_spec (w + 1) W) as [Hlt|Hge].
  - destruct (disconnected_ok w) as (b & Eb & Ht & Hf); [lia|lia|].
    cbv zeta. rewrite Eb; simpl. destruct b.
    + split; [lia|]. split.
      * intros c Hc'. apply Hc; lia.
      * intros _. replace (w + 1 - 1) with w by lia. auto.
    + split; [|lia]. split; [reflexivity|]. split; [lia|].
      intros c Hc'. destruct (Z.eq_dec c w) as [->|]; [auto|]. apply Hc; lia.
  - split; [lia|]. split; [|lia]. intros c Hc'. apply Hc; lia.
Qed.

Lemma find_top_ok x w :
  0 <= x -> 0 <= w -> x + w <= W ->
  exists y, find_top img x 0 w W H = Ok y /\ 0 <= y <= H /\
    (forall r, 0 <= r < y -> ~ row_has_ink img x (x + w) r) /\
    (y < H -> row_has_ink img x (x + w) y).
Proof.
  intros Hx Hw Hxw. pose proof bs_facts as (HW & HH & HA).
  unfold find_top.
  rewrite (to_size_t_wf img x 0 bs_wf) by (fold W; nia). fold W.
  edestruct (@loop_total (Z * Z) Z) with
    (I := fun '((y, d) : Z * Z) => d = y * W + x /\ 0 <= y <= H /\
       forall r, 0 <= r < y -> ~ row_has_ink img x (x + w) r)
    (m := fun '((y, d) : Z * Z) => Z.to_nat (H - y))
    (Q := fun y => 0 <= y <= H /\ (forall r, 0 <= r < y -> ~ row_has_ink img x (x + w) r) /\
       (y < H -> row_has_ink img x (x + w) y))
    as (y & E & HQ).
  4: { exists y. split; [exact E|exact HQ]. }
  2: { split; [reflexivity|]. split; [lia|]. intros; lia. }
  2: { cbv beta iota; lia. }
  intros (y & d) (-> & Hy & Hc).
  destruct (Z.ltb_spec y H) as [Hlt|Hge].
  - destruct (horizontal_empty_ok x y w) as (b & Eb & Ht & Hf); [lia..|].
    rewrite Eb; simpl. destruct b.
    + split; [|lia]. split; [lia|]. split; [lia|].
      intros r Hr. destruct (Z.eq_dec r y) as [->|]; [|apply Hc; lia].
      intros (c & Hcr & Ec). rewrite Ht in Ec; [discriminate|auto|exact Hcr].
    + split; [lia|]. split; [exact Hc|]. intros _. destruct Hf as (c & Hcr & Ec); [reflexivity|].
      exists c; auto.
  - split; [lia|]. split; [exact Hc|]. intros; lia.
Qed.

Lemma find_bottom_ok x y w :
  0 <= x -> 0 <= w -> x + w <= W -> 0 <= y < H ->
  exists h, find_bottom img x y w W H = Ok h /\ y <= h < H /\
    (forall r, h < r < H -> ~ row_has_ink img x (x + w) r) /\
    (y < h -> row_has_ink img x (x + w) h).
Proof.
  intros Hx Hw Hxw Hy. pose proof bs_facts as (HW & HH & HA).
  unfold find_bottom.
  rewrite (to_size_t_wf img x H bs_wf) by (fold W; nia). fold W.
  edestruct (@loop_total (Z * Z) Z) with
    (I := fun '((h, d) : Z * Z) => d = h * W + x /\ y < h <= H /\
       forall r, h <= r < H -> ~ row_has_ink img x (x + w) r)
    (m := fun '((h, d) : Z * Z) => Z.to_nat h)
    (Q := fun h => y <= h < H /\ (forall r, h < r < H -> ~ row_has_ink img x (x + w) r) /\
       (y < h -> row_has_ink img x (x + w) h))
    as (h & E & HQ).
  4: { exists h. split; [exact E|exact HQ]. }
  2: { split; [reflexivity|]. split; [lia|]. intros; lia. }
  2: { cbv beta iota; lia. }
  intros (h & d) (-> & Hh & Hc). cbv zeta. rewrite u32_small by lia.
  destruct (Z.ltb_spec y (h - 1)) as [Hlt|Hge].
  - replace (h * W + x - W) with ((h - 1) * W + x) by lia.
    destruct (horizontal_empty_ok x (h - 1) w) as (b & Eb & Ht & Hf); [lia..|].
    rewrite Eb; simpl. destruct b.
    + split; [|lia]. split; [lia|]. split; [lia|].
      intros r Hr. destruct (Z.eq_dec r (h - 1)) as [->|]; [|apply Hc; lia].
      intros (c & Hcr & Ec). rewrite Ht in Ec; [discriminate|auto|exact Hcr].
    + split; [lia|]. split.
      * intros r Hr. apply Hc; lia.
      * intros _. destruct Hf as (c & Hcr & Ec); [reflexivity|]. exists c; auto.
  - split; [lia|]. split; [|lia]. intros r Hr. apply Hc; lia.
Qed.

(** With no row left, the search stops at once. *)
Lemma find_bottom_none x w :
  0 <= x <= W -> find_bottom img x H w W H = Ok (H - 1).
Proof.
  intros Hx. pose proof bs_facts as (HW & HH & HA).
  unfold find_bottom. cbn [loop]. cbv zeta. rewrite u32_small by lia.
  destruct (Z.ltb_spec H (H - 1)); [lia|]. reflexivity.
Qed.

Lemma make_box_spec s :
  0 <= s <= W ->
  exists b, make_box_character img s 0 W H = Ok b /\
    (((forall c, s <= c < W - 1 -> ~ col_has_ink img c) /\ bw b = 0 /\ bh b = 0) \/
     tight_box img s b).
Proof.
  intros Hsx. pose proof bs_facts as (HW & HH & HA).
  unfold make_box_character.
  destruct (find_column_ok s Hsx) as (x & E1 & Hx & Hb & Hi). rewrite E1; cbn [bind].
  destruct (Z.leb_spec (W - 1) x) as [Hlast|Hin].
  - rewrite find_end_last by lia. cbn [bind]. cbv zeta.
    replace (x - x) with 0 by lia. rewrite (u32_small 0) by lia.
    destruct (find_top_ok x 0) as (y & E2 & Hy & Hyb & Hyi); [lia..|].
    rewrite E2; cbn [bind].
    assert (y = H).
    { destruct (Z.eq_dec y H); [assumption|].
      destruct Hyi as (c & Hc & _); lia. }
    subst y. rewrite find_bottom_none by lia. cbn [bind].
    eexists; split; [reflexivity|]. left. simpl. split; [|split; [reflexivity|]].
    + intros c Hc. apply Hb. lia.
    + replace (H - 1 - H) with (-1) by lia. reflexivity.
  - destruct (find_end_ok x) as (e & E2 & He & Hl & Hm); [lia..|].
    rewrite E2; cbn [bind]. cbv zeta. rewrite (u32_small (e - x)) by lia.
    destruct (find_top_ok x (e - x)) as (y & E3 & Hy & Hyb & Hyi); [lia..|].
    rewrite E3; cbn [bind].
    destruct (Hi ltac:(lia)) as (r0 & Hr0).
    assert (Hrow : row_has_ink img x (x + (e - x)) r0) by (exists x; split; [lia|exact Hr0]).
    pose proof (ink_inside _ _ _ Hr0) as (_ & Hr0').
    fold H in Hr0'.
    assert (y < H).
    { destruct (Z.eq_dec y H); [|lia]. exfalso. apply (Hyb r0); [lia|exact Hrow]. }
    destruct (find_bottom_ok x y (e - x)) as (h & E4 & Hh & Hhb & Hhi); [lia..|].
    rewrite E4; cbn [bind].
    rewrite (u32_small (h - y)) by lia. rewrite u32_small by lia.
    eexists; split; [reflexivity|]. right. unfold tight_box; cbn [bx by_ bw bh].
    fold W H.
    replace (x + (e - x)) with e in * by lia.
    repeat split; try lia.
    + exists r0; exact Hr0.
    + exact Hb.
    + exact Hl.
    + intros Hlt. auto.
    + auto.
    + replace (y + (h - y + 1) - 1) with h by lia.
      destruct (Z.eq_dec y h) as [->|]; [auto|]. apply Hhi; lia.
    + destruct (Z.leb_spec y r); [lia|]. exfalso.
      destruct H1 as (c & Hc & Ec). pose proof (ink_inside _ _ _ Ec) as (_ & Hr).
      apply (Hyb r); [lia|]. exists c; auto.
    + destruct (Z.ltb_spec h r); [|lia]. exfalso.
      destruct H1 as (c & Hc & Ec). pose proof (ink_inside _ _ _ Ec) as (_ & Hr).
      fold H in Hr. apply (Hhb r); [lia|]. exists c; auto.
Qed.

End Scan.

Lemma tight_nonempty img s b : tight_box img s b -> nonempty_box b.
Proof. unfold tight_box, nonempty_box. intuition lia. Qed.

Lemma box_bool_iff b : box_bool b = true <-> nonempty_box b.
Proof. unfold box_bool, nonempty_box. lia. Qed.

Lemma segment_loop img :
  box_searchable img ->
  forall fuel s acc, 0 <= s <= iw img -> iw img - s < Z.of_nat fuel ->
  exists rest,
    loop fuel
      (fun '(x, boxes) =>
       cbox <- make_box_character img x 0 (iw img) (ih img) ;;
       if box_bool cbox then Ok (inl (u32 (bx cbox + bw cbox), boxes ++ [cbox]))
       else Ok (inr boxes)) (s, acc) = Ok (acc ++ rest) /\ read_boxes img s rest.
Proof.
  intros Hs. induction fuel as [|f IH]; intros s acc Hsx Hf; [lia|].
  cbn [loop].
  destruct (make_box_spec img Hs s Hsx) as (b & Eb & [(Hn & H0 & H1)|Ht]); rewrite Eb; cbn [bind].
  - replace (box_bool b) with false by (unfold box_bool; rewrite H0; reflexivity).
    exists []. rewrite app_nil_r. split; [reflexivity|]. constructor. exact Hn.
  - pose proof (tight_nonempty _ _ _ Ht) as Hne. apply box_bool_iff in Hne. rewrite Hne.
    pose proof (bs_facts img Hs) as (HW & _).
    assert (Hb : s <= bx b /\ 0 < bw b /\ bx b + bw b < iw img) by (unfold tight_box in Ht; lia).
    rewrite u32_small by lia.
    destruct (IH (bx b + bw b) (acc ++ [b])) as (rest & E & Hr); [lia|lia|].
    exists (b :: rest). rewrite <- app_assoc in E. split; [exact E|]. constructor; assumption.
Qed.

Lemma segment_ok img :
  box_searchable img -> exists boxes, segment img = Ok boxes /\ read_boxes img 0 boxes.
Proof.
  intros Hs. pose proof (bs_facts img Hs) as (HW & _).
  destruct (segment_loop img Hs (S (Z.to_nat (iw img))) 0 []) as (rest & E & Hr); [lia|lia|].
  exists rest. split; [exact E|exact Hr].
Qed.

Lemma read_boxes_facts img s boxes :
  read_boxes img s boxes ->
  Forall (fun b => s <= bx b /\ 0 < bw b /\ 0 < bh b /\ 0 <= by_ b /\
                   bx b + bw b <= iw img - 1 /\ by_ b + bh b <= ih img) boxes /\
  ForallOrdPairs (fun a b => bx a + bw a <= bx b) boxes /\
  (s < iw img -> Z.of_nat (List.length boxes) <= iw img - 1 - s).
Proof.
  induction 1 as [s Hn|s b rest Ht Hr (IH1 & IH2 & IH3)].
  - split; [constructor|]. split; [constructor|]. simpl; lia.
  - assert (Hb : s <= bx b /\ 0 < bw b /\ 0 < bh b /\ 0 <= by_ b /\ bx b + bw b < iw img /\
        by_ b + bh b <= ih img) by (unfold tight_box in Ht; intuition lia).
    split; [|split].
    + constructor; [lia|]. eapply Forall_impl; [|exact IH1]. simpl; intros; lia.
    + constructor; [|exact IH2]. eapply Forall_impl; [|exact IH1]. simpl; intros; lia.
    + cbn [List.length]. lia.
Qed.

Lemma linked_ink img c : col_linked img c -> col_has_ink img c.
Proof. intros (y & y' & H & _). exists y; exact H. Qed.

Lemma read_boxes_cover img s boxes :
  read_boxes img s boxes ->
  forall x y, s <= x < iw img - 1 -> ink img x y = true -> exists b, In b boxes /\ in_box b x y.
Proof.
  induction 1 as [s Hn|s b rest Ht Hr IH]; intros x y Hx Hi.
  - exfalso. apply (Hn x Hx). exists y; exact Hi.
  - unfold tight_box in Ht.
    destruct Ht as (H1 & H2 & H3 & H4 & H5 & H6 & H7 & H8 & H9 & H10 & H11 & H12 & H13).
    destruct (Z.ltb_spec x (bx b)) as [Hlt|Hge].
    + exfalso. apply (H5 x); [lia|]. exists y; exact Hi.
    + destruct (Z.ltb_spec x (bx b + bw b)) as [Hlt2|Hge2].
      * exists b. split; [now left|]. split; [lia|]. apply H13. exists x; split; [lia|exact Hi].
      * destruct (IH x y) as (b' & Hb' & Hin); [lia|exact Hi|]. exists b'; split; [now right|exact Hin].
Qed.

Lemma segment_order img :
  box_searchable img ->
  exists boxes, segment img = Ok boxes /\ read_boxes img 0 boxes /\
    Z.of_nat (List.length boxes) <= iw img - 1 /\
    Forall (fun b => nonempty_box b /\ 0 <= bx b /\ bx b + bw b <= iw img /\
                     0 <= by_ b /\ by_ b + bh b <= ih img) boxes /\
    ForallOrdPairs (fun a b => bx a + bw a <= bx b) boxes.
Proof.
  intros Hs. destruct (segment_ok img Hs) as (boxes & E & Hr).
  pose proof (read_boxes_facts _ _ _ Hr) as (F1 & F2 & F3).
  pose proof (bs_facts img Hs) as (HW & _).
  exists boxes. split; [exact E|]. split; [exact Hr|]. split; [|split; [|exact F2]].
  - specialize (F3 ltac:(lia)). lia.
  - eapply Forall_impl; [|exact F1]. unfold nonempty_box; simpl; intros; lia.
Qed.

Lemma segment_coverage img :
  box_searchable img ->
  exists boxes, segment img = Ok boxes /\
    forall x y, ink img x y = true ->
      ((exists b, In b boxes /\ in_box b x y) <-> x < iw img - 1).
Proof.
  intros Hs. destruct (segment_ok img Hs) as (boxes & E & Hr).
  exists boxes. split; [exact E|]. intros x y Hi. split.
  - intros (b & Hb & Hin).
    pose proof (read_boxes_facts _ _ _ Hr) as (F1 & _).
    rewrite Forall_forall in F1. specialize (F1 b Hb). unfold in_box in Hin. lia.
  - intros Hx. apply (read_boxes_cover _ _ _ Hr); [|exact Hi].
    apply ink_inside in Hi. lia.
Qed.

Lemma read_boxes_tight img s boxes b : read_boxes img s boxes -> In b boxes -> exists s', tight_box img s' b.
Proof. induction 1 as [|s b' rest Ht Hr IH]; intros Hb; [easy|]. destruct Hb as [->|Hb]; eauto. Qed.

(** The sides of a box that was found are its outermost columns and rows. *)
Lemma segment_sides img boxes b : box_searchable img -> segment img = Ok boxes -> In b boxes ->
  (forall x y, in_box b x y <-> bx b <= x <= box_right b /\ box_top b <= y <= box_bottom b) /\
  col_has_ink img (bx b) /\ col_has_ink img (box_right b) /\
  row_has_ink img (bx b) (box_right b + 1) (box_top b) /\ row_has_ink img (bx b) (box_right b + 1) (box_bottom b).
Proof.
  intros Hs E Hb. pose proof Hs as (_ & Hw & Hh & Ha).
  destruct (segment_ok img Hs) as (l & E' & Hr). assert (l = boxes) by congruence. subst l.
  pose proof (read_boxes_facts _ _ _ Hr) as (F1 & _ & _). rewrite Forall_forall in F1. specialize (F1 b Hb).
  destruct (read_boxes_tight _ _ _ _ Hr Hb) as (s & _ & Hbw & Hbh & Hc & _ & Hin & Hl & _ & Hy & Hy' & Ht & Hbt & _).
  assert (Ex : 0 <= bx b) by lia.
  assert (Er : box_right b = bx b + bw b - 1) by (unfold box_right; apply u32_small; nia).
  assert (Eb : box_bottom b = by_ b + bh b - 1) by (unfold box_bottom; apply u32_small; nia).
  rewrite Er, Eb. unfold box_top. replace (bx b + bw b - 1 + 1) with (bx b + bw b) by lia.
  split; [intros x y; unfold in_box; lia|]. split; [exact Hc|]. split; [|split; assumption].
  destruct (Z.eq_dec (bw b) 1) as [->|]; [now replace (bx b + 1 - 1) with (bx b) by lia|].
  destruct (Hl (bx b + bw b - 2) ltac:(lia)) as (y & y' & _ & H & _). exists y'.
  now replace (bx b + bw b - 1) with (bx b + bw b - 2 + 1) by lia.
Qed.
