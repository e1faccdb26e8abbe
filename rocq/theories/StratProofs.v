(** Proofs about the scanning features. *)
From Verif Require Import Base BaseProofs ImageModel ImageSpec ImageProofs StratModel StratSpec.

(** * Sums *)

Lemma fold_add_app (l l' : list Z) :
  fold_right Z.add 0 (l ++ l') = fold_right Z.add 0 l + fold_right Z.add 0 l'.
Proof. induction l; simpl; lia. Qed.

Lemma zsum_0 f n : n <= 0 -> zsum f n = 0.
Proof. intros H. unfold zsum. now rewrite zrange_0. Qed.

Lemma zsum_S f n : 0 <= n -> zsum f (n + 1) = zsum f n + f n.
Proof.
  intros H. unfold zsum. rewrite zrange_S by exact H.
  rewrite map_app, fold_add_app. simpl. lia.
Qed.

Lemma zsum_1 f : zsum f 1 = f 0.
Proof. unfold zsum. simpl. lia. Qed.

Lemma zsum_ind (P : Z -> Prop) :
  (forall n, n <= 0 -> P n) -> (forall n, 0 <= n -> P n -> P (n + 1)) -> forall n, P n.
Proof.
  intros H0 HS n. destruct (Z.leb_spec n 0); [auto|].
  replace n with (Z.of_nat (Z.to_nat n)) by lia.
  induction (Z.to_nat n) as [|m IH]; [apply H0; lia|].
  replace (Z.of_nat (S m)) with (Z.of_nat m + 1) by lia. apply HS; [lia|exact IH].
Qed.

Lemma zsum_ext f g n : (forall i, 0 <= i < n -> f i = g i) -> zsum f n = zsum g n.
Proof.
  revert n. refine (zsum_ind _ _ _).
  - intros n Hn _. now rewrite !zsum_0.
  - intros n Hn IH H. rewrite !zsum_S by exact Hn. rewrite IH, (H n) by (auto; lia || (intros; apply H; lia)).
    reflexivity.
Qed.

Lemma zsum_le f g n : (forall i, 0 <= i < n -> f i <= g i) -> zsum f n <= zsum g n.
Proof.
  revert n. refine (zsum_ind _ _ _).
  - intros n Hn _. rewrite !zsum_0; lia.
  - intros n Hn IH H. rewrite !zsum_S by exact Hn.
    specialize (IH ltac:(intros; apply H; lia)). specialize (H n ltac:(lia)). lia.
Qed.

Lemma zsum_const c n : 0 <= n -> zsum (fun _ => c) n = c * n.
Proof.
  revert n. refine (zsum_ind _ _ _).
  - intros n Hn Hn'. replace n with 0 by lia. rewrite zsum_0; lia.
  - intros n Hn IH _. rewrite zsum_S, IH by lia. lia.
Qed.

Lemma zsum_zero f n : (forall i, 0 <= i < n -> f i = 0) -> zsum f n = 0.
Proof.
  intros H. destruct (Z.leb_spec n 0); [apply zsum_0; lia|].
  rewrite (zsum_ext f (fun _ => 0)) by exact H. rewrite zsum_const; lia.
Qed.

Lemma zsum_nonneg f n : (forall i, 0 <= i < n -> 0 <= f i) -> 0 <= zsum f n.
Proof.
  intros H. destruct (Z.leb_spec n 0); [rewrite zsum_0; lia|].
  rewrite <- (Z.mul_0_l n) at 1. rewrite <- zsum_const by lia. apply zsum_le; auto.
Qed.

Lemma zsum_mul c f n : zsum (fun i => c * f i) n = c * zsum f n.
Proof.
  revert n. refine (zsum_ind _ _ _).
  - intros n Hn. rewrite !zsum_0; lia.
  - intros n Hn IH. rewrite !zsum_S, IH by exact Hn. lia.
Qed.

Lemma zsum_add f g n : zsum (fun i => f i + g i) n = zsum f n + zsum g n.
Proof.
  revert n. refine (zsum_ind _ _ _).
  - intros n Hn. rewrite !zsum_0; lia.
  - intros n Hn IH. rewrite !zsum_S, IH by exact Hn. lia.
Qed.

Lemma zsum_split f a b : 0 <= a -> 0 <= b ->
  zsum f (a + b) = zsum f a + zsum (fun i => f (a + i)) b.
Proof.
  intros Ha. revert b. refine (zsum_ind _ _ _).
  - intros n Hn Hn'. replace n with 0 by lia. rewrite Z.add_0_r, (zsum_0 _ 0); lia.
  - intros n Hn IH _. rewrite Z.add_assoc, !zsum_S, IH by lia. lia.
Qed.

Lemma zsum_window f a b n : 0 <= a <= b -> b <= n ->
  zsum (fun x => if (a <=? x) && (x <? b) then f x else 0) n = zsum (fun i => f (a + i)) (b - a).
Proof.
  intros Hab Hbn.
  replace n with (a + ((b - a) + (n - b))) by lia.
  rewrite zsum_split, zsum_split by lia.
  rewrite (zsum_ext _ (fun _ => 0)); [|intros; replace ((a <=? i) && (i <? b)) with false by lia; reflexivity].
  rewrite (zsum_ext _ (fun i => f (a + i)) (b - a));
    [|intros; replace ((a <=? a + i) && (a + i <? b)) with true by lia; reflexivity].
  rewrite (zsum_ext _ (fun _ => 0) (n - b));
    [|intros; replace ((a <=? a + (b - a + i)) && (a + (b - a + i) <? b)) with false by lia; reflexivity].
  rewrite !zsum_const by lia. lia.
Qed.

Lemma zsum_rows f w h : 0 <= w -> 0 <= h ->
  zsum f (w * h) = zsum (fun y => zsum (fun x => f (y * w + x)) w) h.
Proof.
  intros Hw. revert h. refine (zsum_ind _ _ _).
  - intros n Hn Hn'. rewrite !zsum_0; nia.
  - intros n Hn IH _. rewrite zsum_S by lia. rewrite <- IH by lia.
    replace (w * (n + 1)) with (w * n + w) by lia. rewrite zsum_split by nia.
    f_equal. apply zsum_ext. intros; f_equal; lia.
Qed.

Lemma zsum_single f n k : 0 <= k < n -> (forall i, 0 <= i < n -> 0 <= f i) -> f k <= zsum f n.
Proof.
  intros Hk Hf. replace n with (k + (1 + (n - k - 1))) by lia.
  rewrite zsum_split, zsum_split by lia.
  rewrite zsum_1.
  assert (0 <= zsum f k) by (apply zsum_nonneg; intros; apply Hf; lia).
  assert (0 <= zsum (fun i => f (k + (1 + i))) (n - k - 1)) by (apply zsum_nonneg; intros; apply Hf; lia).
  rewrite Z.add_0_r. lia.
Qed.

(** * The elementary scan *)

Definition letter01 (data : list pixel) (k : Z) : Z :=
  if is_pix_letter (nth (Z.to_nat k) data 0) then 1 else 0.

Lemma row_fuel_enough w h n : 0 <= n <= h -> h < 4294967296 -> (Z.to_nat n < row_fuel w h)%nat.
Proof. intros H1 H2. unfold row_fuel. destruct (w * h <? 4294967296); lia. Qed.

Lemma letter01_range data k : 0 <= letter01 data k <= 1.
Proof. unfold letter01. destruct is_pix_letter; lia. Qed.

Lemma scan_ok data p ep inc acc :
  0 <= p <= ep -> ep <= Z.of_nat (List.length data) -> 0 <= inc -> 0 <= acc ->
  acc + inc * (ep - p) < 4294967296 ->
  scan data p ep inc acc = Ok (acc + inc * zsum (fun i => letter01 data (p + i)) (ep - p)).
Proof.
  intros Hp Hl Hi Ha Hb. unfold scan.
  assert (G : forall n p acc, 0 <= p -> ep - p = Z.of_nat n -> 0 <= acc ->
     acc + inc * (ep - p) < 4294967296 ->
     loop (S n)
    (fun '(p, acc) =>
       if p =? ep then Ok (inr acc)
       else
         v <- rd data p ;;
         Ok (inl (p + 1, if is_pix_letter v then u32 (acc + inc) else acc))) (p, acc)
     = Ok (acc + inc * zsum (fun i => letter01 data (p + i)) (ep - p))).
  { clear p acc Hp Ha Hb. induction n as [|n IH]; intros p acc Hp Hn Ha Hb.
    - cbn [loop]. replace p with ep by lia. rewrite Z.eqb_refl.
      rewrite zsum_0 by lia. f_equal. lia.
    - cbn [loop] in *. destruct (Z.eqb_spec p ep); [lia|].
      rewrite (rd_nth 0) by lia. cbn [bind].
      etransitivity; [apply IH; lia || idtac|].
      + destruct is_pix_letter; [rewrite u32_small by nia|]; nia.
      + destruct is_pix_letter; [rewrite u32_small by nia|]; nia.
      + f_equal. replace (ep - p) with (1 + (ep - (p + 1))) by lia.
        rewrite (zsum_split _ 1) by lia.
        rewrite zsum_1.
        rewrite (zsum_ext (fun i => letter01 data (p + (1 + i))) (fun i => letter01 data (p + 1 + i)))
          by (intros; f_equal; lia).
        unfold letter01 at 2. rewrite Z.add_0_r.
        destruct is_pix_letter; [rewrite u32_small by nia|]; lia. }
  rewrite <- (G (Z.to_nat (ep - p)) p acc); auto; lia.
Qed.

Definition ink01 (img : image) (x y : Z) : Z := if ink img x y then 1 else 0.

Lemma ink01_range img x y : 0 <= ink01 img x y <= 1.
Proof. unfold ink01. destruct ink; lia. Qed.

Lemma letter01_ink img x y : wf_image img -> 0 <= x < iw img -> 0 <= y < ih img ->
  letter01 (idata img) (y * iw img + x) = ink01 img x y.
Proof. intros Hwf Hx Hy. unfold letter01, ink01. rewrite ink_pget by auto. reflexivity. Qed.

(** Scan of a part of a row. *)
Lemma scan_row img y x0 x1 inc acc :
  wf_image img -> 0 <= y < ih img -> 0 <= x0 <= x1 -> x1 <= iw img ->
  0 <= inc -> 0 <= acc -> acc + inc * (x1 - x0) < 4294967296 ->
  scan (idata img) (y * iw img + x0) (y * iw img + x1) inc acc =
  Ok (acc + inc * zsum (fun x => if (x0 <=? x) && (x <? x1) then ink01 img x y else 0) (iw img)).
Proof.
  intros Hwf Hy Hx Hx1 Hi Ha Hb. assert (Hwf' := Hwf). destruct Hwf' as (Hw & Hh & Har & Hl).
  rewrite scan_ok; try lia; try nia.
  replace (y * iw img + x1 - (y * iw img + x0)) with (x1 - x0) by lia.
  rewrite (zsum_window (fun x => ink01 img x y)) by lia.
  f_equal. f_equal. f_equal. apply zsum_ext. intros i Hi'.
  rewrite <- letter01_ink by (auto; lia). f_equal. lia.
Qed.

(** * Sums over half images *)

Lemma if_and {A} (a b : bool) (x y : A) :
  (if a && b then x else y) = if a then (if b then x else y) else y.
Proof. destruct a, b; reflexivity. Qed.

(** Sum over the rows from y0 to y1 of rows weights. *)
Lemma ink_sum_rows img weight (c : Z -> Z) (m : Z -> Z -> bool) y0 y1 :
  0 <= y0 <= y1 -> y1 <= ih img ->
  (forall x y, 0 <= x < iw img -> 0 <= y < ih img ->
     weight x y = if ((y0 <=? y) && (y <? y1)) && m x y then c y else 0) ->
  ink_sum img weight =
  zsum (fun i => c (y0 + i) * zsum (fun x => if m x (y0 + i) then ink01 img x (y0 + i) else 0) (iw img)) (y1 - y0).
Proof.
  intros Hy Hy1 Hw. unfold ink_sum.
  rewrite <- (zsum_window (fun y => c y * zsum (fun x => if m x y then ink01 img x y else 0) (iw img)) y0 y1 (ih img)) by lia.
  apply zsum_ext. intros y Hyr.
  destruct ((y0 <=? y) && (y <? y1)) eqn:E.
  - rewrite <- zsum_mul. apply zsum_ext. intros x Hx.
    rewrite Hw by auto. rewrite E. unfold ink01. simpl.
    destruct (ink img x y), (m x y); lia.
  - apply zsum_zero. intros x Hx.
    rewrite Hw by auto. rewrite E. simpl. destruct ink; reflexivity.
Qed.

Lemma cell_sum_rows img weight (c : Z -> Z) (m : Z -> Z -> bool) y0 y1 :
  0 <= y0 <= y1 -> y1 <= ih img ->
  (forall x y, 0 <= x < iw img -> 0 <= y < ih img ->
     weight x y = if ((y0 <=? y) && (y <? y1)) && m x y then c y else 0) ->
  cell_sum img weight =
  zsum (fun i => c (y0 + i) * zsum (fun x => if m x (y0 + i) then 1 else 0) (iw img)) (y1 - y0).
Proof.
  intros Hy Hy1 Hw. unfold cell_sum.
  rewrite <- (zsum_window (fun y => c y * zsum (fun x => if m x y then 1 else 0) (iw img)) y0 y1 (ih img)) by lia.
  apply zsum_ext. intros y Hyr.
  destruct ((y0 <=? y) && (y <? y1)) eqn:E.
  - rewrite <- zsum_mul. apply zsum_ext. intros x Hx.
    rewrite Hw by auto. rewrite E. simpl. destruct (m x y); lia.
  - apply zsum_zero. intros x Hx.
    rewrite Hw by auto. rewrite E. reflexivity.
Qed.

Lemma ink_le_cell img weight :
  (forall x y, 0 <= x < iw img -> 0 <= y < ih img -> 0 <= weight x y) ->
  0 <= ink_sum img weight <= cell_sum img weight.
Proof.
  intros Hw. unfold ink_sum, cell_sum. split.
  - apply zsum_nonneg; intros y Hy. apply zsum_nonneg; intros x Hx.
    specialize (Hw x y Hx Hy). destruct ink; lia.
  - apply zsum_le; intros y Hy. apply zsum_le; intros x Hx.
    specialize (Hw x y Hx Hy). destruct ink; lia.
Qed.

Lemma cell_sum_le img weight c :
  0 <= iw img -> 0 <= ih img ->
  (forall x y, 0 <= x < iw img -> 0 <= y < ih img -> weight x y <= c) ->
  cell_sum img weight <= c * (iw img * ih img).
Proof.
  intros Hw Hh H. unfold cell_sum.
  replace (c * (iw img * ih img)) with (c * iw img * ih img) by lia.
  rewrite <- zsum_const by lia. apply zsum_le; intros y Hy.
  rewrite <- zsum_const by lia. apply zsum_le; intros x Hx. auto.
Qed.

(** ** the four top/bottom measures *)

Lemma step_bound s i c r K w : 0 <= s <= i * (K * w) -> 0 <= c <= K -> 0 <= r <= w ->
  0 <= s + c * r <= (i + 1) * (K * w).
Proof. intros. assert (0 <= c * r <= K * w) by nia. lia. Qed.

Section Measure.
Variable img : image.
Hypothesis Hwf : wf_image img.
Hypothesis Hw1 : 1 <= iw img.
Hypothesis Hh1 : 1 <= ih img.
Let W := iw img.
Let H := ih img.
Let k := H / 2.

Lemma k_facts : 0 <= k /\ (Z.odd H = true -> H = 2 * k + 1) /\ (Z.odd H = false -> H = 2 * k).
Proof.
  subst k. pose proof (Z.div_mod H 2 ltac:(lia)) as E. pose proof (Zmod_odd H) as E2.
  assert (HH : 1 <= H) by exact Hh1.
  destruct (Z.odd H); repeat split; intros; try discriminate; lia.
Qed.

Lemma k_le : k <= H /\ 2 * k <= H.
Proof. pose proof k_facts as (K0 & K1 & K2). destruct (Z.odd H); lia. Qed.

Lemma top_end : to_size_t img 0 k = k * W.
Proof.
  pose proof k_facts as (K0 & _). pose proof k_le as (K1 & _).
  assert (Hwf' := Hwf). destruct Hwf' as (Hw & Hh & Ha & Hl). fold W in Hw, Ha, Hl. fold H in Hh, Ha, Hl.
  assert (k * W <= W * H) by nia.
  rewrite to_size_t_wf; [fold W; lia|exact Hwf|lia|exact K0|fold W; lia].
Qed.

Lemma bottom_start :
  (if Z.odd H then to_size_t img 0 k + W else to_size_t img 0 k) = (H - k) * W.
Proof.
  pose proof k_facts as (K0 & K1 & K2). rewrite top_end.
  destruct (Z.odd H); [rewrite K1 by reflexivity|rewrite K2 by reflexivity]; lia.
Qed.

Lemma end_offset : data_end img = H * W.
Proof. unfold data_end. rewrite area_wf by exact Hwf. subst H W. lia. Qed.

(** A scan of whole rows. *)
Lemma scan_rows y0 y1 :
  0 <= y0 <= y1 -> y1 <= H ->
  scan (idata img) (y0 * W) (y1 * W) 1 0 =
  Ok (zsum (fun i => zsum (fun x => ink01 img x (y0 + i)) W) (y1 - y0)).
Proof.
  intros Hy Hy1. assert (Hwf' := Hwf). destruct Hwf' as (Hw & Hh & Ha & Hl). fold W in Hw, Ha, Hl. fold H in Hh, Ha, Hl.
  rewrite scan_ok; try lia; try nia.
  replace (y1 * W - y0 * W) with (W * (y1 - y0)) by lia.
  rewrite zsum_rows by lia. f_equal. rewrite Z.add_0_l, Z.mul_1_l.
  apply zsum_ext; intros i Hi. apply zsum_ext; intros x Hx.
  rewrite <- letter01_ink by (auto; fold W H; lia). f_equal. fold W. lia.
Qed.

Lemma half_rows side y0 y1 :
  0 <= y0 <= y1 -> y1 <= H ->
  (forall y, 0 <= y < H -> side H y = (y0 <=? y) && (y <? y1)) ->
  ink_sum img (half side img) = zsum (fun i => zsum (fun x => ink01 img x (y0 + i)) W) (y1 - y0).
Proof.
  intros Hy Hy1 Hside.
  rewrite (ink_sum_rows img _ (fun _ => 1) (fun _ _ => true) y0 y1); auto.
  - apply zsum_ext; intros. rewrite Z.mul_1_l. reflexivity.
  - intros x y Hx Hyr. unfold half. fold H. rewrite Hside by exact Hyr. rewrite andb_true_r. reflexivity.
Qed.

Lemma upper_window y : 0 <= y < H -> upper H y = (0 <=? y) && (y <? k).
Proof. intros; unfold upper. fold k. lia. Qed.
Lemma lower_window y : 0 <= y < H -> lower H y = (H - k <=? y) && (y <? H).
Proof. intros; unfold lower. fold k. lia. Qed.

Lemma horizontal_direction_ok :
  horizontal_direction img =
  Ok (mktb (ink_sum img (half upper img)) (ink_sum img (half lower img))).
Proof.
  pose proof k_facts as (K0 & _). pose proof k_le as (K1 & K2).
  unfold horizontal_direction. cbv zeta.
  fold H k W. rewrite bottom_start, top_end, end_offset.
  change 0 with (0 * W) at 1. rewrite scan_rows by lia. cbn [bind].
  rewrite scan_rows by lia. cbn [bind].
  rewrite (half_rows upper 0 k) by (auto using upper_window; lia).
  rewrite (half_rows lower (H - k) H) by (auto using lower_window; lia).
  reflexivity.
Qed.

(** Generic row loop: each of the rows y0, ..., y0+k-1 is scanned between two
    columns with an increment. *)
Lemma gravity_rows y0 (is_top : bool) :
  0 <= y0 -> y0 + k <= H -> k * k * W < 4294967296 ->
  horizontal_box_gravity (idata img) W k (y0 * W) ((y0 + k) * W) is_top =
  Ok (zsum (fun i => (if is_top then k - i else i + 1) * zsum (fun x => ink01 img x (y0 + i)) W) k).
Proof.
  intros Hy Hyk Hb. pose proof k_facts as (K0 & _).
  assert (Hwf' := Hwf). destruct Hwf' as (Hw & Hh & Ha & Hl). fold W in Hw, Ha, Hl. fold H in Hh, Ha, Hl.
  assert (HW1 : 1 <= W) by exact Hw1.
  unfold horizontal_box_gravity.
  set (term := fun i => (if is_top then k - i else i + 1) * zsum (fun x => ink01 img x (y0 + i)) W).
  assert (Hrow : forall y, 0 <= zsum (fun x => ink01 img x y) W <= W).
  { intros y. split.
    - apply zsum_nonneg; intros; apply ink01_range.
    - rewrite <- (Z.mul_1_l W) at 2. rewrite <- zsum_const by lia.
      apply zsum_le; intros; apply ink01_range. }
  edestruct (@loop_total (Z * Z * Z) Z) with
    (I := fun '((p, h, g) : Z * Z * Z) => exists i, 0 <= i <= k /\ p = (y0 + i) * W /\
       (i < k -> h = if is_top then k - i else i + 1) /\ g = zsum term i /\ 0 <= g <= i * (k * W))
    (m := fun '((p, h, g) : Z * Z * Z) => Z.to_nat (k - (p / W - y0)))
    (Q := fun g => g = zsum term k)
    as (g & E & HQ).
  4: { rewrite <- HQ. exact E. }
  2: { exists 0. split; [lia|]. split; [f_equal; lia|]. split.
       - intros; destruct is_top; lia.
       - rewrite zsum_0; lia. }
  2: { cbv beta iota. rewrite Z.div_mul by lia. lia. }
  intros ((p & h) & g) (i & Hi & -> & Hh' & -> & Hg).
  destruct (Z.eqb_spec ((y0 + i) * W) ((y0 + k) * W)) as [Eq|Ne].
  - assert (i = k) by nia. now subst i.
  - assert (Hik : i < k) by (assert (i <> k) by (intro; subst; lia); lia).
    specialize (Hh' Hik).
    assert (Hhk : 0 <= h <= k) by (destruct is_top; lia).
    pose proof (scan_row img (y0 + i) 0 W h (zsum term i) Hwf) as Es0.
    fold W H in Es0. rewrite Z.add_0_r in Es0.
    rewrite Es0; try lia; [|nia]. clear Es0.
    cbn [bind].
    assert (Es : zsum (fun x => if (0 <=? x) && (x <? W) then ink01 img x (y0 + i) else 0) W
                 = zsum (fun x => ink01 img x (y0 + i)) W).
    { apply zsum_ext. intros x Hx. replace ((0 <=? x) && (x <? W)) with true by lia. reflexivity. }
    rewrite Es. split.
    + exists (i + 1). split; [lia|]. split; [fold W; lia|]. split.
      * intros Hlt. rewrite Hh'. destruct is_top; rewrite u32_small; lia.
      * rewrite zsum_S by lia. unfold term at 3 4 5. rewrite Hh'. specialize (Hrow (y0 + i)).
        split; [destruct is_top; lia|]. apply step_bound; auto; destruct is_top; lia.
    + replace ((y0 + i) * W + W) with ((y0 + i + 1) * W) by lia.
      rewrite !Z.div_mul by lia. lia.
Qed.

Lemma half_gravity_rows side y0 (is_top : bool) :
  0 <= y0 -> y0 + k <= H ->
  (forall y, 0 <= y < H -> side H y = (y0 <=? y) && (y <? y0 + k)) ->
  (forall i, 0 <= i < k -> center_rank H (y0 + i) = if is_top then k - i else i + 1) ->
  ink_sum img (half_gravity side img) =
  zsum (fun i => (if is_top then k - i else i + 1) * zsum (fun x => ink01 img x (y0 + i)) W) k.
Proof.
  intros Hy Hy1 Hside Hc. pose proof k_facts as (K0 & _).
  rewrite (ink_sum_rows img _ (fun y => center_rank H y) (fun _ _ => true) y0 (y0 + k)); auto; try lia.
  - replace (y0 + k - y0) with k by lia. apply zsum_ext; intros. rewrite Hc by lia. reflexivity.
  - intros x y Hx Hyr. unfold half_gravity. fold H. rewrite Hside by exact Hyr. rewrite andb_true_r. reflexivity.
Qed.

Lemma center_top i : 0 <= i < k -> center_rank H (0 + i) = k - i.
Proof. intros Hi. pose proof k_le. unfold center_rank, border_rank. fold k. lia. Qed.
Lemma center_bottom i : 0 <= i < k -> center_rank H (H - k + i) = i + 1.
Proof. intros Hi. pose proof k_le. unfold center_rank, border_rank. fold k. lia. Qed.

Lemma kk_bound : k * k * W <= W * H * H.
Proof.
  pose proof k_facts as (K0 & _). pose proof k_le as (K1 & _).
  assert (HW1 : 1 <= W) by exact Hw1.
  replace (W * H * H) with (H * H * W) by lia.
  apply Z.mul_le_mono_nonneg_r; [lia|]. apply Z.mul_le_mono_nonneg; lia.
Qed.

Lemma horizontal_gravity_ok :
  W * H * H < 4294967296 ->
  horizontal_gravity img =
  Ok (mktb (ink_sum img (half_gravity upper img)) (ink_sum img (half_gravity lower img))).
Proof.
  intros Hb. pose proof k_facts as (K0 & _). pose proof k_le as (K1 & K2). pose proof kk_bound.
  unfold horizontal_gravity. cbv zeta.
  fold H k W. rewrite bottom_start, top_end, end_offset.
  replace (horizontal_box_gravity (idata img) W k 0 (k * W) true)
    with (horizontal_box_gravity (idata img) W k (0 * W) ((0 + k) * W) true) by (f_equal; lia).
  rewrite gravity_rows by lia. cbn [bind].
  replace (H * W) with ((H - k + k) * W) by lia.
  rewrite gravity_rows by lia. cbn [bind].
  rewrite (half_gravity_rows upper 0 true); try lia; auto using center_top.
  2: { intros; rewrite upper_window; auto. }
  rewrite (half_gravity_rows lower (H - k) false); try lia; auto using center_bottom.
  intros y Hy; rewrite lower_window by auto. f_equal. lia.
Qed.

(** *** Diagonal wedges *)

Lemma dv_margin_ok w n : 0 <= w < 4294967296 -> 1 <= n ->
  exists m, dv_margin w n = Ok m /\ m = w / 2 - w / n / 2 /\ 0 <= m /\ 2 * m <= w.
Proof.
  intros Hw Hn. unfold dv_margin. rewrite divu_ok by lia. cbn [bind].
  assert (0 <= w / n <= w).
  { split; [apply Z.div_pos; lia|]. apply Z.div_le_upper_bound; nia. }
  assert (w / n / 2 <= w / 2) by (apply Z.div_le_mono; lia).
  assert (0 <= w / n / 2) by (apply Z.div_pos; lia).
  assert (w / 2 <= w) by (apply Z.div_le_upper_bound; lia).
  rewrite u32_small by lia. eexists; split; [reflexivity|]. split; [reflexivity|].
  pose proof (Z.mul_div_le w 2). lia.
Qed.

Lemma scan_row' y x0 x1 inc acc :
  0 <= y < H -> 0 <= x0 <= x1 -> x1 <= W ->
  0 <= inc -> 0 <= acc -> acc + inc * (x1 - x0) < 4294967296 ->
  scan (idata img) (y * W + x0) (y * W + x1) inc acc =
  Ok (acc + inc * zsum (fun x => if (x0 <=? x) && (x <? x1) then ink01 img x y else 0) W).
Proof. intros; apply scan_row; auto. Qed.

Definition row_margin (is_top : bool) i := W / 2 - W / (if is_top then 1 + i else k - i) / 2.

Lemma row_margin_ok (is_top : bool) i :
  0 <= i < k ->
  dv_margin W (if is_top then u32 (1 + i) else u32 (k - i)) = Ok (row_margin is_top i) /\
  0 <= row_margin is_top i /\ 2 * row_margin is_top i <= W.
Proof.
  intros Hi. pose proof k_le as (K1 & K2). assert (Hwf' := Hwf). destruct Hwf' as (Hw & Hh & _). fold W in Hw. fold H in Hh.
  unfold row_margin. rewrite !u32_small by lia.
  destruct is_top.
  - destruct (dv_margin_ok W (1 + i)) as (m & -> & -> & ?); [lia..|]. auto.
  - destruct (dv_margin_ok W (k - i)) as (m & -> & -> & ?); [lia..|]. auto.
Qed.

Definition wedge_row (is_top : bool) y0 i :=
  zsum (fun x => if (row_margin is_top i <=? x) && (x <? W - row_margin is_top i)
                 then ink01 img x (y0 + i) else 0) W.

Lemma wedge_row_range is_top y0 i : 0 <= wedge_row is_top y0 i <= W.
Proof.
  assert (HW1 : 1 <= W) by exact Hw1.
  unfold wedge_row. split.
  - apply zsum_nonneg; intros. destruct (_ && _); [apply ink01_range|lia].
  - transitivity (zsum (fun _ => 1) W); [|rewrite zsum_const; lia].
    apply zsum_le; intros x Hx. pose proof (ink01_range img x (y0 + i)). destruct (_ && _); lia.
Qed.

Lemma count_direction_rows y0 (is_top : bool) :
  0 <= y0 -> y0 + k <= H ->
  count_diagonal_vertical_direction (idata img) W k (y0 * W) ((y0 + k) * W) is_top =
  Ok (zsum (fun i => wedge_row is_top y0 i) k).
Proof.
  intros Hy Hyk. pose proof k_facts as (K0 & _).
  assert (Hwf' := Hwf). destruct Hwf' as (Hw & Hh & Ha & Hl). fold W in Hw, Ha, Hl. fold H in Hh, Ha, Hl.
  assert (HW1 : 1 <= W) by exact Hw1.
  unfold count_diagonal_vertical_direction.
  edestruct (@loop_total (Z * Z * Z) Z) with
    (I := fun '((p, i, g) : Z * Z * Z) => 0 <= i <= k /\ p = (y0 + i) * W /\
       g = zsum (fun i => wedge_row is_top y0 i) i /\ 0 <= g <= i * W)
    (m := fun '((p, i, g) : Z * Z * Z) => Z.to_nat (k - i))
    (Q := fun g => g = zsum (fun i => wedge_row is_top y0 i) k)
    as (g & E & HQ).
  4: { rewrite <- HQ. exact E. }
  2: { split; [lia|]. split; [f_equal; lia|]. rewrite zsum_0; lia. }
  2: { cbv beta iota. apply row_fuel_enough; lia. }
  intros ((p & i) & g) (Hi & -> & -> & Hg).
  destruct (Z.eqb_spec ((y0 + i) * W) ((y0 + k) * W)) as [Eq|Ne].
  - assert (i = k) by nia. now subst i.
  - assert (Hik : i < k) by (assert (i <> k) by (intro; subst; lia); lia).
    destruct (row_margin_ok is_top i) as (Em & Hm0 & Hm1); [lia|].
    rewrite Em. cbn [bind].
    replace ((y0 + i) * W + W - row_margin is_top i)
       with ((y0 + i) * W + (W - row_margin is_top i)) by lia.
    rewrite (scan_row' (y0 + i)); try lia; try nia.
    cbn [bind]. fold (wedge_row is_top y0 i).
    pose proof (wedge_row_range is_top y0 i).
    rewrite u32_small by nia. split.
    + split; [lia|]. split; [lia|]. rewrite zsum_S by lia. nia.
    + lia.
Qed.

Lemma count_gravity_rows y0 (is_top : bool) :
  0 <= y0 -> y0 + k <= H -> k * k * W < 4294967296 ->
  count_diagonal_vertical_gravity (idata img) W k (y0 * W) ((y0 + k) * W) is_top =
  Ok (zsum (fun i => (if is_top then k - i else i + 1) * wedge_row is_top y0 i) k).
Proof.
  intros Hy Hyk Hb. pose proof k_facts as (K0 & _).
  assert (Hwf' := Hwf). destruct Hwf' as (Hw & Hh & Ha & Hl). fold W in Hw, Ha, Hl. fold H in Hh, Ha, Hl.
  assert (HW1 : 1 <= W) by exact Hw1.
  unfold count_diagonal_vertical_gravity.
  set (term := fun i => (if is_top then k - i else i + 1) * wedge_row is_top y0 i).
  edestruct (@loop_total (Z * Z * Z * Z) Z) with
    (I := fun '((p, i, c, g) : Z * Z * Z * Z) => 0 <= i <= k /\ p = (y0 + i) * W /\
       (i < k -> c = if is_top then k - i else i + 1) /\
       g = zsum term i /\ 0 <= g <= i * (k * W))
    (m := fun '((p, i, c, g) : Z * Z * Z * Z) => Z.to_nat (k - i))
    (Q := fun g => g = zsum term k)
    as (g & E & HQ).
  4: { rewrite <- HQ. exact E. }
  2: { split; [lia|]. split; [f_equal; lia|]. split.
       - destruct is_top; lia.
       - rewrite zsum_0; lia. }
  2: { cbv beta iota. apply row_fuel_enough; lia. }
  intros (((p & i) & c) & g) (Hi & -> & Hc & -> & Hg).
  destruct (Z.eqb_spec ((y0 + i) * W) ((y0 + k) * W)) as [Eq|Ne].
  - assert (i = k) by nia. now subst i.
  - assert (Hik : i < k) by (assert (i <> k) by (intro; subst; lia); lia).
    specialize (Hc Hik).
    destruct (row_margin_ok is_top i) as (Em & Hm0 & Hm1); [lia|].
    rewrite Em. cbn [bind].
    assert (Hck : 0 <= c <= k) by (destruct is_top; lia).
    replace ((y0 + i) * W + W - row_margin is_top i)
       with ((y0 + i) * W + (W - row_margin is_top i)) by lia.
    assert (Hov : zsum term i + c * (W - row_margin is_top i - row_margin is_top i) < 4294967296).
    { assert (Hs := step_bound (zsum term i) i c (W - row_margin is_top i - row_margin is_top i) k W Hg Hck ltac:(lia)).
      assert ((i + 1) * (k * W) <= k * (k * W)) by (apply Z.mul_le_mono_nonneg_r; nia). lia. }
    rewrite (scan_row' (y0 + i)); try lia.
    cbn [bind]. fold (wedge_row is_top y0 i).
    pose proof (wedge_row_range is_top y0 i).
    rewrite (u32_small (i + 1)) by nia. split.
    + split; [lia|]. split; [lia|]. split.
      * intros Hlt. rewrite Hc. destruct is_top; rewrite u32_small; lia.
      * rewrite zsum_S by lia. unfold term at 3 4 5. rewrite Hc.
        split; [destruct is_top; lia|]. apply step_bound; auto; destruct is_top; lia.
    + lia.
Qed.

Lemma margin_top i : 0 <= i < k -> wedge_margin W H (0 + i) = row_margin true i.
Proof.
  intros Hi. pose proof k_le. unfold wedge_margin, row_margin, border_rank.
  replace (Z.min (0 + i + 1) (H - (0 + i))) with (1 + i) by lia. reflexivity.
Qed.
Lemma margin_bottom i : 0 <= i < k -> wedge_margin W H (H - k + i) = row_margin false i.
Proof.
  intros Hi. pose proof k_le. unfold wedge_margin, row_margin, border_rank.
  replace (Z.min (H - k + i + 1) (H - (H - k + i))) with (k - i) by lia. reflexivity.
Qed.

Lemma wedge_rows side y0 (is_top : bool) :
  0 <= y0 -> y0 + k <= H ->
  (forall y, 0 <= y < H -> side H y = (y0 <=? y) && (y <? y0 + k)) ->
  (forall i, 0 <= i < k -> wedge_margin W H (y0 + i) = row_margin is_top i) ->
  ink_sum img (wedge side img) = zsum (fun i => wedge_row is_top y0 i) k.
Proof.
  intros Hy Hy1 Hside Hc. pose proof k_facts as (K0 & _).
  rewrite (ink_sum_rows img _ (fun y => 1) (fun x y => in_wedge W H x y) y0 (y0 + k)); auto; try lia.
  - replace (y0 + k - y0) with k by lia. apply zsum_ext; intros. rewrite Z.mul_1_l.
    unfold wedge_row, in_wedge. rewrite Hc by lia. reflexivity.
  - intros x y Hx Hyr. unfold wedge. fold H W. rewrite Hside by exact Hyr. reflexivity.
Qed.

Lemma wedge_gravity_rows side y0 (is_top : bool) :
  0 <= y0 -> y0 + k <= H ->
  (forall y, 0 <= y < H -> side H y = (y0 <=? y) && (y <? y0 + k)) ->
  (forall i, 0 <= i < k -> wedge_margin W H (y0 + i) = row_margin is_top i) ->
  (forall i, 0 <= i < k -> center_rank H (y0 + i) = if is_top then k - i else i + 1) ->
  ink_sum img (wedge_gravity side img) =
  zsum (fun i => (if is_top then k - i else i + 1) * wedge_row is_top y0 i) k.
Proof.
  intros Hy Hy1 Hside Hm Hc. pose proof k_facts as (K0 & _).
  rewrite (ink_sum_rows img _ (fun y => center_rank H y) (fun x y => in_wedge W H x y) y0 (y0 + k)); auto; try lia.
  - replace (y0 + k - y0) with k by lia. apply zsum_ext; intros.
    unfold wedge_row, in_wedge. rewrite Hm, Hc by lia. reflexivity.
  - intros x y Hx Hyr. unfold wedge_gravity. fold H W. rewrite Hside by exact Hyr. reflexivity.
Qed.

Lemma diagonal_vertical_direction_ok :
  diagonal_vertical_direction img =
  Ok (mktb (ink_sum img (wedge upper img)) (ink_sum img (wedge lower img))).
Proof.
  pose proof k_facts as (K0 & _). pose proof k_le as (K1 & K2).
  unfold diagonal_vertical_direction. cbv zeta.
  fold H k W. rewrite bottom_start, top_end, end_offset.
  replace (count_diagonal_vertical_direction (idata img) W k 0 (k * W) true)
    with (count_diagonal_vertical_direction (idata img) W k (0 * W) ((0 + k) * W) true) by (f_equal; lia).
  rewrite count_direction_rows by lia. cbn [bind].
  replace (H * W) with ((H - k + k) * W) by lia.
  rewrite count_direction_rows by lia. cbn [bind].
  rewrite (wedge_rows upper 0 true); try lia; auto using margin_top.
  2: { intros; rewrite upper_window; auto. }
  rewrite (wedge_rows lower (H - k) false); try lia; auto using margin_bottom.
  intros y Hy; rewrite lower_window by auto. f_equal. lia.
Qed.

Lemma diagonal_vertical_gravity_ok :
  W * H * H < 4294967296 ->
  diagonal_vertical_gravity img =
  Ok (mktb (ink_sum img (wedge_gravity upper img)) (ink_sum img (wedge_gravity lower img))).
Proof.
  intros Hb. pose proof k_facts as (K0 & _). pose proof k_le as (K1 & K2). pose proof kk_bound.
  unfold diagonal_vertical_gravity. cbv zeta.
  fold H k W. rewrite bottom_start, top_end, end_offset.
  replace (count_diagonal_vertical_gravity (idata img) W k 0 (k * W) true)
    with (count_diagonal_vertical_gravity (idata img) W k (0 * W) ((0 + k) * W) true) by (f_equal; lia).
  rewrite count_gravity_rows by lia. cbn [bind].
  replace (H * W) with ((H - k + k) * W) by lia.
  rewrite count_gravity_rows by lia. cbn [bind].
  rewrite (wedge_gravity_rows upper 0 true); try lia; auto using margin_top, center_top.
  2: { intros; rewrite upper_window; auto. }
  rewrite (wedge_gravity_rows lower (H - k) false); try lia; auto using margin_bottom, center_bottom.
  intros y Hy; rewrite lower_window by auto. f_equal. lia.
Qed.

End Measure.
