(** Proofs about images. *)
From Verif Require Import Base BaseProofs ImageModel ImageSpec.

(** Row-major list of a pixel function. *)
Definition rowmajor {A} (w h : Z) (f : Z -> Z -> A) : list A :=
  flat_map (fun y => map (fun x => f x y) (zrange w)) (zrange h).

Lemma flat_map_const_length {A B} (f : A -> list B) (n : nat) (l : list A) :
  (forall a, In a l -> List.length (f a) = n) ->
  List.length (flat_map f l) = (List.length l * n)%nat.
Proof.
  induction l as [|a l IH]; intros H; simpl; [reflexivity|].
  rewrite app_length, IH, H; simpl; auto. intros b Hb; apply H; now right.
Qed.

Lemma flat_map_const_nth {A B} (f : A -> list B) (n : nat) (l : list A) :
  (forall a, In a l -> List.length (f a) = n) ->
  forall j i a, nth_error l j = Some a -> (i < n)%nat ->
  nth_error (flat_map f l) (j * n + i) = nth_error (f a) i.
Proof.
  induction l as [|b l IH]; intros H j i a Hj Hi.
  - destruct j; discriminate.
  - simpl. destruct j as [|j].
    + injection Hj as ->. simpl. apply nth_error_app1. rewrite H; [exact Hi|now left].
    + simpl in Hj. rewrite nth_error_app2; rewrite H by (now left); [|nia].
      replace (S j * n + i - n)%nat with (j * n + i)%nat by nia.
      apply IH; auto. intros c Hc; apply H; now right.
Qed.

Lemma rowmajor_length {A} w h (f : Z -> Z -> A) :
  0 <= w -> 0 <= h -> Z.of_nat (List.length (rowmajor w h f)) = w * h.
Proof.
  intros Hw Hh. unfold rowmajor.
  rewrite (flat_map_const_length _ (Z.to_nat w)).
  - rewrite zrange_length. lia.
  - intros a _. now rewrite map_length, zrange_length.
Qed.

Lemma rowmajor_nth {A} w h (f : Z -> Z -> A) x y :
  0 <= x < w -> 0 <= y < h ->
  nth_error (rowmajor w h f) (Z.to_nat (y * w + x)) = Some (f x y).
Proof.
  intros Hx Hy. unfold rowmajor.
  replace (Z.to_nat (y * w + x)) with (Z.to_nat y * Z.to_nat w + Z.to_nat x)%nat
    by (rewrite <- Z2Nat.inj_mul, <- Z2Nat.inj_add by nia; reflexivity).
  rewrite (flat_map_const_nth _ (Z.to_nat w)) with (a := y).
  - rewrite nth_error_map, zrange_nth by lia. simpl. now rewrite Z2Nat.id by lia.
  - intros a _. now rewrite map_length, zrange_length.
  - rewrite zrange_nth by lia. now rewrite Z2Nat.id by lia.
  - lia.
Qed.

Lemma rowmajor_ext {A} w h (f g : Z -> Z -> A) :
  (forall x y, 0 <= x < w -> 0 <= y < h -> f x y = g x y) ->
  rowmajor w h f = rowmajor w h g.
Proof.
  intros H. unfold rowmajor.
  assert (E : forall l, (forall y, In y l -> 0 <= y < h) ->
    flat_map (fun y => map (fun x => f x y) (zrange w)) l =
    flat_map (fun y => map (fun x => g x y) (zrange w)) l).
  { induction l as [|y l IH]; intros Hl; simpl; [reflexivity|].
    rewrite IH by (intros; apply Hl; now right). f_equal.
    apply map_ext_in. intros x Hx. apply H; [now apply zrange_In|apply Hl; now left]. }
  apply E. intros y Hy; now apply zrange_In.
Qed.

Lemma rowmajor_snoc {A} w h (f : Z -> Z -> A) :
  0 <= h -> rowmajor w (h + 1) f = rowmajor w h f ++ map (fun x => f x h) (zrange w).
Proof.
  intros H. unfold rowmajor. rewrite zrange_S by exact H.
  rewrite flat_map_app. simpl. now rewrite app_nil_r.
Qed.

(** Pixel with a default, total. *)
Definition pget (img : image) (x y : Z) : pixel :=
  nth (Z.to_nat (y * iw img + x)) (idata img) 0.

Lemma pix_inside img x y :
  wf_image img -> 0 <= x < iw img -> 0 <= y < ih img ->
  pix img x y = Some (pget img x y).
Proof.
  intros (Hw & Hh & Ha & Hl) Hx Hy. unfold pix, pget.
  replace ((0 <=? x) && (x <? iw img) && (0 <=? y) && (y <? ih img)) with true by lia.
  apply nth_error_nth'. nia.
Qed.

Lemma pix_outside img x y :
  ~ (0 <= x < iw img /\ 0 <= y < ih img) -> pix img x y = None.
Proof.
  intros H. unfold pix.
  destruct ((0 <=? x) && (x <? iw img) && (0 <=? y) && (y <? ih img)) eqn:E; [|reflexivity].
  exfalso; apply H; lia.
Qed.

Lemma ink_inside img x y : ink img x y = true -> 0 <= x < iw img /\ 0 <= y < ih img.
Proof.
  unfold ink, pix.
  destruct ((0 <=? x) && (x <? iw img) && (0 <=? y) && (y <? ih img)) eqn:E.
  - intros _; lia.
  - discriminate.
Qed.

Lemma ink_pget img x y :
  wf_image img -> 0 <= x < iw img -> 0 <= y < ih img ->
  ink img x y = is_pix_letter (pget img x y).
Proof. intros Hwf Hx Hy. unfold ink. now rewrite pix_inside. Qed.

Lemma idx_bound w h x y : 0 <= x < w -> 0 <= y < h -> 0 <= y * w + x < w * h.
Proof. intros; nia. Qed.

Lemma area_wf img : wf_image img -> area img = iw img * ih img.
Proof. intros (Hw & Hh & Ha & _). unfold area. apply u32_small; nia. Qed.

Lemma rd_pix img x y :
  wf_image img -> 0 <= x < iw img -> 0 <= y < ih img ->
  rd (idata img) (y * iw img + x) = Ok (pget img x y).
Proof.
  intros (Hw & Hh & Ha & Hl) Hx Hy. unfold pget. apply rd_nth.
  rewrite Hl. now apply idx_bound.
Qed.

Lemma to_size_t_wf img x y :
  wf_image img -> 0 <= x -> 0 <= y -> y * iw img + x < 4294967296 ->
  to_size_t img x y = y * iw img + x.
Proof.
  intros (Hw & Hh & Ha & Hl) Hx Hy Hb. unfold to_size_t.
  rewrite (u32_small (y * iw img)) by nia. apply u32_small; nia.
Qed.

Lemma img_at_ok img x y :
  wf_image img -> 0 <= x < iw img -> 0 <= y < ih img ->
  img_at img x y = Ok (pget img x y).
Proof.
  intros Hwf Hx Hy. unfold img_at.
  rewrite to_size_t_wf; auto; try lia; [|destruct Hwf as (?&?&?&?); nia].
  now apply rd_pix.
Qed.

(** Images with the same size and pixels are the same. *)
Lemma wf_full img : wf_image img -> full_image img.
Proof. intros (Hw & Hh & Ha & Hl). split; [exact Hw|]. split; [exact Hh|]. rewrite Z.mod_small; [exact Hl|]. split; [nia|exact Ha]. Qed.

Lemma image_ext a b : full_image a -> full_image b -> same_picture a b -> a = b.
Proof.
  intros Ha Hb (Ew & Eh & Ep).
  destruct a as [aw ah ad], b as [bw bh bd]; simpl in *. subst bw bh. f_equal.
  apply nth_error_ext. intros k.
  destruct Ha as (Hw & Hh & Hl), Hb as (_ & _ & Hl'); simpl in *.
  assert (0 <= aw * ah) by nia. pose proof (Z.mod_le (aw * ah) 4294967296 ltac:(lia) ltac:(lia)).
  destruct (Z.ltb_spec (Z.of_nat k) (aw * ah)) as [Hk|Hk].
  - assert (Hw0 : 0 < aw) by nia.
    specialize (Ep (Z.of_nat k mod aw) (Z.of_nat k / aw)).
    unfold pix in Ep; simpl in Ep.
    pose proof (Z.mod_pos_bound (Z.of_nat k) aw Hw0) as Hm.
    pose proof (Z.div_mod (Z.of_nat k) aw ltac:(lia)) as Hd.
    assert (0 <= Z.of_nat k / aw < ah).
    { split; [apply Z.div_pos; lia|apply Z.div_lt_upper_bound; lia]. }
    replace (Z.of_nat k / aw * aw + Z.of_nat k mod aw) with (Z.of_nat k) in Ep by lia.
    rewrite Nat2Z.id in Ep.
    replace ((0 <=? Z.of_nat k mod aw) && (Z.of_nat k mod aw <? aw)
             && (0 <=? Z.of_nat k / aw) && (Z.of_nat k / aw <? ah)) with true in Ep.
    + exact Ep.
    + symmetry. rewrite !andb_true_iff. repeat split; try (apply Z.leb_le; lia); apply Z.ltb_lt; lia.
  - rewrite (proj2 (nth_error_None ad k)), (proj2 (nth_error_None bd k)); auto; lia.
Qed.

Lemma rowmajor_wf w h f :
  0 <= w < 4294967296 -> 0 <= h < 4294967296 -> w * h < 4294967296 ->
  wf_image (mkimage w h (rowmajor w h f)).
Proof. intros; repeat split; simpl; try lia. apply rowmajor_length; lia. Qed.

Lemma rowmajor_pix w h f x y :
  0 <= x < w -> 0 <= y < h -> pix (mkimage w h (rowmajor w h f)) x y = Some (f x y).
Proof.
  intros Hx Hy. unfold pix; simpl.
  replace ((0 <=? x) && (x <? w) && (0 <=? y) && (y <? h)) with true by lia.
  now apply rowmajor_nth.
Qed.

(** ** copy, section, clone *)
Lemma copy_n_ok src n d cap out :
  0 <= d -> d + Z.of_nat n <= Z.of_nat (List.length src) ->
  Z.of_nat (List.length out) + Z.of_nat n <= cap ->
  copy_n src n d cap out =
  Ok (out ++ map (fun k => nth (Z.to_nat (d + k)) src 0) (zrange (Z.of_nat n))).
Proof.
  revert d out; induction n as [|n IH]; intros d out Hd Hs Ho.
  - simpl. now rewrite app_nil_r.
  - simpl copy_n. rewrite (rd_nth 0) by lia. simpl bind.
    rewrite emit_ok by lia. simpl bind.
    rewrite IH by (try rewrite app_length; simpl; lia).
    rewrite <- app_assoc. f_equal. f_equal. simpl app.
    unfold zrange. rewrite !Nat2Z.id. simpl.
    rewrite Z.add_0_r. f_equal.
    rewrite <- seq_shift, !map_map. apply map_ext. intros k.
    f_equal. lia.
Qed.

Lemma section_ok img x y bw bh :
  wf_image img -> 0 <= x -> 0 <= y -> 0 <= bw -> 0 <= bh ->
  x + bw <= iw img -> y + bh <= ih img ->
  section img x y bw bh =
  Ok (mkimage bw bh (rowmajor bw bh (fun i j => pget img (x + i) (y + j)))).
Proof.
  intros Hwf Hx Hy Hbw Hbh Hxw Hyh.
  assert (Hwf' := Hwf). destruct Hwf' as (Hw & Hh & Ha & Hl).
  unfold section, section_rows.
  assert (Hle : bw * bh <= iw img * ih img) by (apply Z.mul_le_mono_nonneg; lia).
  rewrite (u32_small (bw * bh)) by nia.
  destruct (Z.eq_dec bh 0) as [->|Hbh0].
  { simpl. unfold rowmajor. rewrite (zrange_0 0) by lia. reflexivity. }
  destruct (Z.eq_dec bw 0) as [->|Hbw0].
  { destruct (@for_up_total (Z * list pixel)
       (fun _ '(d, out) => out' <- copy_n (idata img) (Z.to_nat 0) d (0 * bh) out ;; Ok (d + iw img, out'))
       (fun _ '(d, out) => out = []) (Z.to_nat bh) 0) with
       (s := (to_size_t img x y, @nil pixel)) as (s' & E & HI).
    - intros i [d out] _ ->. simpl. eexists; split; [reflexivity|reflexivity].
    - reflexivity.
    - rewrite E. destruct s' as [d' out']. subst out'. simpl. f_equal. f_equal.
      unfold rowmajor. clear. induction (zrange bh); simpl; auto. }
  rewrite to_size_t_wf by (auto; nia).
  destruct (@for_up_total (Z * list pixel)
     (fun _ '(d, out) => out' <- copy_n (idata img) (Z.to_nat bw) d (bw * bh) out ;; Ok (d + iw img, out'))
     (fun i '(d, out) => d = (y + i) * iw img + x /\
         out = rowmajor bw i (fun i j => pget img (x + i) (y + j))) (Z.to_nat bh) 0) with
     (s := (y * iw img + x, @nil pixel)) as (s' & E & HI).
  - intros i [d out] Hi (-> & ->). cbv beta iota.
    rewrite copy_n_ok; cycle 1.
    + nia.
    + rewrite Hl. nia.
    + rewrite rowmajor_length by lia. nia.
    + simpl. eexists; split; [reflexivity|]. split; [lia|].
      rewrite rowmajor_snoc by lia. f_equal. rewrite Z2Nat.id by lia.
      apply map_ext_in. intros k Hk. apply zrange_In in Hk.
      unfold pget. f_equal. lia.
  - split; [lia|]. unfold rowmajor. now rewrite (zrange_0 0) by lia.
  - rewrite E. destruct s' as [d' out']. destruct HI as (_ & ->).
    simpl. now rewrite Z2Nat.id by lia.
Qed.

(** ** rotate90 *)
Lemma rotate90_col_ok img cap x out :
  wf_image img -> 0 <= x < iw img ->
  Z.of_nat (List.length out) + ih img <= cap ->
  rotate90_col img cap x out =
  Ok (out ++ map (fun y => pget img x y) (zrange (ih img))).
Proof.
  intros Hwf Hx Hcap. assert (Hwf' := Hwf). destruct Hwf' as (Hw & Hh & Ha & Hl).
  unfold rotate90_col. rewrite area_wf by exact Hwf.
  edestruct (@loop_total (Z * list pixel) (list pixel)) with
    (fuel := S (Z.to_nat (ih img))) (s := (x, out))
    (I := fun '((d, o) : Z * list pixel) => exists y, 0 <= y <= ih img /\ d = x + y * iw img /\
            o = out ++ map (fun y => pget img x y) (zrange y))
    (m := fun '((d, _) : Z * list pixel) => Z.to_nat ((x + iw img * ih img - d) / iw img))
    (Q := fun o => o = out ++ map (fun y => pget img x y) (zrange (ih img)))
    as (r & E & HQ).
  3:{ replace (x + iw img * ih img - x) with (ih img * iw img) by lia.
      rewrite Z.div_mul by lia. lia. }
  3:{ rewrite HQ in E. exact E. }
  - intros [d o] (y & Hy & -> & ->). cbv beta iota.
    destruct (Z.eqb_spec (x + y * iw img) (x + iw img * ih img)) as [Heq|Hne].
    + assert (y = ih img) by nia. now subst.
    + assert (y < ih img) by nia.
      replace (x + y * iw img) with (y * iw img + x) by lia.
      rewrite rd_pix by (auto; lia). simpl bind.
      rewrite emit_ok; [|rewrite app_length, map_length, zrange_length; lia].
      simpl bind. split.
      * exists (y + 1). split; [lia|]. split; [lia|].
        rewrite zrange_S, map_app by lia. simpl. now rewrite app_assoc.
      * replace (x + iw img * ih img - (y * iw img + x + iw img))
          with ((ih img - y - 1) * iw img) by ring.
        replace (x + iw img * ih img - (y * iw img + x))
          with ((ih img - y) * iw img) by ring.
        rewrite !Z.div_mul by lia. lia.
  - exists 0. split; [lia|]. split; [lia|].
    rewrite (zrange_0 0) by lia. simpl. now rewrite app_nil_r.
Qed.

Lemma rotate90_cols_ok img n out k :
  wf_image img -> 0 <= k -> Z.of_nat n + k = iw img ->
  out = rowmajor (ih img) k (fun x y => pget img (iw img - 1 - y) x) ->
  rotate90_cols img (area img) n out =
  Ok (rowmajor (ih img) (iw img) (fun x y => pget img (iw img - 1 - y) x)).
Proof.
  intros Hwf. revert out k; induction n as [|n IH]; intros out k Hk Hn ->.
  - simpl. now replace k with (iw img) by lia.
  - simpl rotate90_cols.
    assert (Hwf' := Hwf). destruct Hwf' as (Hw & Hh & Ha & Hl).
    rewrite rotate90_col_ok; auto; try lia.
    + simpl bind. apply IH with (k := k + 1); try lia.
      rewrite rowmajor_snoc by lia. f_equal.
      apply map_ext. intros y. f_equal. lia.
    + rewrite rowmajor_length, area_wf by (auto; lia). nia.
Qed.

Lemma rotate90_ok img :
  wf_image img ->
  rotate90 img =
  Ok (mkimage (ih img) (iw img)
        (rowmajor (ih img) (iw img) (fun x y => pget img (iw img - 1 - y) x))).
Proof.
  intros Hwf. unfold rotate90.
  rewrite (rotate90_cols_ok img _ [] 0); auto; try lia.
  destruct Hwf as (Hw & _). lia.
Qed.

Lemma rotate90_law img :
  wf_image img ->
  exists r, rotate90 img = Ok r /\ wf_image r /\
    iw r = ih img /\ ih r = iw img /\
    forall x y, 0 <= x < iw r -> 0 <= y < ih r ->
      pix r x y = pix img (iw img - 1 - y) x.
Proof.
  intros Hwf. eexists. split; [apply rotate90_ok, Hwf|].
  assert (Hwf' := Hwf). destruct Hwf' as (Hw & Hh & Ha & Hl).
  split; [apply rowmajor_wf; lia|].
  split; [reflexivity|]. split; [reflexivity|]. simpl.
  intros x y Hx Hy. rewrite rowmajor_pix by lia.
  now rewrite pix_inside by (auto; lia).
Qed.

Lemma rotate90_four img :
  wf_image img ->
  exists r1 r2 r3, rotate90 img = Ok r1 /\ rotate90 r1 = Ok r2 /\
    rotate90 r2 = Ok r3 /\ rotate90 r3 = Ok img.
Proof.
  intros Hwf.
  destruct (rotate90_law img Hwf) as (r1 & E1 & W1 & w1 & h1 & P1).
  destruct (rotate90_law r1 W1) as (r2 & E2 & W2 & w2 & h2 & P2).
  destruct (rotate90_law r2 W2) as (r3 & E3 & W3 & w3 & h3 & P3).
  destruct (rotate90_law r3 W3) as (r4 & E4 & W4 & w4 & h4 & P4).
  exists r1, r2, r3. repeat split; auto. rewrite E4. f_equal.
  apply image_ext; [now apply wf_full..|]. split; [lia|]. split; [lia|].
  intros x y.
  destruct ((0 <=? x) && (x <? iw img) && (0 <=? y) && (y <? ih img)) eqn:E.
  - rewrite P4, P3, P2, P1 by lia. f_equal; lia.
  - rewrite !pix_outside; auto; lia.
Qed.

Lemma section_law img x y bw bh :
  wf_image img -> 0 <= x -> 0 <= y -> 0 <= bw -> 0 <= bh ->
  x + bw <= iw img -> y + bh <= ih img ->
  exists r, section img x y bw bh = Ok r /\ wf_image r /\
    iw r = bw /\ ih r = bh /\
    forall i j, 0 <= i < bw -> 0 <= j < bh -> pix r i j = pix img (x + i) (y + j).
Proof.
  intros Hwf Hx Hy Hbw Hbh Hxw Hyh. eexists.
  split; [now apply section_ok|].
  assert (Hwf' := Hwf). destruct Hwf' as (Hw & Hh & Ha & Hl).
  split; [apply rowmajor_wf; nia|]. split; [reflexivity|]. split; [reflexivity|].
  intros i j Hi Hj. rewrite rowmajor_pix by lia.
  now rewrite pix_inside by (auto; lia).
Qed.

Lemma clone_law img : wf_image img -> clone img = Ok img.
Proof.
  intros Hwf. unfold clone.
  assert (Hwf' := Hwf). destruct Hwf' as (Hw & Hh & Ha & Hl).
  destruct (section_law img 0 0 (iw img) (ih img)) as (r & E & W & w & h & P); auto; try lia.
  rewrite E. f_equal. apply image_ext; [now apply wf_full..|]. split; [exact w|]. split; [exact h|].
  intros x y.
  destruct ((0 <=? x) && (x <? iw img) && (0 <=? y) && (y <? ih img)) eqn:B.
  - rewrite P by lia. f_equal; lia.
  - rewrite !pix_outside; auto; lia.
Qed.

(** ** comparisons *)
Fixpoint list_cmp (a b : list pixel) : Z :=
  match a, b with
  | p :: a', q :: b' => if p =? q then list_cmp a' b' else if p <? q then -1 else 1
  | _, _ => 0
  end.

Lemma skipn_cons_nth {A} (d : A) (l : list A) k :
  (k < List.length l)%nat -> skipn k l = nth k l d :: skipn (S k) l.
Proof.
  revert k; induction l as [|c l IH]; intros [|k] Hk; simpl in *; try lia; auto.
  apply IH; lia.
Qed.

Lemma mismatch_cmp_ok a b n i :
  0 <= i -> Z.of_nat n + i = Z.of_nat (List.length a) ->
  List.length a = List.length b ->
  mismatch_cmp a b n i = Ok (list_cmp (skipn (Z.to_nat i) a) (skipn (Z.to_nat i) b)).
Proof.
  revert i; induction n as [|n IH]; intros i Hi Hn Hl; simpl mismatch_cmp.
  - rewrite (skipn_all2 a) by lia. reflexivity.
  - rewrite !(rd_nth 0) by lia. simpl bind.
    rewrite (skipn_cons_nth 0 a), (skipn_cons_nth 0 b) by lia. simpl list_cmp.
    destruct (Z.eqb_spec (nth (Z.to_nat i) a 0) (nth (Z.to_nat i) b 0)); [|reflexivity].
    rewrite IH by lia. now replace (Z.to_nat (i + 1)) with (S (Z.to_nat i)) by lia.
Qed.

Lemma equal_n_ok a b n i :
  0 <= i -> Z.of_nat n + i = Z.of_nat (List.length a) ->
  List.length a = List.length b ->
  equal_n a b n i = Ok (list_cmp (skipn (Z.to_nat i) a) (skipn (Z.to_nat i) b) =? 0).
Proof.
  revert i; induction n as [|n IH]; intros i Hi Hn Hl; simpl equal_n.
  - rewrite (skipn_all2 a) by lia. reflexivity.
  - rewrite !(rd_nth 0) by lia. simpl bind.
    rewrite (skipn_cons_nth 0 a), (skipn_cons_nth 0 b) by lia. simpl list_cmp.
    destruct (Z.eqb_spec (nth (Z.to_nat i) a 0) (nth (Z.to_nat i) b 0)).
    + rewrite IH by lia. now replace (Z.to_nat (i + 1)) with (S (Z.to_nat i)) by lia.
    + destruct (nth (Z.to_nat i) a 0 <? nth (Z.to_nat i) b 0); reflexivity.
Qed.

Lemma list_cmp_vals a b : list_cmp a b = -1 \/ list_cmp a b = 0 \/ list_cmp a b = 1.
Proof.
  revert b; induction a as [|p a IH]; intros [|q b]; simpl; auto.
  destruct (p =? q); auto. destruct (p <? q); auto.
Qed.

Lemma list_cmp_eq a b : List.length a = List.length b -> list_cmp a b = 0 -> a = b.
Proof.
  revert b; induction a as [|p a IH]; intros [|q b] Hl H; simpl in *; try lia; auto.
  destruct (Z.eqb_spec p q).
  - subst; f_equal; apply IH; auto.
  - destruct (p <? q); discriminate.
Qed.

Lemma list_cmp_refl a : list_cmp a a = 0.
Proof. induction a as [|p a IH]; simpl; auto. now rewrite Z.eqb_refl. Qed.

Lemma list_cmp_antisym a b : list_cmp b a = - list_cmp a b.
Proof.
  revert b; induction a as [|p a IH]; intros [|q b]; simpl; auto.
  destruct (Z.eqb_spec p q), (Z.eqb_spec q p); try lia; auto.
  destruct (Z.ltb_spec p q), (Z.ltb_spec q p); lia.
Qed.

Lemma list_cmp_trans a b c :
  List.length a = List.length b -> List.length b = List.length c ->
  list_cmp a b = -1 -> list_cmp b c = -1 -> list_cmp a c = -1.
Proof.
  revert b c; induction a as [|p a IH]; intros [|q b] [|r c] H1 H2 Hab Hbc; simpl in *; try lia.
  destruct (Z.eqb_spec p q), (Z.eqb_spec q r), (Z.eqb_spec p r); try lia.
  - eapply IH; [| |exact Hab|exact Hbc]; lia.
  - destruct (Z.ltb_spec p r), (Z.ltb_spec q r); lia.
  - destruct (Z.ltb_spec p r), (Z.ltb_spec p q); lia.
  - destruct (Z.ltb_spec q r), (Z.ltb_spec p q); lia.
  - destruct (Z.ltb_spec q r), (Z.ltb_spec p q), (Z.ltb_spec p r); lia.
Qed.

(** Closed form of [image_compare]. *)
Definition img_cmp (a b : image) : Z :=
  if iw a <? iw b then -1 else if iw b <? iw a then 1
  else if ih a <? ih b then -1 else if ih b <? ih a then 1
  else list_cmp (idata a) (idata b).

Lemma full_len_eq a b :
  full_image a -> full_image b -> iw a = iw b -> ih a = ih b ->
  List.length (idata a) = List.length (idata b).
Proof. intros (_ & _ & Ha) (_ & _ & Hb) E1 E2. rewrite E1, E2 in Ha. lia. Qed.

Lemma image_compare_ok a b :
  full_image a -> full_image b -> image_compare a b = Ok (img_cmp a b).
Proof.
  intros Ha Hb. unfold image_compare, img_cmp.
  destruct (Z.ltb_spec (iw a) (iw b)); auto.
  destruct (Z.ltb_spec (iw b) (iw a)); auto.
  destruct (Z.ltb_spec (ih a) (ih b)); auto.
  destruct (Z.ltb_spec (ih b) (ih a)); auto.
  rewrite mismatch_cmp_ok; auto; try lia.
  - destruct Ha as (_ & _ & Ha). unfold area, u32. lia.
  - apply full_len_eq; auto; lia.
Qed.

Lemma image_eq_ok a b :
  full_image a -> full_image b -> image_eq a b = Ok (img_cmp a b =? 0).
Proof.
  intros Ha Hb. unfold image_eq, img_cmp.
  destruct (Z.eqb_spec (iw a) (iw b)), (Z.eqb_spec (ih a) (ih b)); simpl;
    destruct (Z.ltb_spec (iw a) (iw b)), (Z.ltb_spec (iw b) (iw a)),
             (Z.ltb_spec (ih a) (ih b)), (Z.ltb_spec (ih b) (ih a)); try lia; auto.
  rewrite equal_n_ok; auto; try lia.
  - destruct Ha as (_ & _ & Ha). unfold area, u32. lia.
  - apply full_len_eq; auto; lia.
Qed.

Lemma img_cmp_vals a b : img_cmp a b = -1 \/ img_cmp a b = 0 \/ img_cmp a b = 1.
Proof.
  unfold img_cmp. repeat match goal with |- context [if ?c then _ else _] => destruct c end; auto.
  apply list_cmp_vals.
Qed.

Lemma img_cmp_eq a b : full_image a -> full_image b -> (img_cmp a b = 0 <-> a = b).
Proof.
  intros Ha Hb. split.
  - unfold img_cmp.
    destruct (Z.ltb_spec (iw a) (iw b)); try discriminate.
    destruct (Z.ltb_spec (iw b) (iw a)); try discriminate.
    destruct (Z.ltb_spec (ih a) (ih b)); try discriminate.
    destruct (Z.ltb_spec (ih b) (ih a)); try discriminate.
    intros H3. destruct a as [aw ah ad], b as [bw bh bd]; simpl in *.
    assert (aw = bw) by lia. assert (ah = bh) by lia. subst. f_equal.
    apply list_cmp_eq; auto. apply (full_len_eq _ _ Ha Hb); reflexivity.
  - intros ->. unfold img_cmp. rewrite !Z.ltb_irrefl. apply list_cmp_refl.
Qed.

Lemma img_cmp_antisym a b : img_cmp b a = - img_cmp a b.
Proof.
  unfold img_cmp.
  destruct (Z.ltb_spec (iw a) (iw b)), (Z.ltb_spec (iw b) (iw a)); try lia.
  destruct (Z.ltb_spec (ih a) (ih b)), (Z.ltb_spec (ih b) (ih a)); try lia.
  apply list_cmp_antisym.
Qed.

Lemma img_cmp_trans a b c :
  full_image a -> full_image b -> full_image c ->
  img_cmp a b = -1 -> img_cmp b c = -1 -> img_cmp a c = -1.
Proof.
  intros Ha Hb Hc. unfold img_cmp.
  destruct (Z.ltb_spec (iw a) (iw b)), (Z.ltb_spec (iw b) (iw a)),
   (Z.ltb_spec (iw b) (iw c)), (Z.ltb_spec (iw c) (iw b)),
   (Z.ltb_spec (iw a) (iw c)), (Z.ltb_spec (iw c) (iw a)); try lia.
  destruct (Z.ltb_spec (ih a) (ih b)), (Z.ltb_spec (ih b) (ih a)),
   (Z.ltb_spec (ih b) (ih c)), (Z.ltb_spec (ih c) (ih b)),
   (Z.ltb_spec (ih a) (ih c)), (Z.ltb_spec (ih c) (ih a)); try lia.
  apply list_cmp_trans; [apply (full_len_eq a b)|apply (full_len_eq b c)]; auto; lia.
Qed.

Lemma list_cmp_first a b :
  List.length a = List.length b ->
  (list_cmp a b = -1 <->
   exists k p q, nth_error a k = Some p /\ nth_error b k = Some q /\ p < q /\
     forall j, (j < k)%nat -> nth_error a j = nth_error b j).
Proof.
  revert b; induction a as [|p a IH]; intros [|q b] Hl; simpl in Hl; try lia.
  - simpl. split; [lia|]. intros (k & p & q & H & _). destruct k; discriminate.
  - simpl. destruct (Z.eqb_spec p q) as [->|Hne].
    + rewrite IH by lia. split.
      * intros (k & p' & q' & H1 & H2 & H3 & H4). exists (S k), p', q'. repeat split; auto.
        intros [|j] Hj; simpl; auto. apply H4; lia.
      * intros ([|k] & p' & q' & H1 & H2 & H3 & H4); simpl in *.
        -- injection H1 as ->; injection H2 as ->; lia.
        -- exists k, p', q'. repeat split; auto. intros j Hj. apply (H4 (S j)); lia.
    + destruct (Z.ltb_spec p q).
      * split; [|lia]. intros _. exists 0%nat, p, q. repeat split; auto. intros j Hj; lia.
      * split; [lia|]. intros ([|k] & p' & q' & H1 & H2 & H3 & H4); simpl in *.
        -- injection H1 as ->; injection H2 as ->; lia.
        -- specialize (H4 0%nat ltac:(lia)). simpl in H4. congruence.
Qed.

Lemma pix_of_index img k :
  full_image img -> (k < List.length (idata img))%nat ->
  exists x y, 0 <= x < iw img /\ 0 <= y < ih img /\ k = Z.to_nat (y * iw img + x)
    /\ pix img x y = nth_error (idata img) k.
Proof.
  intros (Hw & Hh & Hl) Hk.
  assert (0 <= iw img * ih img) by nia. pose proof (Z.mod_le (iw img * ih img) 4294967296 ltac:(lia) ltac:(lia)).
  assert (0 < iw img) by nia.
  exists (Z.of_nat k mod iw img), (Z.of_nat k / iw img).
  pose proof (Z.mod_pos_bound (Z.of_nat k) (iw img) ltac:(lia)).
  pose proof (Z.div_mod (Z.of_nat k) (iw img) ltac:(lia)).
  assert (0 <= Z.of_nat k / iw img < ih img).
  { split; [apply Z.div_pos; lia|apply Z.div_lt_upper_bound; lia]. }
  assert (Ek : k = Z.to_nat (Z.of_nat k / iw img * iw img + Z.of_nat k mod iw img)) by lia.
  repeat split; try lia.
  unfold pix.
  replace ((0 <=? Z.of_nat k mod iw img) && (Z.of_nat k mod iw img <? iw img)
    && (0 <=? Z.of_nat k / iw img) && (Z.of_nat k / iw img <? ih img)) with true.
  - now rewrite <- Ek.
  - symmetry. rewrite !andb_true_iff. repeat split; try (apply Z.leb_le; lia); apply Z.ltb_lt; lia.
Qed.

Lemma pix_some img x y p :
  pix img x y = Some p ->
  0 <= x < iw img /\ 0 <= y < ih img /\ nth_error (idata img) (Z.to_nat (y * iw img + x)) = Some p.
Proof.
  unfold pix.
  destruct ((0 <=? x) && (x <? iw img) && (0 <=? y) && (y <? ih img)) eqn:E; [|discriminate].
  intros H. repeat split; auto; lia.
Qed.

Lemma img_cmp_before a b :
  full_image a -> full_image b -> (img_cmp a b = -1 <-> picture_before a b).
Proof.
  intros Ha Hb. unfold img_cmp, picture_before.
  destruct (Z.ltb_spec (iw a) (iw b)); [split; auto|].
  destruct (Z.ltb_spec (iw b) (iw a)); [split; [lia|]; intros [?|[[? ?]|(? & ? & _)]]; lia|].
  destruct (Z.ltb_spec (ih a) (ih b)); [split; [intros _; right; left; lia|lia]|].
  destruct (Z.ltb_spec (ih b) (ih a)); [split; [lia|]; intros [?|[[? ?]|(? & ? & _)]]; lia|].
  assert (Ew : iw a = iw b) by lia. assert (Eh : ih a = ih b) by lia.
  rewrite list_cmp_first by (apply full_len_eq; auto).
  split.
  - intros (k & p & q & H3 & H4 & H5 & H6). right; right. split; [lia|]. split; [lia|].
    destruct (pix_of_index a k Ha) as (x & y & Hx & Hy & Hk & Hp).
    { apply nth_error_Some. congruence. }
    exists x, y, p, q. split; [congruence|]. split.
    { unfold pix. rewrite <- Ew, <- Eh.
      replace ((0 <=? x) && (x <? iw a) && (0 <=? y) && (y <? ih a)) with true by lia.
      now rewrite <- Hk. }
    split; [exact H5|]. intros x' y' Hlt.
    unfold pix. rewrite <- Ew, <- Eh.
    destruct ((0 <=? x') && (x' <? iw a) && (0 <=? y') && (y' <? ih a)) eqn:B; [|reflexivity].
    apply H6. rewrite Hk. nia.
  - intros [?|[[? ?]|(_ & _ & x & y & p & q & H3 & H4 & H5 & H6)]]; try lia.
    apply pix_some in H3, H4. destruct H3 as (Hx & Hy & H3), H4 as (_ & _ & H4).
    exists (Z.to_nat (y * iw a + x)), p, q. split; [exact H3|].
    split; [rewrite Ew; exact H4|]. split; [exact H5|]. intros j Hj.
    assert (Hja : (j < List.length (idata a))%nat).
    { assert (nth_error (idata a) (Z.to_nat (y * iw a + x)) <> None) by congruence.
      apply nth_error_Some in H7. lia. }
    destruct (pix_of_index a j Ha Hja) as (x' & y' & Hx' & Hy' & Hj' & Hp').
    rewrite <- Hp'. rewrite H6 by nia.
    unfold pix. rewrite <- Ew, <- Eh.
    replace ((0 <=? x') && (x' <? iw a) && (0 <=? y') && (y' <? ih a)) with true by lia.
    now rewrite <- Hj'.
Qed.

Lemma same_picture_eq a b : full_image a -> full_image b -> (same_picture a b <-> a = b).
Proof.
  intros Ha Hb; split; [now apply image_ext|]. intros ->. repeat split.
Qed.

Lemma image_compare_law a b :
  full_image a -> full_image b ->
  exists c, image_compare a b = Ok c /\ image_compare b a = Ok (- c) /\
    (c = -1 \/ c = 0 \/ c = 1) /\
    (c = 0 <-> same_picture a b) /\ (c = -1 <-> picture_before a b) /\
    image_eq a b = Ok (c =? 0).
Proof.
  intros Ha Hb. exists (img_cmp a b).
  rewrite image_compare_ok, image_compare_ok, image_eq_ok by assumption.
  rewrite (img_cmp_antisym a b). repeat split; auto.
  - apply img_cmp_vals.
  - now apply img_cmp_eq in H; subst.
  - now apply img_cmp_eq in H; subst.
  - now apply img_cmp_eq in H; subst.
  - intros H. apply img_cmp_eq; auto. now apply same_picture_eq.
  - now apply img_cmp_before.
  - now apply img_cmp_before.
Qed.

Lemma image_compare_trans a b c :
  full_image a -> full_image b -> full_image c ->
  image_compare a b = Ok (-1) -> image_compare b c = Ok (-1) ->
  image_compare a c = Ok (-1).
Proof.
  intros Ha Hb Hc. rewrite !image_compare_ok by assumption.
  intros H1 H2. injection H1 as H1. injection H2 as H2. f_equal. apply (img_cmp_trans a b c); auto.
Qed.
