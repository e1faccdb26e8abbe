(** Border counters of the zones and the features built on them. *)
From Verif Require Import Base BaseProofs ImageModel ImageSpec ImageProofs StratModel StratSpec StratProofs ProofTools ZoneModel ZoneSpec ZoneProofs.

(** * The numbering is determined by the image *)

Lemma linked_trans' img p q r : linked img p q -> linked img q r -> linked img p r.
Proof.
  intros H1 H2. revert H1. induction H2 as [x y H|p' q' x y H IH Ht Hp]; intros H1; [exact H1|].
  exact (linked_next img p q' x y (IH H1) Ht Hp).
Qed.

Lemma touching_sym p q : touching p q -> touching q p.
Proof. unfold touching. lia. Qed.

Lemma linked_sym' img p q : linked img p q -> linked img q p.
Proof.
  induction 1 as [x y H|p q x y H IH Ht Hp]; [now constructor|].
  eapply linked_trans'; [|exact IH]. destruct q as (x0 & y0).
  eapply linked_next; [constructor; exact Hp|now apply touching_sym|].
  pose proof (linked_paper img _ _ H) as (_ & Hq). exact Hq.
Qed.

Lemma rank_inj img p q :
  paper img (fst p) (snd p) = true -> paper img (fst q) (snd q) = true -> rank img p = rank img q -> p = q.
Proof.
  intros Hp Hq E. apply paper_inside in Hp. apply paper_inside in Hq.
  destruct p as (x & y), q as (x' & y'). unfold rank in E. unfold inside in *. cbn [fst snd] in *.
  assert (y = y') by nia. subst y'. f_equal. lia.
Qed.

Lemma numbering_unique img k1 lab1 k2 lab2 :
  zone_numbering img k1 lab1 -> zone_numbering img k2 lab2 -> 0 <= k1 -> 0 <= k2 ->
  k1 = k2 /\ forall x y, lab1 x y = lab2 x y.
Proof.
  intros (A1 & B1 & C1 & f1 & F1 & O1) (A2 & B2 & C2 & f2 & F2 & O2) K1 K2.
  assert (Step : forall n v, (Z.to_nat v <= n)%nat -> 1 <= v <= k1 -> v <= k2 -> f1 v = f2 v).
  { induction n as [|n IH]; intros v Hn Hv1 Hv2; [lia|].
    assert (IH' : forall u, 1 <= u < v -> f1 u = f2 u) by (intros u Hu; apply IH; lia).
    assert (Half : forall (ka kb : Z) (la lb : Z -> Z -> Z) (fa fb : Z -> Z * Z),
      1 <= v <= ka -> v <= kb ->
      (forall x y, paper img x y = true -> 1 <= lb x y <= kb) ->
      (forall x y x' y', paper img x y = true -> paper img x' y' = true -> (la x y = la x' y' <-> linked img (x, y) (x', y'))) ->
      (forall x y x' y', paper img x y = true -> paper img x' y' = true -> (lb x y = lb x' y' <-> linked img (x, y) (x', y'))) ->
      (forall v, 1 <= v <= ka -> paper img (fst (fa v)) (snd (fa v)) = true /\ la (fst (fa v)) (snd (fa v)) = v /\
         forall x y, paper img x y = true -> la x y = v -> rank img (fa v) <= rank img (x, y)) ->
      (forall v, 1 <= v <= kb -> paper img (fst (fb v)) (snd (fb v)) = true /\ lb (fst (fb v)) (snd (fb v)) = v /\
         forall x y, paper img x y = true -> lb x y = v -> rank img (fb v) <= rank img (x, y)) ->
      (forall v v', 1 <= v -> v < v' -> v' <= kb -> rank img (fb v) < rank img (fb v')) ->
      (forall u, 1 <= u < v -> fa u = fb u) -> rank img (fb v) <= rank img (fa v)).
    { clear. intros ka kb la lb fa fb Ha Hb Ab Ca Cb Fa Fb Ob IH.
      destruct (Fa v Ha) as (P1 & L1 & _). set (u := lb (fst (fa v)) (snd (fa v))).
      pose proof (Ab _ _ P1) as Hu. fold u in Hu.
      destruct (Fb u Hu) as (Pu & Lu & Mu).
      assert (Hlink : linked img (fst (fb u), snd (fb u)) (fst (fa v), snd (fa v))).
      { apply Cb; auto. }
      destruct (Z.lt_ge_cases u v) as [Hlt|Hge].
      - exfalso. destruct (Fa u ltac:(lia)) as (P2 & L2 & _). rewrite IH in P2, L2 by lia.
        apply Ca in Hlink; auto. lia.
      - transitivity (rank img (fb u)).
        + destruct (Z.eq_dec u v) as [->|]; [lia|]. apply Z.lt_le_incl, Ob; lia.
        + specialize (Mu _ _ P1 eq_refl). unfold rank in *. cbn [fst snd] in Mu. exact Mu. }
    pose proof (Half k1 k2 lab1 lab2 f1 f2 Hv1 Hv2 A2 C1 C2 F1 F2 O2 IH') as R1.
    pose proof (Half k2 k1 lab2 lab1 f2 f1 ltac:(lia) ltac:(lia) A1 C2 C1 F2 F1 O1 (fun u Hu => eq_sym (IH' u Hu))) as R2.
    apply (rank_inj img); [now apply F1|apply F2; lia|lia]. }
  assert (Le : forall (ka kb : Z) (la lb : Z -> Z -> Z) (fa fb : Z -> Z * Z), 0 <= ka ->
      (forall x y, paper img x y = true -> 1 <= la x y <= ka) ->
      (forall x y x' y', paper img x y = true -> paper img x' y' = true -> (la x y = la x' y' <-> linked img (x, y) (x', y'))) ->
      (forall x y x' y', paper img x y = true -> paper img x' y' = true -> (lb x y = lb x' y' <-> linked img (x, y) (x', y'))) ->
      (forall v, 1 <= v <= ka -> paper img (fst (fa v)) (snd (fa v)) = true /\ la (fst (fa v)) (snd (fa v)) = v /\
         forall x y, paper img x y = true -> la x y = v -> rank img (fa v) <= rank img (x, y)) ->
      (forall v, 1 <= v <= kb -> paper img (fst (fb v)) (snd (fb v)) = true /\ lb (fst (fb v)) (snd (fb v)) = v /\
         forall x y, paper img x y = true -> lb x y = v -> rank img (fb v) <= rank img (x, y)) ->
      (forall v, 1 <= v <= ka -> v <= kb -> fa v = fb v) -> kb <= ka).
  { clear. intros ka kb la lb fa fb Hka Aa Ca Cb Fa Fb Eq.
    destruct (Z.le_gt_cases kb ka); [auto|]. exfalso.
    destruct (Fb (ka + 1) ltac:(lia)) as (P & L & _). pose proof (Aa _ _ P) as Hu.
    set (u := la (fst (fb (ka + 1))) (snd (fb (ka + 1)))) in *.
    destruct (Fa u Hu) as (Pu & Lu & _).
    assert (Hlink : linked img (fst (fa u), snd (fa u)) (fst (fb (ka + 1)), snd (fb (ka + 1)))).
    { apply Ca; auto. }
    rewrite Eq in Hlink by lia. destruct (Fb u ltac:(lia)) as (Pb & Lb & _).
    apply Cb in Hlink; auto. lia. }
  assert (Ek : k1 = k2).
  { apply Z.le_antisymm.
    - apply (Le k2 k1 lab2 lab1 f2 f1); auto. intros v H1 H2. symmetry. apply (Step (Z.to_nat v)); lia.
    - apply (Le k1 k2 lab1 lab2 f1 f2); auto. intros v H1 H2. apply (Step (Z.to_nat v)); lia. }
  split; [exact Ek|]. subst k2. intros x y. destruct (paper img x y) eqn:Ep.
  - pose proof (A1 x y Ep) as Hu. set (u := lab1 x y) in *.
    destruct (F1 u Hu) as (P1 & L1 & _).
    assert (Hlink : linked img (fst (f1 u), snd (f1 u)) (x, y)) by (apply C1; auto).
    rewrite (Step (Z.to_nat u)) in Hlink by lia. destruct (F2 u ltac:(lia)) as (P2 & L2 & _).
    apply C2 in Hlink; auto. lia.
  - now rewrite B1, B2.
Qed.

(** * Buffers *)

Lemma alloc_zero_ok junk n buf : 0 <= n ->
  n <= zlen (alloc_zero junk n buf) /\ forall j, 0 <= j < n -> cell (alloc_zero junk n buf) j = 0.
Proof.
  intros Hn. unfold alloc_zero. split.
  - unfold zlen. rewrite app_length, repeat_length. lia.
  - intros j Hj. unfold cell. rewrite app_nth1 by (rewrite repeat_length; lia).
    apply nth_repeat.
Qed.

(** * Counters *)

Definition counts (zi : zone_info) (k len : Z) (f : Z -> Z -> Z) : Prop :=
  zi_count zi = k /\ zlen (zi_cells zi) = len /\
  forall d v, 0 <= d < 4 -> 1 <= v <= k -> cell (zi_cells zi) (k * d + (v - 1)) = f d v.

Lemma counts_ext zi k len f g : counts zi k len f ->
  (forall d v, 0 <= d < 4 -> 1 <= v <= k -> f d v = g d v) -> counts zi k len g.
Proof.
  intros (H1 & H2 & H3) E. split; [auto|]. split; [auto|]. intros d v Hd Hv. rewrite H3, E; auto.
Qed.

Lemma slot_inj k d v d' v' : 0 <= d < 4 -> 0 <= d' < 4 -> 1 <= v <= k -> 1 <= v' <= k ->
  k * d + (v - 1) = k * d' + (v' - 1) -> d = d' /\ v = v'.
Proof. intros. assert (d = d') by nia. subst. lia. Qed.

Lemma slot_range k d v : 0 <= d < 4 -> 1 <= v <= k -> 0 <= k * d + (v - 1) < 4 * k.
Proof. intros. nia. Qed.

Lemma insert_ok img m k len f zi d x y l :
  counts zi k len f -> 4 * k <= len -> 4 * k < 4294967296 ->
  rd m (to_size_t img x y) = Ok l -> 0 <= l <= k -> 0 <= d < 4 ->
  (1 <= l -> 0 <= f d l < 4294967295) ->
  exists zi', zi_insert img m d x y zi = Ok zi' /\
    counts zi' k len (fun d' v => f d' v + (if (d' =? d) && (l =? v) then 1 else 0)).
Proof.
  intros (Hc1 & Hc2 & Hc3) Hlen Hk E Hl Hd Hf. unfold zi_insert. rewrite E. cbn [bind].
  destruct (Z.eqb_spec l 0) as [->|Hl0].
  - exists zi. split; [reflexivity|]. apply counts_ext with (f := f); [split; auto|].
    intros d' v Hd' Hv. destruct (Z.eqb_spec 0 v); [lia|]. rewrite andb_false_r. lia.
  - assert (Hs : zi_offset zi d (u32 (l - 1)) = k * d + (l - 1)).
    { unfold zi_offset. rewrite Hc1. rewrite !u32_small; [lia|lia|nia]. }
    rewrite Hs. pose proof (slot_range k d l Hd ltac:(lia)) as Hr.
    rewrite rd_cell by lia. cbn [bind]. rewrite Hc3 by lia.
    specialize (Hf ltac:(lia)). rewrite u32_small by lia.
    destruct (wr_cell (zi_cells zi) (k * d + (l - 1)) (f d l + 1)) as (cells & Ew & Hl' & Hcell); [lia|].
    rewrite Ew. cbn [bind]. eexists; split; [reflexivity|].
    split; [exact Hc1|]. split; [cbn [zi_cells]; lia|]. cbn [zi_cells]. intros d' v Hd' Hv.
    pose proof (slot_range k d' v Hd' Hv). rewrite Hcell by lia.
    destruct (Z.eqb_spec (k * d' + (v - 1)) (k * d + (l - 1))) as [Es|Es].
    + apply slot_inj in Es; auto; [|lia]. destruct Es as (-> & ->). rewrite !Z.eqb_refl. cbn [andb]. lia.
    + rewrite Hc3 by auto. destruct (Z.eqb_spec d' d), (Z.eqb_spec l v); cbn [andb]; try lia.
Qed.

Lemma zi_get_ok zi k len f d v :
  counts zi k len f -> 4 * k <= len -> 4 * k < 4294967296 -> 0 <= d < 4 -> 1 <= v <= k ->
  zi_get zi d (v - 1) = Ok (f d v).
Proof.
  intros (Hc1 & Hc2 & Hc3) Hlen Hk Hd Hv. unfold zi_get, zi_offset. rewrite Hc1.
  rewrite u32_small by nia. rewrite rd_cell by (pose proof (slot_range k d v Hd Hv); lia).
  now rewrite Hc3.
Qed.

(** The four counters as one table. *)
Definition side_count (img : image) (lab : Z -> Z -> Z) (d v : Z) : Z :=
  if d =? 0 then on_top img lab v
  else if d =? 1 then on_right img lab v
  else if d =? 2 then on_bottom img lab v
  else on_left img lab v.

Lemma ind_sum_range (P : Z -> bool) n : 0 <= n -> 0 <= zsum (fun i => if P i then 1 else 0) n <= n.
Proof.
  intros Hn. split.
  - apply zsum_nonneg. intros; destruct (P i); lia.
  - transitivity (zsum (fun _ => 1) n); [|rewrite zsum_const; lia].
    apply zsum_le. intros; destruct (P i); lia.
Qed.

Lemma count_zone_raw junk img ctx :
  wf_image img -> 1 <= iw img -> 1 <= ih img -> iw img * ih img < 1073741824 ->
  exists k lab zc len, count_zone_compute junk img ctx = Ok zc /\ zone_numbering img k lab /\
    0 <= k <= iw img * ih img /\ 4 * k <= len /\
    counts (zc_zone zc) k len (side_count img lab) /\
    forall x y, 0 <= x < iw img -> 0 <= y < ih img -> rd (zc_buf zc) (y * iw img + x) = Ok (lab x y).
Proof.
  intros Hwf Hw Hh Hb. assert (Hwf' := Hwf). destruct Hwf' as (Hw' & Hh' & Ha & Hl).
  unfold count_zone_compute. rewrite area_wf by exact Hwf.
  assert (HA : 0 <= iw img * ih img) by nia.
  rewrite (u32_small (iw img * ih img * 2)) by lia. rewrite (u32_small (iw img * ih img * 2 + 2)) by lia.
  destruct (alloc_zero_ok junk (iw img * ih img * 2 + 2) (zc_buf ctx) ltac:(lia)) as (Hm1 & Hm2).
  set (m0 := alloc_zero junk _ (zc_buf ctx)) in *.
  destruct (label_zones_ok img Hwf m0 (zlen m0) ltac:(lia) eq_refl ltac:(lia)) as (m & c & first & E & Lab).
  { intros j Hj. apply Hm2. lia. }
  rewrite E. cbn [bind]. pose proof (numbering_of img Hwf c (zlen m0) first m Lab) as Num.
  set (lab := lab_of img m) in *. set (k := c - 1).
  assert (Hk : 0 <= k <= iw img * ih img) by (destruct Lab; unfold k; lia).
  rewrite (u32_small k) by lia. fold k in Num.
  assert (Hlabr : forall x y, 0 <= lab x y <= k).
  { intros x y. destruct Num as (N1 & N2 & _). destruct (paper img x y) eqn:Ep; [specialize (N1 x y Ep); lia|].
    rewrite (N2 x y Ep); lia. }
  assert (Hrd : forall x y, 0 <= x < iw img -> 0 <= y < ih img -> rd m (to_size_t img x y) = Ok (lab x y)).
  { intros x y Hx Hy. rewrite to_size_t_wf by (auto; try lia; nia).
    destruct Lab. rewrite rd_cell by nia. f_equal. unfold lab, lab_of.
    now replace ((0 <=? x) && (x <? iw img) && (0 <=? y) && (y <? ih img)) with true by lia. }
  destruct (alloc_zero_ok junk (k * 4) (zi_cells (zc_zone ctx)) ltac:(lia)) as (Hz1 & Hz2).
  assert (C0 : exists len, 4 * k <= len /\ counts (zi_alloc junk k (zc_zone ctx)) k len (fun _ _ => 0)).
  { exists (zlen (alloc_zero junk (k * 4) (zi_cells (zc_zone ctx)))). split; [lia|].
    unfold zi_alloc. rewrite u32_small by lia. split; [reflexivity|]. split; [reflexivity|].
    cbn [zi_cells]. intros d v Hd Hv. apply Hz2. pose proof (slot_range k d v Hd Hv). lia. }
  destruct C0 as (len & Hlen & C0). set (zi0 := zi_alloc junk k (zc_zone ctx)) in *. clearbody zi0.
  rewrite (u32_small (ih img - 1)), (u32_small (iw img - 1)) by lia.
  set (f1 := fun n d v => if d =? 0 then zsum (fun x => if lab x 0 =? v then 1 else 0) n
                          else if d =? 2 then zsum (fun x => if lab x (ih img - 1) =? v then 1 else 0) n
                          else 0).
  for_up_with (fun n zi => counts zi k len (f1 n)).
  { intros x zi Hx C. assert (Hx' : 0 <= x < iw img) by lia. clear Hx.
    destruct (insert_ok img m k len (f1 x) zi 0 x 0 (lab x 0) C Hlen ltac:(lia)) as (zi1 & E1 & C1).
    { apply Hrd; lia. } { apply Hlabr. } { lia. }
    { intros _. unfold f1. cbn [Z.eqb]. pose proof (ind_sum_range (fun x0 => lab x0 0 =? lab x 0) x ltac:(lia)). cbv beta in *. nia. }
    rewrite E1. cbn [bind].
    destruct (insert_ok img m k len _ zi1 2 x (ih img - 1) (lab x (ih img - 1)) C1 Hlen ltac:(lia)) as (zi2 & E2 & C2).
    { apply Hrd; lia. } { apply Hlabr. } { lia. }
    { intros _. unfold f1. cbn [Z.eqb Pos.eqb andb].
      pose proof (ind_sum_range (fun x0 => lab x0 (ih img - 1) =? lab x (ih img - 1)) x ltac:(lia)). cbv beta in *. nia. }
    exists zi2. split; [exact E2|]. eapply counts_ext; [exact C2|]. intros d v Hd Hv. cbv beta. unfold f1.
    rewrite !zsum_S by lia.
    assert (Hd' : d = 0 \/ d = 1 \/ d = 2 \/ d = 3) by lia.
    destruct Hd' as [->|[->|[->| ->]]]; cbn [Z.eqb Pos.eqb andb]; lia. }
  { eapply counts_ext; [exact C0|]. intros d v Hd Hv. unfold f1. rewrite !zsum_0 by lia. destruct (d =? 0), (d =? 2); reflexivity. }
  replace (0 + Z.of_nat (Z.to_nat (iw img))) with (iw img) in Hloop by lia. cbn [bind].
  set (f2 := fun n d v => if d =? 3 then zsum (fun y => if lab 0 y =? v then 1 else 0) n
                          else if d =? 1 then zsum (fun y => if lab (iw img - 1) y =? v then 1 else 0) n
                          else f1 (iw img) d v).
  for_up_with (fun n zi => counts zi k len (f2 n)).
  { intros y zi Hy C. assert (Hy' : 0 <= y < ih img) by lia. clear Hy.
    destruct (insert_ok img m k len (f2 y) zi 3 0 y (lab 0 y) C Hlen ltac:(lia)) as (zi1 & E1 & C1).
    { apply Hrd; lia. } { apply Hlabr. } { lia. }
    { intros _. unfold f2. cbn [Z.eqb Pos.eqb]. pose proof (ind_sum_range (fun y0 => lab 0 y0 =? lab 0 y) y ltac:(lia)). cbv beta in *. nia. }
    rewrite E1. cbn [bind].
    destruct (insert_ok img m k len _ zi1 1 (iw img - 1) y (lab (iw img - 1) y) C1 Hlen ltac:(lia)) as (zi2 & E2 & C2).
    { apply Hrd; lia. } { apply Hlabr. } { lia. }
    { intros _. unfold f2. cbn [Z.eqb Pos.eqb andb].
      pose proof (ind_sum_range (fun y0 => lab (iw img - 1) y0 =? lab (iw img - 1) y) y ltac:(lia)). cbv beta in *. nia. }
    exists zi2. split; [exact E2|]. eapply counts_ext; [exact C2|]. intros d v Hd Hv. cbv beta. unfold f2.
    rewrite !zsum_S by lia.
    assert (Hd' : d = 0 \/ d = 1 \/ d = 2 \/ d = 3) by lia.
    destruct Hd' as [->|[->|[->| ->]]]; cbn [Z.eqb Pos.eqb andb]; lia. }
  { eapply counts_ext; [exact Hloop|]. intros d v Hd Hv. unfold f2. rewrite !zsum_0 by lia.
    assert (Hd' : d = 0 \/ d = 1 \/ d = 2 \/ d = 3) by lia.
    destruct Hd' as [->|[->|[->| ->]]]; reflexivity. }
  replace (0 + Z.of_nat (Z.to_nat (ih img))) with (ih img) in Hloop0 by lia. cbn [bind].
  exists k, lab. eexists. exists len. split; [reflexivity|]. split; [exact Num|]. split; [exact Hk|].
  split; [exact Hlen|]. cbn [zc_zone zc_buf]. split.
  2: { intros x y Hx Hy. rewrite <- Hrd by assumption. rewrite to_size_t_wf by (auto; try lia; nia). reflexivity. }
  eapply counts_ext; [exact Hloop0|].
  intros d v Hd Hv. unfold f2, f1, side_count, on_top, on_bottom, on_left, on_right.
  assert (Hd' : d = 0 \/ d = 1 \/ d = 2 \/ d = 3) by lia.
  destruct Hd' as [->|[->|[->| ->]]]; reflexivity.
Qed.
