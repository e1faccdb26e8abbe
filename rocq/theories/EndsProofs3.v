(** Every run ends: the zones, and the load of the features. *)
From Verif Require Import Base BaseProofs SortModel ImageModel StratModel ZoneModel DatasModel TrieModel EndsSpec EndsProofs EndsProofs2.

(** * Zones *)
Fixpoint zeros (n : nat) (m : list Z) : nat :=
  match n, m with
  | S n', x :: m' => if x =? 0 then S (zeros n' m') else zeros n' m'
  | _, _ => O
  end.
Lemma zeros_le n : forall m, (zeros n m <= n)%nat.
Proof. induction n as [|n IH]; intros [|x m]; cbn [zeros]; try lia. destruct (x =? 0); specialize (IH m); lia. Qed.
Lemma zeros_mark n : forall m j c, (j < n)%nat -> nth_error m j = Some 0 -> c <> 0 -> zeros n m = S (zeros n (upd m j c)).
Proof.
  induction n as [|n IH]; intros [|x m] j c Hj Hm Hc; try lia; [now destruct j|]. destruct j as [|j]; cbn [zeros upd nth_error] in *.
  - injection Hm as ->. cbn [Z.eqb]. destruct (Z.eqb_spec c 0); [lia|reflexivity].
  - assert (E : zeros n m = S (zeros n (upd m j c))) by (apply IH; [lia|assumption|assumption]). destruct (x =? 0); rewrite E; reflexivity.
Qed.
Lemma zeros_far n : forall m j c, (n <= j)%nat -> zeros n (upd m j c) = zeros n m.
Proof.
  induction n as [|n IH]; intros [|x m] j c Hj; try reflexivity; destruct j as [|j]; try lia; cbn [zeros upd]; try reflexivity. rewrite IH by lia. reflexivity.
Qed.
Lemma zeros_set n : forall m j c, c <> 0 -> (zeros n (upd m j c) <= zeros n m)%nat.
Proof.
  induction n as [|n IH]; intros [|x m] j c Hc; try (cbn [zeros upd]; lia); destruct j as [|j]; cbn [zeros upd]; try lia.
  - destruct (Z.eqb_spec c 0); [lia|]. destruct (x =? 0); lia.
  - specialize (IH m j c Hc). destruct (x =? 0); lia.
Qed.

Definition weight (a : Z) (st : list Z * Z) : Z := 2 * Z.of_nat (zeros (Z.to_nat a) (fst st)) + (snd st - a).
Lemma ends_push_if img c j st : ends (push_if img c j st).
Proof. destruct st. unfold push_if. ends_auto. Qed.
Lemma push_if_weight img c j st st' : sane img -> c <> 0 -> area img <= snd st -> push_if img c j st = Ok st' -> area img <= snd st' /\ weight (area img) st' <= weight (area img) st.
Proof.
  intros (_ & _ & Hl) Hc Hs. destruct st as (m & sp). unfold push_if. intros H. cbn [snd] in Hs. apply bind_Ok in H as (v & E & H).
  destruct (Z.eqb_spec v 0) as [-> |]; cbn [negb] in H; [|injection H as <-; unfold weight; cbn [fst snd]; lia]. apply bind_Ok in H as (p & Ep & H).
  destruct (is_pix_letter p); [injection H as <-; unfold weight; cbn [fst snd]; lia|]. apply bind_Ok in H as (m1 & E1 & H). apply bind_Ok in H as (m2 & E2 & H). injection H as <-.
  apply wr_Ok in E1 as (_ & _ & ->). apply wr_Ok in E2 as (_ & _ & ->). apply rd_Ok in Ep. apply rd_inv in E as (_ & E). unfold weight. cbn [fst snd]. pose proof (area_range img).
  rewrite zeros_far by lia. rewrite (zeros_mark _ m (Z.to_nat j) c) by (try assumption; lia). lia.
Qed.
Lemma ends_visit img c idx st : ends (visit img c idx st).
Proof. unfold visit. ends_auto; apply ends_push_if. Qed.
Lemma visit_weight img c idx st st' : sane img -> c <> 0 -> area img <= snd st -> visit img c idx st = Ok st' -> area img <= snd st' /\ weight (area img) st' <= weight (area img) st.
Proof.
  intros Hi Hc Hs. unfold visit. intros H. apply bind_Ok in H as (y & _ & H). cbv zeta in H.
  assert (P : forall (b : bool) j s1 s2, area img <= snd s1 -> (if b then Ok s1 else push_if img c j s1) = Ok s2 -> area img <= snd s2 /\ weight (area img) s2 <= weight (area img) s1).
  { intros b j s1 s2 H1 H2. destruct b; [injection H2 as <-; split; [exact H1|lia]|]. eapply push_if_weight; eauto. }
  apply bind_Ok in H as (s1 & E1 & H). apply P in E1 as (L1 & W1); [|exact Hs]. apply bind_Ok in H as (s2 & E2 & H). apply P in E2 as (L2 & W2); [|exact L1].
  apply bind_Ok in H as (s3 & E3 & H). apply P in E3 as (L3 & W3); [|exact L2]. apply P in H as (L4 & W4); [|exact L3]. split; [exact L4|lia].
Qed.
Lemma ends_flood img c i m : sane img -> c <> 0 -> ends (flood img c i m).
Proof.
  intros Hi Hc. unfold flood. ends_auto. pose proof (area_range img).
  apply (ends_loop (fun '(_, m, sp) => area img <= sp) (fun '(_, m, sp) => Z.to_nat (weight (area img) (m, sp)))).
  - intros ((idx & m1) & sp) Hs. ends_auto. apply ends_visit.
  - intros ((idx & m1) & sp) ((idx2 & m2) & sp2) Hs H1. apply bind_Ok in H1 as ((m' & sp') & E1 & H1). apply visit_weight in E1 as (L & W); try assumption. cbn [snd] in L.
    destruct (Z.eqb_spec sp' (area img)); [discriminate|]. apply bind_Ok in H1 as (k & _ & H1). injection H1 as <- <- <-. unfold weight in *. cbn [fst snd] in *. split; lia.
  - lia.
  - unfold weight. cbn [fst snd]. pose proof (zeros_le (Z.to_nat (area img)) x). lia.
Qed.
Lemma ends_label_zones img m : sane img -> ends (label_zones img m).
Proof.
  intros Hi. unfold label_zones. pose proof (area_range img) as Ha.
  assert (G : forall n i s, 1 <= snd s <= i + 1 -> i + Z.of_nat n <= area img -> ends (for_up n i (fun i '(m, c) => v <- rd m i ;;
       if negb (v =? 0) then Ok (m, c)
       else
         p <- rd (idata img) i ;;
         if is_pix_letter p then Ok (m, c)
         else
           m' <- flood img c i m ;;
           Ok (m', u32 (c + 1))) s)).
  { induction n as [|n IH]; intros i (m1 & c) Hc Hn; cbn [for_up snd] in *; [discriminate|]. apply ends_bind.
    - ends_auto. apply ends_flood; [exact Hi|lia].
    - intros (m2 & c2) E. destruct n as [|n]; [discriminate|]. apply IH; [|lia]. cbn [snd].
      apply bind_Ok in E as (v & _ & E). destruct (negb (v =? 0)); [injection E as _ <-; lia|]. apply bind_Ok in E as (p & _ & E). destruct (is_pix_letter p); [injection E as _ <-; lia|].
      apply bind_Ok in E as (m3 & _ & E). injection E as _ <-. rewrite u32_small by lia. lia. }
  apply G; cbn [snd]; lia.
Qed.
Lemma ends_zi_insert img m d x y zi : ends (zi_insert img m d x y zi).
Proof. unfold zi_insert. ends_auto. Qed.
Lemma ends_count_zone junk img ctx : sane img -> ends (count_zone_compute junk img ctx).
Proof. intros Hi. unfold count_zone_compute. ends_auto; try apply ends_zi_insert. now apply ends_label_zones. Qed.
Lemma ends_zone_value img zi : ends (zone_value img zi).
Proof. unfold zone_value, count_used_zone, count_total_used_zone, zi_get, img_at. ends_auto. Qed.
Lemma ends_pz_percents total l : ends (pz_percents total l).
Proof. induction l as [|n l IH]; cbn [pz_percents]; ends_auto. exact IH. Qed.
Lemma ends_pz_load sort zi : ends (pz_load sort zi).
Proof. unfold pz_load, pz_values, pz_value, zi_get. ends_auto. apply ends_pz_percents. Qed.

(** * The load of the features *)
Lemma ends_tb_fn k img : sane img -> ends (tb_fn k img).
Proof. intros H. destruct k; cbn [tb_fn]; [now apply ends_horizontal_direction|now apply ends_horizontal_gravity|now apply ends_dv_direction|now apply ends_dv_gravity]. Qed.
Lemma ends_tb_load pre post k rot img cx : sane img -> ends (pre img) -> (forall a tb, ends (post a tb)) -> ends (tb_load pre post k rot img cx).
Proof. intros Hi H1 H2. unfold tb_load, tb_compute. ends_auto; [exact H1|now apply ends_tb_fn|apply H2]. Qed.
Lemma ends_zone_compute junk rot img cx : sane img -> ends (zone_compute junk rot img cx).
Proof. intros Hi. unfold zone_compute. ends_auto. now apply ends_count_zone. Qed.
Lemma ends_strategy_load junk sort s img img90 cx : sane img -> sane img90 -> ends (strategy_load junk sort s img img90 cx).
Proof.
  intros H1 H2. unfold strategy_load. cbv zeta. set (i := if st_rot s then img90 else img). set (i90 := if st_rot s then img else img90).
  assert (S1 : sane i) by (unfold i; now destruct (st_rot s)). assert (S2 : sane i90) by (unfold i90; now destruct (st_rot s)). clearbody i i90.
  destruct (st_algo s).
  all: try (apply ends_tb_load; [assumption| |]).
  all: try (unfold no_pre, hdirection2_pre, hgravity2_pre, dvdirection2_pre, dvgravity2_pre; ends_auto; (apply ends_dv_direction_area || apply ends_dv_gravity_area); assumption).
  all: try (intros a tb; unfold balance_post, share_post, balance2_post, balance2; ends_auto; fail).
  all: ends_auto.
  all: try (apply ends_zone_compute; assumption).
  all: try apply ends_zone_value.
  all: try apply ends_pz_load.
  all: try apply ends_dzdensity.
  all: try apply ends_proportionality.
  all: try apply ends_density.
  all: try (apply ends_hbar; assumption).
  all: try (apply ends_alternations; assumption).
Qed.
Lemma ends_load_columns junk sort ss : forall cols img img90 cx, sane img -> sane img90 -> ends (load_columns junk sort ss cols img img90 cx).
Proof.
  induction ss as [|s ss IH]; intros [|c cols] img img90 cx H1 H2; cbn [load_columns]; ends_auto; [now apply ends_strategy_load|now apply IH].
Qed.
Lemma ends_datas_load junk sort ss d img : sane img -> ends (datas_load junk sort ss d img).
Proof.
  intros Hi. unfold datas_load. ends_auto; [now apply ends_rotate90|]. apply ends_load_columns; [exact Hi|]. eapply rotate90_sane; eauto.
Qed.
Lemma ends_datas_load_all junk sort ss imgs : forall d, Forall sane imgs -> ends (datas_load_all junk sort ss d imgs).
Proof.
  induction imgs as [|img imgs IH]; intros d H; cbn [datas_load_all]; [discriminate|]. apply Forall_cons_iff in H as (H1 & H2). apply ends_bind; [now apply ends_datas_load|]. intros. now apply IH.
Qed.
