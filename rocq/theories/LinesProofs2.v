(** The filter by lines, for any boxes. *)
From Verif Require Import Base BaseProofs BoxModel TrieModel IndexModel GlyphsModel FilterModel FilterSpec FilterProofs LinesSpec LinesProofs.

Lemma histogram_counts n ys off l l' : histogram n ys off l -> (forall y, off <= y < off + n -> count_occ Z.eq_dec l y = count_occ Z.eq_dec l' y) -> histogram n ys off l'.
Proof. intros (H1 & H2) E. split; [exact H1|]. intros i Hi. rewrite H2, E by lia. reflexivity. Qed.
Lemma histogram_less n n' ys off l : histogram n ys off l -> n' <= n -> histogram n' ys off l.
Proof. intros (H1 & H2) L. split; [lia|]. intros i Hi. apply H2. lia. Qed.
Lemma histogram_empty n ys off : histogram n ys off [] -> max_index (firstn (Z.to_nat n) ys) = 0.
Proof.
  intros (Hn & H). destruct (firstn (Z.to_nat n) ys) as [|y f] eqn:Ef; [reflexivity|]. rewrite <- Ef.
  destruct (max_index_ok (firstn (Z.to_nat n) ys)) as (M1 & _ & M3); [rewrite Ef; discriminate|]. set (m := max_index _) in *.
  destruct (Z.eq_dec m 0) as [E|E]; [exact E|exfalso]. assert (Vf : vsize (firstn (Z.to_nat n) ys) = Z.of_nat (Nat.min (Z.to_nat n) (List.length ys))) by (unfold vsize; rewrite firstn_length; reflexivity).
  specialize (M3 0 ltac:(lia)). rewrite !nth_firstn in M3 by lia. rewrite !H in M3 by lia. cbn [count_occ] in M3. lia.
Qed.
Lemma most_common_counts l l' y : (forall x, count_occ Z.eq_dec l x = count_occ Z.eq_dec l' x) -> most_common l y -> most_common l' y.
Proof.
  intros E (I & H). assert (J : forall x, In x l <-> In x l') by (intros x; rewrite !(count_occ_In Z.eq_dec), E; reflexivity).
  split; [now apply J|]. intros y' Hy'. rewrite <- !E. apply H. now apply J.
Qed.
Lemma count_filter f l y : f y = true -> count_occ Z.eq_dec (filter f l) y = count_occ Z.eq_dec l y.
Proof.
  intros Hy. induction l as [|x l IH]; [reflexivity|]. cbn [filter count_occ]. destruct (Z.eq_dec x y) as [->|N].
  - rewrite Hy. cbn [count_occ]. destruct (Z.eq_dec y y); [now rewrite IH|congruence].
  - destruct (f x); [cbn [count_occ]; destruct (Z.eq_dec x y); [congruence|exact IH]|exact IH].
Qed.
Lemma count_filter_none f l y : f y = false -> count_occ Z.eq_dec (filter f l) y = 0%nat.
Proof. intros H. apply count_occ_not_In. intros I. apply filter_In in I as [_ I]. congruence. Qed.

Lemma filter_shorter {A} (f : A -> bool) l : (List.length (filter f l) <= List.length l)%nat.
Proof. induction l as [|x l IH]; [reflexivity|]. cbn [filter List.length]. destruct (f x); cbn [List.length]; lia. Qed.
Lemma filter_none {A} (f : A -> bool) l : (forall x, In x l -> f x = false) -> filter f l = [].
Proof. intros H. induction l as [|x l IH]; [reflexivity|]. cbn [filter]. rewrite (H x (or_introl eq_refl)). apply IH. intros y Hy. apply H. now right. Qed.

(** The most common of what is in the histogram. *)
Lemma histogram_best n ys off l l' : histogram n ys off l -> (forall y, off <= y < off + n -> count_occ Z.eq_dec l y = count_occ Z.eq_dec l' y) ->
  (forall y, In y l' -> off <= y < off + n) ->
  let m := max_index (firstn (Z.to_nat n) ys) + off in match l' with [] => m = off | _ => most_common l' m end.
Proof.
  intros H E B. cbv zeta. pose proof (histogram_counts _ _ _ _ _ H E) as H'. destruct l' as [|y l2] eqn:El.
  - rewrite (histogram_empty _ _ _ H'). lia.
  - rewrite <- El in *. apply (histogram_max n ys off l' H'); [congruence|exact B].
Qed.

Lemma histogram_one n ys off l : histogram n ys off l -> (forall y, In y l -> y = off) -> max_index (firstn (Z.to_nat n) ys) = 0.
Proof.
  intros H O. destruct (Z_le_gt_dec n 0) as [N|N]; [replace (Z.to_nat n) with 0%nat by lia; reflexivity|].
  pose proof (histogram_best n ys off l l H ltac:(auto) ltac:(intros y Hy; rewrite (O y Hy); lia)) as B. cbv zeta in B. destruct l as [|x l'] eqn:El; [lia|].
  rewrite <- El in *. destruct B as (I & _). apply O in I. lia.
Qed.

Section Lines.
Context (infos : list word_infos) (get : Z -> option word_infos) (Hget : forall w, infos_get infos w = Ok (get w)).
Lemma filter_baseline_outcome base mt n amb : 0 <= base < 4294967295 -> 0 <= mt -> forall boxes st ys l has, valid st amb -> List.length boxes = List.length amb ->
  histogram n ys mt l -> vsize ys = n -> (forall b, In b boxes -> small_box b /\ mt <= box_top b) -> Z.of_nat (List.length l) + Z.of_nat (List.length boxes) < 4294967296 ->
  let '(st', tops) := by_base get base st amb boxes in
  if existsb (fun y => n <=? y - mt) tops then filter_baseline infos base mt st amb boxes ys has = UB
  else exists ys', filter_baseline infos base mt st amb boxes ys has = Ok (st', ys', match tops with [] => has | _ => true end) /\
    histogram n ys' mt (rev tops ++ l) /\ vsize ys' = n /\ vsize st' = vsize st.
Proof.
  intros Hbase Hmt. induction amb as [|r amb IH]; intros boxes st ys l has V L H Vn B Hl.
  - destruct boxes; [|discriminate]. cbn. exists ys. auto.
  - destruct boxes as [|b boxes]; [discriminate|]. cbn [filter_baseline by_base]. destruct (B b (or_introl eq_refl)) as ((T & Bt) & Bw).
    assert (Hr : 0 <= r < vsize st) by (apply V; left; reflexivity). rewrite list_at_rd by exact Hr. cbn [bind].
    rewrite (filter_line_sieve _ (contradicted get wl_base (box_bottom b) base)) by (intros v; apply contradicts_off; assumption).
    pose proof (sieve_count (contradicted get wl_base (box_bottom b) base) (list_at st r)) as Sc.
    destruct (sieve (contradicted get wl_base (box_bottom b) base) (list_at st r)) as (l1, k) eqn:Es. cbn [bind]. rewrite wr_ok by (unfold vsize in Hr; exact Hr). cbn [bind].
    set (st1 := upd st (Z.to_nat r) l1). cbn [fst snd] in Sc. cbn [List.length] in L, Hl.
    assert (V1 : valid st1 amb) by (intros q Hq; unfold st1; rewrite vsize_upd; apply V; now right).
    assert (Vs : vsize st1 = vsize st) by (unfold st1; apply vsize_upd).
    set (vote := (k =? 1) && between get l1).
    set (X := if k =? 1 then
           v <- rd l1 0 ;;
           p <- infos_get infos (ov_word v) ;;
           match p with
           | Some wi =>
             if (wl_base (wi_lines wi) =? 2) && (wl_mean (wi_lines wi) =? 2) then
               ys <- incr ys (u32 (box_top b - mt)) ;; Ok (ys, true)
             else Ok (ys, has)
           | None => Ok (ys, has)
           end
         else Ok (ys, has)).
    assert (EX : X = if vote then ys <- incr ys (box_top b - mt) ;; Ok (ys, true) else Ok (ys, has)).
    { unfold X, vote. destruct (Z.eqb_spec k 1) as [K|K]; cbn [andb]; [|reflexivity]. destruct l1 as [|v l1]; [exfalso; now apply Sc|].
      change (rd (v :: l1) 0) with (Ok v). cbn [bind between]. rewrite Hget. cbn [bind]. destruct (get (ov_word v)) as [wi|]; [|reflexivity].
      rewrite u32_small by lia. reflexivity. }
    destruct vote.
    + destruct (by_base get base st1 amb boxes) as (st', tops) eqn:Eb. cbn [existsb]. destruct (Z.leb_spec n (box_top b - mt)) as [O|O]; cbn [orb].
      * rewrite EX, incr_ub by lia. reflexivity.
      * destruct (histogram_incr n ys mt l (box_top b) H ltac:(lia) ltac:(lia)) as (y1 & E & Vy & H1). rewrite EX, E. cbn [bind].
        specialize (IH boxes st1 y1 (box_top b :: l) true V1 ltac:(lia) H1 ltac:(lia) ltac:(intros x Hx; apply B; now right) ltac:(cbn [List.length]; lia)).
        rewrite Eb in IH. destruct (existsb _ tops); [exact IH|]. destruct IH as (ys' & E' & H' & Vy' & Vs'). exists ys'. split; [rewrite E'; destruct tops; reflexivity|].
        split; [cbn [rev]; rewrite <- app_assoc; exact H'|]. split; [exact Vy'|congruence].
    + rewrite EX. cbn [bind]. specialize (IH boxes st1 ys l has V1 ltac:(lia) H Vn ltac:(intros x Hx; apply B; now right) ltac:(lia)).
      destruct (by_base get base st1 amb boxes) as (st', tops) eqn:Eb. destruct (existsb _ tops); [exact IH|]. destruct IH as (ys' & E' & H' & Vy' & Vs'). exists ys'. split; [exact E'|]. split; [exact H'|]. split; [exact Vy'|congruence].
Qed.
Lemma by_base_tops base amb : forall boxes st, incl (snd (by_base get base st amb boxes)) (map box_top boxes).
Proof.
  induction amb as [|r amb IH]; intros boxes st; [intros x []|]. destruct boxes as [|b boxes]; [intros x []|]. cbn [by_base].
  destruct (sieve _ _) as (l1, k). specialize (IH boxes (upd st (Z.to_nat r) l1)). destruct (by_base get base (upd st (Z.to_nat r) l1) amb boxes) as (st', tops). cbn [snd map] in *.
  destruct (_ && _); [intros x [<-|Hx]; [now left|right; now apply IH]|intros x Hx; right; now apply IH].
Qed.

Lemma lines_several st amb b boxes : boxes <> [] -> valid st amb -> List.length (b :: boxes) = List.length amb -> small_boxes (b :: boxes) -> vsize amb < 2147483648 ->
  lines_outcome get st amb (b :: boxes) (filter_by_lines infos st amb (b :: boxes)).
Proof.
  intros Nb V L Sm Sz.
  destruct (lens b boxes Sm Nb) as (mt & xt & mb & xb & M & Mt & Mb & P & Q & R1 & R2 & R3 & R4 & E1 & E2).
  destruct (min_max_boxes_ok _ _ _ _ _ _ _ _ _ M) as (_ & Xt & _ & Xb).
  fold (min_top b boxes) in Mt. fold (max_top boxes) in Xt. fold (max_bottom boxes) in Xb.
  assert (BU : buffer_len b boxes = Z.max (bottom_len b boxes) (top_len b boxes)) by reflexivity.
  assert (RU : room b boxes = buffer_len b boxes) by (unfold room; rewrite <- Mb, <- Mt, <- Xt, <- Xb, BU; lia).
  unfold vsize in Sz. rewrite <- L in Sz.
  destruct boxes as [|b2 bs] eqn:Ebs; [congruence|]. cbn [lines_outcome]. rewrite <- Ebs in *.
  destruct (Z.leb_spec (room b boxes) (box_bottom b - least_bottom b boxes)) as [O|O]; [apply lines_out_of_bounds; [exact Sm|lia]|].
  rewrite RU in *. rewrite <- Mb in O.
  unfold filter_by_lines. rewrite M. cbv zeta.
  destruct (count_bottoms_exact (buffer_len b boxes) mb (b :: boxes) (repeat 0 (Z.to_nat (buffer_len b boxes))) []) as (ys & E & Vy & H); [apply histogram_zero; lia| |cbn [List.length] in *; lia|].
  { intros z Hz. destruct (P z Hz). destruct (Sm z Hz). split; [|lia]. destruct Hz as [<-|Hz]; [lia|]. destruct (Q z Hz). lia. }
  rewrite E. cbn [bind]. rewrite app_nil_r in H. rewrite buffer_vsize in Vy by lia.
  assert (Inb : forall y, In y (map box_bottom (b :: boxes)) -> mb <= y) by (intros y Hy; apply in_map_iff in Hy as (z & <- & Hz); apply (P z Hz)).
  (* the base line *)
  pose proof (histogram_best (bottom_len b boxes) ys mb _ (filter (fun y => y <=? max_bottom boxes) (map box_bottom (b :: boxes))) (histogram_less _ (bottom_len b boxes) _ _ _ H ltac:(lia))) as Best.
  cbv zeta in Best.
  assert (Mc : base_found b boxes (max_index (firstn (Z.to_nat (bottom_len b boxes)) ys) + mb)).
  { unfold base_found. destruct (filter _ _) as [|f fs] eqn:Ef.
    - exfalso. assert (I2 : In (box_bottom b2) (filter (fun y => y <=? max_bottom boxes) (map box_bottom (b :: boxes)))); [|rewrite Ef in I2; destruct I2].
      apply filter_In. split; [apply in_map; rewrite Ebs; right; left; reflexivity|]. destruct (Q b2); [rewrite Ebs; left; reflexivity|]. lia.
    - apply Best.
      + intros y Hy. rewrite count_occ_rev. rewrite <- Ef. rewrite count_filter by lia. reflexivity.
      + intros y Hy. rewrite <- Ef in Hy. apply filter_In in Hy as (Hy & Hf). pose proof (Inb y Hy). lia. }
  set (base := max_index (firstn (Z.to_nat (bottom_len b boxes)) ys) + mb) in *.
  assert (Bb : 0 <= base < 4294967295).
  { destruct Mc as (I & _). apply filter_In in I as (I & _). apply in_map_iff in I as (w & <- & Hw). apply (Sm w Hw). }
  rewrite (u32_small base) by lia. exists base. split; [exact Mc|].
  set (n := Z.to_nat (Z.min (bottom_len b boxes) (top_len b boxes))). set (ys2 := repeat 0 n ++ skipn n ys).
  assert (V2 : vsize ys2 = buffer_len b boxes) by (unfold ys2; unfold vsize in *; rewrite app_length, repeat_length, skipn_length; unfold n; lia).
  (* what stays in the buffer *)
  set (l0 := map (fun y => y - mb + mt) (filter (fun y => Z.of_nat n <=? y - mb) (map box_bottom (b :: boxes)))).
  assert (C0 : forall y, count_occ Z.eq_dec l0 y = count_occ Z.eq_dec (filter (fun y => Z.of_nat n <=? y - mb) (map box_bottom (b :: boxes))) (y - mt + mb)).
  { intros y. unfold l0. generalize (filter (fun y => Z.of_nat n <=? y - mb) (map box_bottom (b :: boxes))) as f. clear. induction f as [|x f IH]; [reflexivity|]. cbn [map count_occ]. rewrite IH.
    destruct (Z.eq_dec (x - mb + mt) y), (Z.eq_dec x (y - mt + mb)); try lia. }
  assert (Ht : histogram (buffer_len b boxes) ys2 mt l0).
  { split; [lia|]. intros i Hi. rewrite C0. replace (i + mt - mt + mb) with (i + mb) by lia. unfold ys2. destruct (le_lt_dec n (Z.to_nat i)) as [Ln|Ln].
    - rewrite count_filter by lia. rewrite app_nth2, repeat_length by (rewrite repeat_length; lia). rewrite <- (firstn_skipn n ys) in H. destruct H as (_ & H). specialize (H i ltac:(lia)).
      assert (Lf : List.length (firstn n ys) = n) by (rewrite firstn_length; unfold vsize in Vy; unfold n in *; lia). rewrite app_nth2, Lf in H by lia. rewrite H, count_occ_rev. reflexivity.
    - rewrite count_filter_none by lia. rewrite app_nth1 by (rewrite repeat_length; lia). apply nth_repeat. }
  assert (Ll : Z.of_nat (List.length l0) <= Z.of_nat (List.length (b :: boxes))).
  { unfold l0. rewrite map_length. pose proof (filter_shorter (fun y => Z.of_nat n <=? y - mb) (map box_bottom (b :: boxes))) as F. rewrite map_length in F. lia. }
  assert (Lo : forall y, mt <= y < mt + top_len b boxes -> count_occ Z.eq_dec l0 y = count_occ Z.eq_dec (leftover b boxes) y).
  { intros y Hy. unfold leftover. cbv zeta. rewrite <- Mb, <- Mt, <- Xt, <- Xb. destruct (Z_le_gt_dec (top_len b boxes) (bottom_len b boxes)) as [T|T].
    - rewrite C0, count_filter_none by (unfold n; lia). destruct (Z.ltb_spec xb (box_bottom b)) as [G|G]; cbn [andb]; [|reflexivity].
      destruct (Z.leb_spec (box_bottom b - mb) (xt - mt)) as [G'|G']; [exfalso; lia|reflexivity].
    - assert (El0 : l0 = if xb <? box_bottom b then [box_bottom b - mb + mt] else []).
      { unfold l0. cbn [map filter]. rewrite (filter_none _ (map box_bottom boxes)).
        - destruct (Z.ltb_spec xb (box_bottom b)), (Z.leb_spec (Z.of_nat n) (box_bottom b - mb)); unfold n in *; try reflexivity; lia.
        - intros x Hx. apply in_map_iff in Hx as (z & <- & Hz). destruct (Q z Hz). unfold n. lia. }
      rewrite El0. destruct (Z.ltb_spec xb (box_bottom b)) as [G|G]; cbn [andb]; [|reflexivity].
      destruct (Z.leb_spec (box_bottom b - mb) (xt - mt)) as [G'|G']; cbn [count_occ].
      + replace (mt + (box_bottom b - mb)) with (box_bottom b - mb + mt) by lia. reflexivity.
      + destruct (Z.eq_dec (box_bottom b - mb + mt) y); [lia|reflexivity]. }
  pose proof (filter_baseline_outcome base mt (buffer_len b boxes) amb Bb (proj1 R1) (b :: boxes) st ys2 l0 false V L Ht V2) as FB.
  assert (FB' := FB ltac:(intros z Hz; split; [apply (Sm z Hz)|apply (P z Hz)]) ltac:(lia)). clear FB.
  pose proof (by_base_tops base amb (b :: boxes) st) as Inc.
  destruct (by_base get base st amb (b :: boxes)) as (st1, tops) eqn:Eb. cbn [snd] in Inc. rewrite <- Mt.
  destruct (existsb (fun y => buffer_len b boxes <=? y - mt) tops) eqn:Ee; [rewrite FB'; reflexivity|].
  destruct FB' as (ys3 & F & Hm & V3 & Vs). rewrite F. cbn [bind].
  destruct tops as [|t0 tops0] eqn:Et; [reflexivity|]. rewrite <- Et in *.
  pose proof (histogram_best (top_len b boxes) ys3 mt _ (filter (fun y => y <=? max_top boxes) tops ++ leftover b boxes) (histogram_less _ (top_len b boxes) _ _ _ Hm ltac:(lia))) as Best2.
  cbv zeta in Best2.
  assert (Gl : forall y, In y (leftover b boxes) -> mt <= y < mt + top_len b boxes).
  { intros y Hy. unfold leftover in Hy. cbv zeta in Hy. rewrite <- Mb, <- Mt, <- Xt, <- Xb in Hy. destruct (P b (or_introl eq_refl)).
    destruct (Z.ltb_spec xb (box_bottom b)), (Z.leb_spec (box_bottom b - mb) (xt - mt)); cbn [andb] in Hy; try (destruct Hy; fail). destruct Hy as [<-|[]]. lia. }
  assert (It : forall y, In y (filter (fun y => y <=? max_top boxes) tops ++ leftover b boxes) -> mt <= y < mt + top_len b boxes).
  { intros y Hy. apply in_app_iff in Hy as [Hy|Hy]; [|exact (Gl y Hy)]. apply filter_In in Hy as (Hy & Hf). apply Inc, in_map_iff in Hy as (z & <- & Hz). destruct (P z Hz). lia. }
  assert (Cm : forall y, mt <= y < mt + top_len b boxes -> count_occ Z.eq_dec (rev tops ++ l0) y = count_occ Z.eq_dec (filter (fun y => y <=? max_top boxes) tops ++ leftover b boxes) y).
  { intros y Hy. rewrite !count_occ_app, count_occ_rev, count_filter, Lo by lia. reflexivity. }
  specialize (Best2 Cm It). set (mean := max_index (firstn (Z.to_nat (top_len b boxes)) ys3) + mt) in *.
  exists mean. split.
  - unfold mean_found. rewrite <- Mt. destruct (filter _ tops ++ leftover b boxes); exact Best2.
  - assert (Bm : 0 <= mean < 4294967295).
    { destruct (filter _ tops ++ leftover b boxes) as [|e es]; [lia|]. destruct Best2 as (I & _). pose proof (It _ I). lia. }
    cbv zeta. rewrite (u32_small mean) by lia. apply (filter_meanline_exact infos get Hget); [exact Bm|intros q Hq; rewrite Vs; apply V, Hq|exact L|exact Sm].
Qed.
Lemma lines_one st amb b : 0 < buffer_len b [] -> valid st amb -> List.length amb = 1%nat -> small_box b ->
  let '(st1, tops) := by_base get (box_bottom b) st amb [b] in
  filter_by_lines infos st amb [b] = Ok (match tops with [] => st1 | _ => by_mean get (box_top b) st1 amb [b] end).
Proof.
  intros Pos V L Sm. destruct Sm as (St & Sb). pose proof (conj St Sb : small_box b) as Sm.
  assert (BU : buffer_len b [] = Z.max (bottom_len b []) (top_len b [])) by reflexivity.
  assert (Nb : 0 <= bottom_len b []) by (unfold bottom_len; cbn [min_max_box min_max_boxes]; unfold u32; apply Z.mod_pos_bound; lia).
  assert (Nt : 0 <= top_len b []) by (unfold top_len; cbn [min_max_box min_max_boxes]; unfold u32; apply Z.mod_pos_bound; lia).
  assert (Mm : min_max_box b [] = (box_top b, 0, box_bottom b, 0)) by reflexivity.
  unfold filter_by_lines. rewrite Mm. cbv zeta.
  destruct (count_bottoms_exact (buffer_len b []) (box_bottom b) [b] (repeat 0 (Z.to_nat (buffer_len b []))) []) as (ys & E & Vy & H);
    [apply histogram_zero; lia|intros z [<-|[]]; lia|cbn; lia|]. rewrite E. cbn [bind map rev app] in H |- *. rewrite buffer_vsize in Vy by lia.
  rewrite (histogram_one _ _ _ _ (histogram_less _ (bottom_len b []) _ _ _ H ltac:(lia))) by (intros y [<-|[]]; reflexivity).
  rewrite Z.add_0_l, (u32_small (box_bottom b)) by lia.
  set (n := Z.to_nat (Z.min (bottom_len b []) (top_len b []))). set (ys2 := repeat 0 n ++ skipn n ys).
  assert (V2 : vsize ys2 = buffer_len b []) by (unfold ys2; unfold vsize in *; rewrite app_length, repeat_length, skipn_length; unfold n; lia).
  assert (Ht : exists l0, histogram (buffer_len b []) ys2 (box_top b) l0 /\ (forall y, In y l0 -> y = box_top b) /\ (List.length l0 <= 1)%nat).
  { destruct n as [|n'] eqn:En.
    - exists [box_top b]. split; [|split; [intros y [<-|[]]; reflexivity|reflexivity]]. unfold ys2. cbn [repeat skipn app]. destruct H as (H1 & H). split; [exact H1|]. intros i Hi. rewrite H by lia. cbn [count_occ].
      destruct (Z.eq_dec (box_bottom b) (i + box_bottom b)), (Z.eq_dec (box_top b) (i + box_top b)); lia.
    - exists []. split; [|split; [intros y []|auto]]. split; [lia|]. intros i Hi. unfold ys2. destruct (le_lt_dec (S n') (Z.to_nat i)) as [Ln|Ln].
      + rewrite app_nth2, repeat_length by (rewrite repeat_length; lia). destruct H as (_ & H). rewrite <- (firstn_skipn (S n') ys) in H. specialize (H i ltac:(lia)).
        assert (Lf : List.length (firstn (S n') ys) = S n') by (rewrite firstn_length; unfold vsize in Vy; unfold n in *; lia). rewrite app_nth2, Lf in H by lia. rewrite H. cbn [count_occ].
        destruct (Z.eq_dec (box_bottom b) (i + box_bottom b)); [lia|reflexivity].
      + rewrite app_nth1 by (rewrite repeat_length; lia). rewrite nth_repeat. reflexivity. }
  destruct Ht as (l0 & Ht & Hl0 & Ll).
  pose proof (filter_baseline_outcome (box_bottom b) (box_top b) (buffer_len b []) amb ltac:(lia) (proj1 St) [b] st ys2 l0 false V (eq_sym L) Ht V2) as FB.
  assert (FB' := FB ltac:(intros z [<-|[]]; split; [exact Sm|lia]) ltac:(cbn [List.length]; lia)). clear FB.
  pose proof (by_base_tops (box_bottom b) amb [b] st) as Inc.
  destruct (by_base get (box_bottom b) st amb [b]) as (st1, tops) eqn:Eb. cbn [snd] in Inc.
  assert (At : forall y, In y tops -> y = box_top b) by (intros y Hy; destruct (Inc y Hy) as [<-|[]]; reflexivity).
  destruct (existsb (fun y => buffer_len b [] <=? y - box_top b) tops) eqn:Ee.
  { apply existsb_exists in Ee as (y & Hy & Hl). rewrite (At y Hy) in Hl. lia. }
  destruct FB' as (ys3 & F & Hm & V3 & Vs). rewrite F. cbn [bind]. destruct tops as [|t0 tops0] eqn:Et; [reflexivity|]. rewrite <- Et in *.
  rewrite (histogram_one _ _ _ _ (histogram_less _ (top_len b []) _ _ _ Hm ltac:(lia))).
  - rewrite Z.add_0_l, (u32_small (box_top b)) by lia. apply (filter_meanline_exact infos get Hget); [lia|intros q Hq; rewrite Vs; apply V, Hq|exact (eq_sym L)|intros z [<-|[]]; exact Sm].
  - intros y Hy. apply in_app_iff in Hy as [Hy|Hy]; [apply At; now apply in_rev|now apply Hl0].
Qed.
Lemma lines_single st amb b : valid st amb -> List.length amb = 1%nat -> small_box b ->
  lines_outcome get st amb [b] (filter_by_lines infos st amb [b]).
Proof.
  intros V L Sm. cbn [lines_outcome]. assert (P : box_top b <> 1 \/ box_bottom b <> 1 -> 0 < buffer_len b []).
  { intros N. destruct Sm as (St & Sb). unfold buffer_len, bottom_len, top_len. cbn [min_max_box min_max_boxes]. unfold u32.
    pose proof (Z.mod_pos_bound (0 - box_bottom b + 1) 4294967296 ltac:(lia)). pose proof (Z.mod_pos_bound (0 - box_top b + 1) 4294967296 ltac:(lia)).
    pose proof (Z.div_mod (0 - box_bottom b + 1) 4294967296 ltac:(lia)). pose proof (Z.div_mod (0 - box_top b + 1) 4294967296 ltac:(lia)). lia. }
  destruct (Z.eqb_spec (box_top b) 1) as [T1|T1], (Z.eqb_spec (box_bottom b) 1) as [B1|B1]; cbn [andb]; [now apply single_box_ub|apply lines_one; auto..].
Qed.
(** Everything the filter by lines does. *)
Lemma filter_by_lines_outcome st amb boxes : valid st amb -> List.length boxes = List.length amb -> small_boxes boxes -> vsize amb < 2147483648 ->
  lines_outcome get st amb boxes (filter_by_lines infos st amb boxes).
Proof.
  intros V L Sm Sz. destruct boxes as [|b [|b2 boxes]]; [reflexivity|apply lines_single; [exact V|symmetry; exact L|apply Sm; left; reflexivity]|].
  apply lines_several; [discriminate|assumption..].
Qed.
End Lines.
