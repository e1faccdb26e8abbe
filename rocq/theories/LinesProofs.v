(** The filter by lines. *)
From Verif Require Import Base BaseProofs BoxModel TrieModel IndexModel GlyphsModel FilterModel FilterSpec FilterProofs LinesSpec.

Lemma lead_after w r l : (forall v, In v r -> ov_word v = w) -> first_word l <> Some w -> lead w (r ++ l) = r /\ after w (r ++ l) = l.
Proof.
  intros H N. induction r as [|v r IH]; cbn [app lead after].
  - destruct l as [|u l]; [auto|]. cbn [lead after first_word] in *. destruct (Z.eqb_spec (ov_word u) w); [congruence|auto].
  - rewrite (H v (or_introl eq_refl)), Z.eqb_refl. destruct IH as [-> ->]; [intros; apply H; now right|auto].
Qed.
Lemma filter_line_sieve pred c : (forall v, pred v = Ok (c (ov_word v))) -> forall l, filter_line pred l = Ok (sieve c l).
Proof.
  intros Hp l. unfold sieve. destruct (filter_line_cases pred c Hp l) as [(N & E)|(w1 & w2 & r1 & r2 & rest & Ev & F & S2 & N1 & A1 & N2 & A2 & Ne & Fr & E)].
  - rewrite N, E. destruct (first_word l); reflexivity.
  - rewrite F, S2, E. destruct (c w1) eqn:C; [reflexivity|]. rewrite Ev.
    assert (F2 : first_word (r2 ++ rest) <> Some w1) by (destruct r2 as [|u r2]; [congruence|]; cbn [app first_word]; rewrite (A2 u (or_introl eq_refl)); congruence).
    destruct (lead_after w1 r1 (r2 ++ rest) A1 F2) as [-> ->]. destruct (lead_after w2 r2 rest A2 Fr) as [-> ->]. reflexivity.
Qed.

(** * Histograms *)
Definition histogram (n : Z) (ys : list Z) (off : Z) (l : list Z) : Prop :=
  n <= vsize ys /\ forall i, 0 <= i < n -> nth (Z.to_nat i) ys 0 = Z.of_nat (count_occ Z.eq_dec l (i + off)).
Lemma histogram_zero n off : 0 <= n -> histogram n (repeat 0 (Z.to_nat n)) off [].
Proof. intros H. split; [rewrite buffer_vsize by lia; lia|]. intros i Hi. rewrite nth_repeat. reflexivity. Qed.
Lemma count_occ_le l y : (count_occ Z.eq_dec l y <= List.length l)%nat.
Proof. induction l as [|x l IH]; [reflexivity|]. cbn [count_occ List.length]. destruct (Z.eq_dec x y); lia. Qed.
Lemma histogram_incr n ys off l y : histogram n ys off l -> off <= y < off + n -> Z.of_nat (List.length l) + 1 < 4294967296 ->
  exists ys', incr ys (y - off) = Ok ys' /\ vsize ys' = vsize ys /\ histogram n ys' off (y :: l).
Proof.
  intros (Hn & H) Hy Hl. unfold incr. assert (Hi : 0 <= y - off < n) by lia. pose proof (H _ Hi) as E.
  assert (R : rd ys (y - off) = Ok (Z.of_nat (count_occ Z.eq_dec l y))).
  { rewrite (rd_nth 0) by (unfold vsize in Hn; lia). rewrite E. do 3 f_equal. lia. }
  rewrite R. cbn [bind]. pose proof (count_occ_le l y). rewrite u32_small by lia. rewrite wr_ok by (unfold vsize in Hn; lia). eexists. split; [reflexivity|]. split; [apply vsize_upd|].
  split; [rewrite vsize_upd; exact Hn|]. intros i Hi'. cbn [count_occ]. unfold vsize in Hn. destruct (Z.eq_dec y (i + off)) as [->|Ne].
  - replace (i + off - off) with i by lia. erewrite nth_error_nth; [|apply upd_nth_same; lia]. lia.
  - rewrite <- (H i Hi'). destruct (nth_error ys (Z.to_nat i)) as [v|] eqn:Ev; [|apply nth_error_None in Ev; lia].
    rewrite (nth_error_nth _ _ 0 Ev). apply nth_error_nth. rewrite upd_nth_other by lia. exact Ev.
Qed.
Lemma count_bottoms_exact n off boxes : forall ys l, histogram n ys off l -> (forall b, In b boxes -> off <= box_bottom b < off + n /\ 0 <= off /\ box_bottom b < 4294967296) ->
  Z.of_nat (List.length l) + Z.of_nat (List.length boxes) < 4294967296 ->
  exists ys', count_bottoms ys off boxes = Ok ys' /\ vsize ys' = vsize ys /\ histogram n ys' off (rev (map box_bottom boxes) ++ l).
Proof.
  induction boxes as [|b boxes IH]; intros ys l H B L; [exists ys; auto|]. cbn [count_bottoms]. destruct (B b (or_introl eq_refl)) as (B1 & B2 & B3). rewrite u32_small by lia.
  cbn [List.length] in L. destruct (histogram_incr n ys off l (box_bottom b) H B1 ltac:(lia)) as (y1 & E & V & H1). rewrite E. cbn [bind].
  destruct (IH y1 (box_bottom b :: l) H1) as (ys' & E' & V' & H'); [intros x Hx; apply B; now right|cbn [List.length]; lia|].
  exists ys'. split; [exact E'|]. split; [congruence|]. cbn [map rev]. rewrite <- app_assoc. exact H'.
Qed.

Lemma max_pos_ok l : forall pre i best bestv, i = vsize pre -> 0 <= best < i -> nth (Z.to_nat best) pre 0 = bestv ->
  (forall j, 0 <= j < i -> nth (Z.to_nat j) pre 0 <= bestv) -> (forall j, 0 <= j < best -> nth (Z.to_nat j) pre 0 < bestv) ->
  let m := max_pos i best bestv l in let all := pre ++ l in 0 <= m < vsize all /\
    (forall j, 0 <= j < vsize all -> nth (Z.to_nat j) all 0 <= nth (Z.to_nat m) all 0) /\ (forall j, 0 <= j < m -> nth (Z.to_nat j) all 0 < nth (Z.to_nat m) all 0).
Proof.
  induction l as [|v l IH]; intros pre i best bestv Hi Hb Eb Hle Hlt; cbn [max_pos]; cbv zeta.
  - rewrite app_nil_r. subst bestv. repeat split; try lia; try assumption; intros j Hj; apply Hle; lia.
  - assert (A : pre ++ v :: l = (pre ++ [v]) ++ l) by (now rewrite <- app_assoc). rewrite A.
    assert (V : i + 1 = vsize (pre ++ [v])) by (subst i; unfold vsize; rewrite app_length; cbn [List.length]; lia).
    assert (O : forall j, 0 <= j < i -> nth (Z.to_nat j) (pre ++ [v]) 0 = nth (Z.to_nat j) pre 0) by (intros j Hj; apply app_nth1; subst i; unfold vsize in *; lia).
    assert (Nw : nth (Z.to_nat i) (pre ++ [v]) 0 = v) by (subst i; rewrite app_nth2 by (unfold vsize; lia); replace (Z.to_nat (vsize pre) - List.length pre)%nat with 0%nat by (unfold vsize; lia); reflexivity).
    destruct (Z.ltb_spec bestv v) as [L|L].
    + apply IH; [exact V|lia|exact Nw| |].
      * intros j Hj. destruct (Z.eq_dec j i) as [->|Ne]; [lia|]. rewrite O by lia. specialize (Hle j ltac:(lia)). lia.
      * intros j Hj. rewrite O by lia. specialize (Hle j Hj). lia.
    + apply IH; [exact V|lia|rewrite O by lia; exact Eb| |].
      * intros j Hj. destruct (Z.eq_dec j i) as [->|Ne]; [lia|]. rewrite O by lia. apply Hle. lia.
      * intros j Hj. rewrite O by lia. apply Hlt. lia.
Qed.
Lemma max_index_ok l : l <> [] -> let m := max_index l in 0 <= m < vsize l /\
  (forall j, 0 <= j < vsize l -> nth (Z.to_nat j) l 0 <= nth (Z.to_nat m) l 0) /\ (forall j, 0 <= j < m -> nth (Z.to_nat j) l 0 < nth (Z.to_nat m) l 0).
Proof.
  destruct l as [|v l]; [congruence|]. intros _. cbn [max_index]. apply (max_pos_ok l [v] 1 0 v); try reflexivity; try lia.
  intros j Hj. assert (j = 0) by lia. subst j. cbn. lia.
Qed.
Lemma nth_firstn {A} (l : list A) d n i : (i < n)%nat -> nth i (firstn n l) d = nth i l d.
Proof. revert n i. induction l as [|a l IH]; intros [|n] [|i] H; cbn; try lia; auto. apply IH. lia. Qed.
Lemma histogram_max n ys off l : histogram n ys off l -> l <> [] -> (forall y, In y l -> off <= y < off + n) ->
  most_common l (max_index (firstn (Z.to_nat n) ys) + off).
Proof.
  intros (Hn & H) Nl B. destruct l as [|y0 l0] eqn:El; [congruence|]. rewrite <- El in *. assert (I0 : In y0 l) by (subst l; now left). pose proof (B y0 I0) as B0.
  set (f := firstn (Z.to_nat n) ys). assert (Vf : vsize f = n) by (unfold f, vsize in *; rewrite firstn_length; lia).
  assert (Hf : forall i, 0 <= i < n -> nth (Z.to_nat i) f 0 = Z.of_nat (count_occ Z.eq_dec l (i + off))) by (intros i Hi; unfold f; rewrite nth_firstn by lia; apply H; exact Hi).
  destruct (max_index_ok f) as (M1 & M2 & M3); [intros E; rewrite E in Vf; cbn in Vf; lia|]. set (m := max_index f) in *. rewrite Vf in *.
  assert (C : forall y, In y l -> (count_occ Z.eq_dec l y <= count_occ Z.eq_dec l (m + off)%Z)%nat).
  { intros y Hy. specialize (B y Hy). specialize (M2 (y - off) ltac:(lia)). rewrite !Hf in M2 by lia. replace (y - off + off) with y in M2 by lia. lia. }
  split.
  - apply (count_occ_In Z.eq_dec). apply (count_occ_In Z.eq_dec) in I0 as P0. specialize (C y0 I0). lia.
  - intros y' Hy'. specialize (C y' Hy'). destruct (Nat.eq_dec (count_occ Z.eq_dec l y') (count_occ Z.eq_dec l (m + off))) as [E|E]; [right|left; lia]. split; [exact E|].
    destruct (Z_le_gt_dec (m + off) y') as [L|L]; [exact L|exfalso]. specialize (B y' Hy'). specialize (M3 (y' - off) ltac:(lia)). rewrite !Hf in M3 by lia. replace (y' - off + off) with y' in M3 by lia. lia.
Qed.
Lemma most_common_rev l y : most_common (rev l) y -> most_common l y.
Proof.
  assert (E : forall x, count_occ Z.eq_dec (rev l) x = count_occ Z.eq_dec l x) by (intros x; apply count_occ_rev).
  intros (I & H). split; [now apply in_rev|]. intros y' Hy'. rewrite <- !E. apply H. now apply -> in_rev.
Qed.

(** * The filters *)
Lemma line_pred_off flags y line : 0 <= y < 4294967295 -> 0 <= line < 4294967295 -> line_pred flags y line = off_line flags y line.
Proof.
  intros Hy Hl. unfold line_pred, off_line. rewrite !u32_small by lia.
  destruct (Z.eqb_spec flags 1) as [->|N1]; [destruct (Z.leb_spec line (y + 1)), (Z.leb_spec (line - 1) y); lia|].
  destruct (Z.eqb_spec flags 2) as [->|N2]; [destruct (Z.ltb_spec y line); f_equal; lia|].
  destruct (Z.eqb_spec flags 4) as [->|N4]; [reflexivity|].
  destruct (Z.eqb_spec flags 3) as [->|N3]; [destruct (Z.ltb_spec line (y + 1)), (Z.leb_spec line y); lia|].
  destruct (Z.eqb_spec flags 6) as [->|N6]; [destruct (Z.ltb_spec y (line + 1)), (Z.leb_spec y line); lia|].
  destruct flags as [|p|p]; try reflexivity. destruct p as [[p|p|]|[[p|p|]|[p|p|]|]|]; try reflexivity; congruence.
Qed.
Section Lines.
Context (infos : list word_infos) (get : Z -> option word_infos) (Hget : forall w, infos_get infos w = Ok (get w)).
Lemma contradicts_off field y line v : 0 <= y < 4294967295 -> 0 <= line < 4294967295 -> contradicts infos field y line v = Ok (contradicted get field y line (ov_word v)).
Proof. intros Hy Hl. unfold contradicts, contradicted. rewrite Hget. cbn [bind]. destruct (get (ov_word v)); [|reflexivity]. now rewrite line_pred_off. Qed.

Lemma sieve_count c l : snd (sieve c l) = 1 -> fst (sieve c l) <> [].
Proof.
  intros H. destruct (filter_line_sub (fun v => Ok (c (ov_word v))) c (fun v => eq_refl) l) as (l' & n & E & _ & N). rewrite filter_line_sieve with (c := c) in E by reflexivity.
  injection E as E. rewrite E in *. cbn [fst snd] in *. auto.
Qed.
Lemma filter_baseline_exact base mt n amb : 0 <= base < 4294967295 -> 0 <= mt -> forall boxes st ys l has, valid st amb -> List.length boxes = List.length amb ->
  histogram n ys mt l -> (forall b, In b boxes -> small_box b /\ mt <= box_top b < mt + n) -> Z.of_nat (List.length l) + Z.of_nat (List.length boxes) < 4294967296 ->
  exists ys', let '(st', tops) := by_base get base st amb boxes in
    filter_baseline infos base mt st amb boxes ys has = Ok (st', ys', match tops with [] => has | _ => true end) /\ histogram n ys' mt (rev tops ++ l) /\ incl tops (map box_top boxes) /\ vsize st' = vsize st.
Proof.
  intros Hbase Hmt. induction amb as [|r amb IH]; intros boxes st ys l has V L H B Hl.
  - destruct boxes; [|discriminate]. exists ys. cbn. split; [reflexivity|]. split; [exact H|]. split; [intros x []|reflexivity].
  - destruct boxes as [|b boxes]; [discriminate|]. cbn [filter_baseline by_base]. destruct (B b (or_introl eq_refl)) as ((T & Bt) & Bw).
    assert (Hr : 0 <= r < vsize st) by (apply V; left; reflexivity). rewrite list_at_rd by exact Hr. cbn [bind].
    rewrite (filter_line_sieve _ (contradicted get wl_base (box_bottom b) base)) by (intros v; apply contradicts_off; assumption).
    pose proof (sieve_count (contradicted get wl_base (box_bottom b) base) (list_at st r)) as Sc.
    destruct (sieve (contradicted get wl_base (box_bottom b) base) (list_at st r)) as (l1, k) eqn:Es. cbn [bind]. rewrite wr_ok by (unfold vsize in Hr; exact Hr). cbn [bind].
    set (st1 := upd st (Z.to_nat r) l1). cbn [fst snd] in Sc. cbn [List.length] in L, Hl.
    assert (V1 : valid st1 amb) by (intros q Hq; unfold st1; rewrite vsize_upd; apply V; now right).
    assert (Vs : vsize st1 = vsize st) by (unfold st1; apply vsize_upd).
    assert (X : exists ys1, (if k =? 1 then
           v <- rd l1 0 ;;
           p <- infos_get infos (ov_word v) ;;
           match p with
           | Some wi =>
             if (wl_base (wi_lines wi) =? 2) && (wl_mean (wi_lines wi) =? 2) then
               ys <- incr ys (u32 (box_top b - mt)) ;; Ok (ys, true)
             else Ok (ys, has)
           | None => Ok (ys, has)
           end
         else Ok (ys, has)) = Ok (ys1, if (k =? 1) && between get l1 then true else has) /\ histogram n ys1 mt (if (k =? 1) && between get l1 then box_top b :: l else l)).
    { destruct (Z.eqb_spec k 1) as [K|K]; cbn [andb]; [|exists ys; auto]. destruct l1 as [|v l1]; [exfalso; now apply Sc|].
      change (rd (v :: l1) 0) with (Ok v). cbn [bind between]. rewrite Hget. cbn [bind]. destruct (get (ov_word v)) as [wi|]; [|exists ys; auto]. destruct (_ && _); [|exists ys; auto].
      rewrite u32_small by lia. destruct (histogram_incr n ys mt l (box_top b) H Bw ltac:(lia)) as (y1 & E & _ & H1). rewrite E. cbn [bind]. eauto. }
    destruct X as (ys1 & X & H1). rewrite X. cbn [bind]. set (vote := (k =? 1) && between get l1) in *.
    destruct (IH boxes st1 ys1 (if vote then box_top b :: l else l) (if vote then true else has) V1 ltac:(lia) H1) as (ys' & E); [intros x Hx; apply B; now right|destruct vote; cbn [List.length]; lia|].
    exists ys'. destruct (by_base get base st1 amb boxes) as (st', tops). destruct E as (E & H' & I & Vs'). rewrite E. split; [|split; [|split; [|congruence]]].
    + destruct vote, tops; reflexivity.
    + destruct vote; [|exact H']. cbn [rev]. rewrite <- app_assoc. exact H'.
    + cbn [map]. destruct vote; [intros x [<-|Hx]; [now left|right; now apply I]|intros x Hx; right; now apply I].
Qed.
Lemma filter_meanline_exact mean amb : 0 <= mean < 4294967295 -> forall boxes st, valid st amb -> List.length boxes = List.length amb -> (forall b, In b boxes -> small_box b) ->
  filter_meanline infos mean st amb boxes = Ok (by_mean get mean st amb boxes).
Proof.
  intros Hm. induction amb as [|r amb IH]; intros boxes st V L B; [destruct boxes; [reflexivity|discriminate]|].
  destruct boxes as [|b boxes]; [discriminate|]. cbn [filter_meanline by_mean]. destruct (B b (or_introl eq_refl)) as (T & Bt).
  assert (Hr : 0 <= r < vsize st) by (apply V; left; reflexivity). rewrite list_at_rd by exact Hr. cbn [bind].
  rewrite (filter_line_sieve _ (contradicted get wl_mean (box_top b) mean)) by (intros v; apply contradicts_off; assumption).
  destruct (sieve (contradicted get wl_mean (box_top b) mean) (list_at st r)) as (l1, k). cbn [bind fst]. rewrite wr_ok by (unfold vsize in Hr; exact Hr). cbn [bind].
  apply IH; [|cbn [List.length] in L; lia|intros x Hx; apply B; now right]. intros q Hq. rewrite vsize_upd. apply V. now right.
Qed.

Theorem filter_by_lines_exact st amb b boxes : valid st amb -> List.length (b :: boxes) = List.length amb -> small_boxes (b :: boxes) -> vsize amb < 4294967296 ->
  (exists x, In x boxes /\ box_bottom b <= box_bottom x) -> (exists x, In x boxes /\ box_top b <= box_top x) ->
  exists st', filter_by_lines infos st amb (b :: boxes) = Ok st' /\ lines_filtered get st amb (b :: boxes) st'.
Proof.
  intros V L Sm Sz (x & Hx & Bx) (y & Hy & Ty).
  destruct (lens b boxes Sm) as (mt & xt & mb & xb & M & Mt & Mb & P & Q & R1 & R2 & R3 & R4 & E1 & E2); [intros ->; destruct Hx|].
  assert (Xb : forall z, In z (b :: boxes) -> box_bottom z <= xb) by (intros z [<-|Hz]; [destruct (Q x Hx); lia|apply Q, Hz]).
  assert (Xt : forall z, In z (b :: boxes) -> box_top z <= xt) by (intros z [<-|Hz]; [destruct (Q y Hy); lia|apply Q, Hz]).
  assert (BU : buffer_len b boxes = Z.max (bottom_len b boxes) (top_len b boxes)) by reflexivity.
  unfold vsize in Sz. rewrite <- L in Sz.
  unfold filter_by_lines. rewrite M. cbv zeta.
  destruct (count_bottoms_exact (buffer_len b boxes) mb (b :: boxes) (repeat 0 (Z.to_nat (buffer_len b boxes))) []) as (ys & E & Vy & H); [apply histogram_zero; lia| |cbn [List.length] in *; lia|].
  { intros z Hz. specialize (Xb z Hz). destruct (P z Hz). destruct (Sm z Hz). lia. }
  rewrite E. cbn [bind]. rewrite app_nil_r in H. rewrite buffer_vsize in Vy by lia.
  assert (Hb : histogram (bottom_len b boxes) ys mb (rev (map box_bottom (b :: boxes)))) by (destruct H as (H1 & H2); split; [lia|intros i Hi; apply H2; lia]).
  assert (Mc : most_common (map box_bottom (b :: boxes)) (max_index (firstn (Z.to_nat (bottom_len b boxes)) ys) + mb)).
  { apply most_common_rev. apply histogram_max; [exact Hb|cbn [map rev]; destruct (rev (map box_bottom boxes)); discriminate|]. intros z Hz. apply in_rev in Hz. apply in_map_iff in Hz as (w & <- & Hw). specialize (Xb w Hw). destruct (P w Hw). lia. }
  set (base := max_index (firstn (Z.to_nat (bottom_len b boxes)) ys) + mb) in *.
  assert (Bb : 0 <= base < 4294967295) by (destruct Mc as (I & _); apply in_map_iff in I as (w & <- & Hw); apply (Sm w Hw)).
  rewrite (u32_small base) by lia. set (n := Z.to_nat (Z.min (bottom_len b boxes) (top_len b boxes))).
  assert (Ht : histogram (top_len b boxes) (repeat 0 n ++ skipn n ys) mt []).
  { unfold vsize in Vy. split; [unfold vsize; rewrite app_length, repeat_length, skipn_length; unfold n; lia|]. intros i Hi. cbn [count_occ].
    destruct (le_lt_dec n (Z.to_nat i)) as [Ln|Ln]; [|rewrite app_nth1 by (rewrite repeat_length; lia); apply nth_repeat].
    rewrite app_nth2, repeat_length by (rewrite repeat_length; lia). rewrite <- (firstn_skipn n ys) in H. destruct H as (_ & H). specialize (H i ltac:(lia)).
    assert (Lf : List.length (firstn n ys) = n) by (rewrite firstn_length; unfold n; lia). rewrite app_nth2, Lf in H by lia. rewrite H.
    assert (Z0 : count_occ Z.eq_dec (rev (map box_bottom (b :: boxes))) (i + mb) = 0%nat); [|now rewrite Z0].
    apply count_occ_not_In. intros I. apply in_rev in I. apply in_map_iff in I as (w & Ew & Hw). specialize (Xb w Hw). unfold n in Ln. lia. }
  destruct (filter_baseline_exact base mt (top_len b boxes) amb Bb ltac:(lia) (b :: boxes) st _ [] false V L Ht) as (ys' & X); [|cbn [List.length] in *; lia|].
  { intros z Hz. split; [exact (Sm z Hz)|]. specialize (Xt z Hz). destruct (P z Hz). lia. }
  unfold lines_filtered. destruct (by_base get base st amb (b :: boxes)) as (st1, tops) eqn:Eb. destruct X as (X & H' & I & Vs). rewrite X. cbn [bind]. rewrite app_nil_r in H'.
  destruct tops as [|t tops]; [exists st1; split; [reflexivity|]; exists base; split; [exact Mc|]; rewrite Eb; reflexivity|].
  assert (Mm : most_common (t :: tops) (max_index (firstn (Z.to_nat (top_len b boxes)) ys') + mt)).
  { apply most_common_rev. apply histogram_max; [exact H'|cbn [rev]; destruct (rev tops); discriminate|]. intros z Hz. apply in_rev in Hz. apply I in Hz. apply in_map_iff in Hz as (w & <- & Hw). specialize (Xt w Hw). destruct (P w Hw). lia. }
  set (mean := max_index (firstn (Z.to_nat (top_len b boxes)) ys') + mt) in *.
  assert (Bm : 0 <= mean < 4294967295) by (destruct Mm as (I' & _); apply I in I'; apply in_map_iff in I' as (w & <- & Hw); apply (Sm w Hw)).
  rewrite (u32_small mean) by lia. rewrite filter_meanline_exact; [|exact Bm|intros q Hq; rewrite Vs; apply V, Hq|exact L|exact Sm].
  eexists. split; [reflexivity|]. exists base. split; [exact Mc|]. rewrite Eb. exists mean. auto.
Qed.
End Lines.
