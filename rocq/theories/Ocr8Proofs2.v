(** extract_text8: how the glyphs are loaded. *)
From Verif Require Import Base BaseProofs SortModel SortProofs ImageModel StratModel ZoneModel DatasModel DatasSpec DatasProofs DatasIoModel TrieModel TrieProofs FlatTrieProofs
  UtilModel UtilSpec UtilProofs IndexModel IndexProofs FloatModel RecogModel RecogSpec RecogProofs Ocr6Model Ocr6Spec Ocr6Proofs Ocr6Proofs2 Ocr6Proofs5 OcrProofs Ocr8Model Ocr8Spec Ocr8Proofs.
From Coq Require Import Sorted Permutation.

(** * Rows *)
Section Rows.
Context (cols : list (list fval)) (n : Z) (HR : rows8 cols n).
Definition row8 (i : Z) : list fval := map (fun c => nth (Z.to_nat i) c (VNum 0)) cols.
Definition reqb (i j : Z) : bool := forallb (fun c => fval_eqb (nth (Z.to_nat i) c (VNum 0)) (nth (Z.to_nat j) c (VNum 0))) cols.
Lemma reqb_iff i j : reqb i j = true <-> row8 i = row8 j.
Proof.
  unfold reqb, row8. clear HR. induction cols as [|c cs IH]; [split; reflexivity|]. cbn [forallb map]. rewrite andb_true_iff, IH, fval_eqb_ok. split; [intros (-> & ->); reflexivity|intros E; injection E; auto].
Qed.
Lemma col_length c : In c cols -> Z.of_nat (List.length c) = n.
Proof.
  destruct HR as (L & _ & H). intros Hc. apply In_nth_error in Hc as (k & Ek). assert (Hk : (k < List.length cols)%nat) by (apply nth_error_Some; congruence).
  destruct (nth_error all_strategies k) as [s|] eqn:Es; [|apply nth_error_None in Es; lia]. apply (H s c). apply nth_error_In with (n := k).
  clear - Ek Es. revert k Ek Es. generalize all_strategies. induction cols as [|c' cs IH]; intros [|t ss] [|k] Ek Es; try discriminate; cbn [combine nth_error] in *; [congruence|now apply IH].
Qed.
Lemma rows_eq_ok i j : 0 <= i < n -> 0 <= j < n -> rows_eq cols i j = Ok (reqb i j).
Proof.
  intros Hi Hj. assert (L := col_length). unfold reqb. clear HR. induction cols as [|c cs IH]; [reflexivity|]. cbn [rows_eq forallb]. assert (Lc := L c (or_introl eq_refl)).
  rewrite (col_at_ok c i (nth (Z.to_nat i) c (VNum 0))) by (try lia; apply nth_error_nth'; lia). cbn [bind].
  rewrite (col_at_ok c j (nth (Z.to_nat j) c (VNum 0))) by (try lia; apply nth_error_nth'; lia). cbn [bind].
  destruct (fval_eqb _ _); [|reflexivity]. cbn [andb]. apply IH. intros; apply L; now right.
Qed.
Lemma differ8_iff i j : 0 <= i < n -> 0 <= j < n -> (differ8 cols i j <-> row8 i <> row8 j).
Proof.
  intros Hi Hj. split.
  - intros (s & a & b & Hs & (_ & c & Hc & Ea) & (_ & c' & Hc' & Eb) & Hne) E. assert (c' = c).
    { pose proof (get_col_unique s c all_strategies cols all_strategies_NoDup Hc). pose proof (get_col_unique s c' all_strategies cols all_strategies_NoDup Hc'). congruence. }
    subst c'. apply Hne. assert (Q : nth (Z.to_nat i) c (VNum 0) = nth (Z.to_nat j) c (VNum 0)) by (unfold row8 in E; exact (ext_in_map E c (in_combine_r _ _ _ _ Hc))).
    rewrite (nth_error_nth _ _ _ Ea), (nth_error_nth _ _ _ Eb) in Q. exact Q.
  - intros Hne. destruct (forallb (fun sc => fval_eqb (nth (Z.to_nat i) (snd sc) (VNum 0)) (nth (Z.to_nat j) (snd sc) (VNum 0))) (combine all_strategies cols)) eqn:E.
    + exfalso. apply Hne. unfold row8. apply map_ext_in. intros c Hc. pose proof HR as (L & _). apply In_nth_error in Hc as (k & Ek). assert (Hk : (k < List.length cols)%nat) by (apply nth_error_Some; congruence).
      destruct (nth_error all_strategies k) as [s|] eqn:Es; [|apply nth_error_None in Es; lia]. rewrite forallb_forall in E. apply fval_eqb_ok. apply (E (s, c)). apply nth_error_In with (n := k).
      clear - Ek Es. revert k Ek Es. generalize all_strategies. induction cols as [|c' cs IH]; intros [|t ss] [|k] Ek Es; try discriminate; cbn [combine nth_error] in *; [congruence|now apply IH].
    + assert (X : exists sc, In sc (combine all_strategies cols) /\ fval_eqb (nth (Z.to_nat i) (snd sc) (VNum 0)) (nth (Z.to_nat j) (snd sc) (VNum 0)) = false).
      { clear - E. induction (combine all_strategies cols) as [|x l IH]; [discriminate|]. cbn [forallb] in E. destruct (fval_eqb _ _) eqn:F; [destruct IH as (sc & H1 & H2); [exact E|exists sc; split; [now right|exact H2]]|exists x; split; [now left|exact F]]. }
      destruct X as ((s & c) & Hc & F). cbn [snd] in F. pose proof (col_length c (in_combine_r _ _ _ _ Hc)) as Lc. exists s, (nth (Z.to_nat i) c (VNum 0)), (nth (Z.to_nat j) c (VNum 0)).
      split; [exact (in_combine_l _ _ _ _ Hc)|]. split; [split; [lia|exists c; split; [exact Hc|apply nth_error_nth'; lia]]|]. split; [split; [lia|exists c; split; [exact Hc|apply nth_error_nth'; lia]]|].
      intros Q. apply fval_eqb_ok in Q. congruence.
Qed.

(** * The duplicates *)
Section Mark.
Context (moved : list Z -> list Z) (idx : list Z) (HP : Permutation (zrange n) idx).
Lemma idx_facts : NoDup idx /\ (forall i, In i idx -> 0 <= i < n) /\ List.length idx = Z.to_nat n.
Proof. exact (perm_index n idx HP). Qed.
Definition ip (p : Z) : Z := nth (Z.to_nat p) idx 0.
Lemma ip_ok p : 0 <= p < n -> rd idx p = Ok (ip p) /\ 0 <= ip p < n.
Proof.
  intros Hp. destruct idx_facts as (_ & HI & HL). split; [apply rd_nth; lia|]. apply HI. apply nth_In. lia.
Qed.
Definition marked (p : Z) : bool := negb (reqb (ip p) (ip 0)).
Definition dups : list Z := filter marked (zrange n).
Definition merge_w (words : list (list (list Z))) (p : Z) : list (list (list Z)) :=
  let u := union_words moved (nth (Z.to_nat (ip p)) words []) (nth (Z.to_nat (ip (p - 1))) words []) in
  upd (upd words (Z.to_nat (ip (p - 1))) (snd u)) (Z.to_nat (ip p)) (unique_words (fst u)).
Lemma merge_w_length words p : List.length (merge_w words p) = List.length words.
Proof. unfold merge_w. cbv zeta. now rewrite !upd_length. Qed.
Lemma merges_length ps : forall words, List.length (fold_left merge_w ps words) = List.length words.
Proof. induction ps as [|p ps IH]; intros words; [reflexivity|]. cbn [fold_left]. now rewrite IH, merge_w_length. Qed.
Lemma merge_at_ok p dup words : 1 <= p < n -> Z.of_nat (List.length words) = n -> merge_at moved idx p (dup, words) = Ok (dup ++ [p], merge_w words p).
Proof.
  intros Hp L. unfold merge_at. destruct (ip_ok p ltac:(lia)) as (-> & B1). destruct (ip_ok (p - 1) ltac:(lia)) as (-> & B2). cbn [bind].
  rewrite (rd_nth [] words (ip p)) by lia. cbn [bind]. rewrite (rd_nth [] words (ip (p - 1))) by lia. cbn [bind]. unfold merge_w. cbv zeta. destruct (union_words moved _ _) as (o, r). cbn [fst snd].
  rewrite wr_ok by lia. cbn [bind]. rewrite wr_ok by (rewrite upd_length; lia). reflexivity.
Qed.
Lemma find_row_ok i : 0 <= i < n -> forall l pos, (forall j, In j l -> 0 <= j < n) ->
  exists k, find_row cols i l pos = Ok (pos + Z.of_nat k) /\ (k <= List.length l)%nat /\ (forall m j, (m < k)%nat -> nth_error l m = Some j -> reqb j i = false) /\
    (k = List.length l \/ exists j, nth_error l k = Some j /\ reqb j i = true).
Proof.
  intros Hi. induction l as [|j l IH]; intros pos Hl; cbn [find_row].
  - exists 0%nat. rewrite Z.add_0_r. split; [reflexivity|]. split; [cbn; lia|]. split; [intros; lia|now left].
  - rewrite rows_eq_ok by (try assumption; apply Hl; now left). cbn [bind]. destruct (reqb j i) eqn:E.
    + exists 0%nat. rewrite Z.add_0_r. split; [reflexivity|]. split; [lia|]. split; [intros; lia|right; exists j; auto].
    + destruct (IH (pos + 1)) as (k & -> & K1 & K2 & K3); [intros; apply Hl; now right|]. exists (S k). split; [f_equal; lia|]. split; [cbn; lia|]. split.
      * intros [|m] x Hm Hx; [cbn in Hx; injection Hx as <-; exact E|]. cbn in Hx. apply (K2 m); [lia|exact Hx].
      * destruct K3 as [->|(x & Hx & Ex)]; [now left|right; exists x; auto].
Qed.
Lemma reqb_sym i j : reqb i j = reqb j i.
Proof. destruct (reqb i j) eqn:E, (reqb j i) eqn:F; try reflexivity; [apply reqb_iff in E; symmetry in E; apply reqb_iff in E; congruence|apply reqb_iff in F; symmetry in F; apply reqb_iff in F; congruence]. Qed.
Lemma reqb_class i j k : reqb j k = true -> reqb i j = reqb i k.
Proof.
  intros E. apply reqb_iff in E. destruct (reqb i j) eqn:F, (reqb i k) eqn:G; try reflexivity.
  - apply reqb_iff in F. assert (H : row8 i = row8 k) by congruence. apply reqb_iff in H. congruence.
  - apply reqb_iff in G. assert (H : row8 i = row8 j) by congruence. apply reqb_iff in H. congruence.
Qed.
Lemma zrange_filter_S p : 0 <= p -> filter marked (zrange (p + 1)) = filter marked (zrange p) ++ (if marked p then [p] else []).
Proof. intros H. rewrite zrange_S, filter_app by exact H. reflexivity. Qed.
Lemma mark_loop words : Z.of_nat (List.length words) = n -> forall fuel f, 0 <= f <= n -> n - f < Z.of_nat fuel -> (f < n -> marked f = false) ->
  loop fuel (fun '(first, s) =>
       if first =? vsize idx then Ok (inr s)
       else
         i <- rd idx first ;;
         pos <- find_row cols i (skipn (Z.to_nat (first + 1)) idx) (first + 1) ;;
         s <- for_up (Z.to_nat (pos - (first + 1))) (first + 1) (merge_at moved idx) s ;;
         Ok (inl (pos, s)))
    (f, (filter marked (zrange f), fold_left merge_w (filter marked (zrange f)) words)) = Ok (dups, fold_left merge_w dups words).
Proof.
  intros HW. destruct idx_facts as (_ & HI & HL). assert (Ev : vsize idx = n \/ n < 0) by (unfold vsize; lia).
  induction fuel as [|fuel IH]; intros f Hf Hfuel Hm; [lia|]. cbn [loop]. destruct (Z.eqb_spec f (vsize idx)) as [Hf'|Hne]; [assert (Q : f = n) by lia; rewrite Q; reflexivity|].
  destruct (ip_ok f ltac:(lia)) as (-> & Bi). cbn [bind].
  destruct (find_row_ok (ip f) Bi (skipn (Z.to_nat (f + 1)) idx) (f + 1)) as (k & -> & K1 & K2 & K3).
  { intros j Hj. apply HI. rewrite <- (firstn_skipn (Z.to_nat (f + 1)) idx). apply in_or_app. now right. }
  cbn [bind]. rewrite skipn_length in K1. specialize (Hm ltac:(lia)). replace (f + 1 + Z.of_nat k - (f + 1)) with (Z.of_nat k) by lia. rewrite Nat2Z.id.
  assert (Nth : forall m, nth_error (skipn (Z.to_nat (f + 1)) idx) m = nth_error idx (Z.to_nat (f + 1 + Z.of_nat m))).
  { intros m. rewrite <- (firstn_skipn (Z.to_nat (f + 1)) idx) at 2. rewrite nth_error_app2 by (rewrite firstn_length; lia). f_equal. rewrite firstn_length. lia. }
  assert (Cl : forall p, 0 <= p < n -> marked p = negb (reqb (ip p) (ip f))).
  { intros p Hp. unfold marked in *. f_equal. symmetry. apply reqb_class. destruct (reqb (ip f) (ip 0)); [reflexivity|discriminate]. }
  assert (S0 : filter marked (zrange (f + 1)) = filter marked (zrange f)) by (rewrite zrange_filter_S by lia; rewrite Hm; apply app_nil_r). rewrite <- S0.
  destruct (for_up_total (merge_at moved idx) (fun p s => s = (filter marked (zrange p), fold_left merge_w (filter marked (zrange p)) words)) k (f + 1)) with (s := (filter marked (zrange (f + 1)), fold_left merge_w (filter marked (zrange (f + 1))) words)) as (s' & E & ->); [|reflexivity|].
  - intros p s Hp ->. assert (Hpn : p < n) by lia. rewrite merge_at_ok by (try lia; rewrite merges_length; exact HW). eexists. split; [reflexivity|].
    assert (Mp : marked p = true).
    { rewrite Cl by lia. destruct (ip_ok p ltac:(lia)) as (Er & _). rewrite (K2 (Z.to_nat (p - (f + 1))) (ip p)); [reflexivity|lia|]. rewrite Nth. replace (f + 1 + Z.of_nat (Z.to_nat (p - (f + 1)))) with p by lia. apply nth_error_nth'. lia. }
    rewrite zrange_filter_S, Mp, fold_left_app by lia. reflexivity.
  - rewrite E. cbn [bind]. apply IH; [lia|lia|]. intros Hlt. destruct K3 as [->|(j & Ej & Rj)]; [rewrite skipn_length in Hlt; lia|].
    rewrite Cl by lia. rewrite Nth in Ej. unfold ip. rewrite (nth_error_nth _ _ 0 Ej). fold (ip f). now rewrite Rj.
Qed.
Lemma find_duplicates_ok words : Z.of_nat (List.length words) = n -> 0 < n -> find_duplicates moved cols idx words = Ok (dups, fold_left merge_w dups words).
Proof.
  intros HW Hn. unfold find_duplicates. destruct idx_facts as (_ & _ & HL). rewrite <- (mark_loop words HW (S (List.length idx)) 0); [reflexivity|lia|lia|].
  intros _. unfold marked. assert (E : reqb (ip 0) (ip 0) = true) by now apply reqb_iff. now rewrite E.
Qed.
Lemma dups_In p : In p dups <-> 0 <= p < n /\ row8 (ip p) <> row8 (ip 0).
Proof.
  unfold dups. rewrite filter_In, zrange_In. unfold marked. rewrite negb_true_iff. split; intros (H1 & H2); (split; [exact H1|]).
  - intros E. apply reqb_iff in E. congruence.
  - destruct (reqb (ip p) (ip 0)) eqn:E; [|reflexivity]. apply reqb_iff in E. congruence.
Qed.
End Mark.
End Rows.

(** * Removing the duplicates *)
Lemma dropped_one d idx : drop_duplicates [d] idx = UB.
Proof. unfold drop_duplicates. cbn [last]. replace (d <? d + 1) with true by lia. reflexivity. Qed.
Lemma firstn_skipn_nth {A} (l : list A) a k m : nth_error (firstn k (skipn a l)) m = if (m <? k)%nat then nth_error l (a + m) else None.
Proof.
  destruct (Nat.ltb_spec m k) as [H|H].
  - assert (E : forall (l : list A) k m, (m < k)%nat -> nth_error (firstn k l) m = nth_error l m).
    { induction l0 as [|x l0 IH]; intros [|k0] [|m0] Hm; cbn; try reflexivity; try lia. apply IH. lia. }
    rewrite !E by assumption. clear. revert a. induction l as [|x l IH]; intros [|a]; cbn [skipn Nat.add nth_error]; [reflexivity|destruct m; reflexivity|reflexivity|apply IH].
  - apply nth_error_None. rewrite firstn_length. lia.
Qed.
Lemma upd_same {A} (l : list A) k x : nth_error l k = Some x -> upd l k x = l.
Proof. revert k. induction l as [|y l IH]; intros [|k] H; cbn in *; try discriminate; [congruence|]. f_equal. now apply IH. Qed.
Lemma skip_skip {A} a k : forall l : list A, skipn (a + k) l = skipn k (skipn a l).
Proof. induction a as [|a IH]; intros l; [reflexivity|]. destruct l as [|x l]; [now rewrite !skipn_nil|]. apply IH. Qed.
Lemma dropped_two d0 d1 idx : 0 <= d0 < d1 -> d1 < vsize idx -> drop_duplicates [d0; d1] idx = Ok idx.
Proof.
  intros H0 H1. unfold drop_duplicates. cbn [last]. replace (d1 <? d0 + 1) with false by lia. unfold vsize in H1.
  destruct (for_up_total copy_step (fun p s => s = (idx, p, [d1])) (Z.to_nat (d1 - (d0 + 1))) (d0 + 1)) with (s := (idx, d0 + 1, [d1])) as (s' & E & ->); [|reflexivity|].
  - intros p s Hp ->. unfold copy_step. cbn [advance]. replace (d1 <? p) with false by lia. cbn [bind]. replace (d1 =? p) with false by lia. cbn [negb].
    rewrite (rd_nth 0) by lia. cbn [bind]. rewrite wr_ok by lia. cbn [bind]. rewrite upd_same by (apply nth_error_nth'; lia). eauto.
  - rewrite E. cbn [bind]. replace (d0 + 1 + Z.of_nat (Z.to_nat (d1 - (d0 + 1)))) with d1 by lia. unfold put_cells, vsize. rewrite firstn_length, skipn_length.
    set (k := Z.to_nat (Z.of_nat (List.length idx) - 1 - d1)). assert (Ek : Z.of_nat (Nat.min k (List.length idx - Z.to_nat d1)) = Z.of_nat (List.length idx) - 1 - d1) by lia. rewrite Ek.
    replace (d1 + (Z.of_nat (List.length idx) - 1 - d1) <=? Z.of_nat (List.length idx)) with true by lia. f_equal.
    replace (Z.to_nat (d1 + (Z.of_nat (List.length idx) - 1 - d1))) with (Z.to_nat d1 + k)%nat by lia. rewrite skip_skip, !firstn_skipn. reflexivity.
Qed.
(** With three duplicates or more, the copy goes past the end or repeats an element. *)
Lemma advance_ok p first : (exists d, In d first /\ p <= d) -> exists l, advance p first = Ok l /\ (forall d, In d first -> p <= d -> In d l) /\ (forall d f, first = d :: f -> p <= d -> l = first).
Proof.
  induction first as [|d first IH]; intros (x & Hx & Px); [destruct Hx|]. cbn [advance]. destruct (Z.ltb_spec d p) as [H|H].
  - destruct Hx as [->|Hx]; [lia|]. destruct IH as (l & E & I1 & _); [eauto|]. exists l. split; [exact E|]. split; [|intros y f Ey Py; injection Ey as -> _; lia].
    intros y [<-|Hy] Py; [lia|now apply I1].
  - exists (d :: first). split; [reflexivity|]. split; [auto|reflexivity].
Qed.
Definition keeps (n : Z) (l : list Z) : Prop := forall i, In i l -> 0 <= i < n.
Lemma upd_keeps n l k x : keeps n l -> 0 <= x < n -> keeps n (upd l k x).
Proof.
  intros H Hx. revert k. induction l as [|y l IH]; intros [|k] i Hi; cbn [upd] in Hi; [destruct Hi|destruct Hi| |].
  - destruct Hi as [<-|Hi]; [exact Hx|apply H; now right].
  - destruct Hi as [<-|Hi]; [apply H; now left|]. apply (IH (fun j Hj => H j (or_intror Hj)) k i Hi).
Qed.
Lemma dropped_many n d0 d1 ds idx : 0 <= d0 < d1 -> (forall d, In d ds -> d1 < d) -> ds <> [] -> last (d0 :: d1 :: ds) 0 < vsize idx -> keeps n idx ->
  drop_duplicates (d0 :: d1 :: ds) idx = UB \/ exists l1 a l2, drop_duplicates (d0 :: d1 :: ds) idx = Ok (l1 ++ a :: a :: l2) /\ keeps n (l1 ++ a :: a :: l2) /\ vsize (l1 ++ a :: a :: l2) = vsize idx.
Proof.
  intros H0 Hds Ne Hb HK. unfold drop_duplicates. set (back := last (d0 :: d1 :: ds) 0) in *.
  assert (Hback : In back ds).
  { unfold back. destruct ds as [|d ds']; [congruence|]. clear. change (last (d0 :: d1 :: d :: ds') 0) with (last (d :: ds') 0). revert d. induction ds' as [|e ds' IH]; intros d; [now left|]. right. apply IH. }
  pose proof (Hds back Hback) as Hd1. replace (back <? d0 + 1) with false by lia. unfold vsize in Hb.
  destruct (for_up_total copy_step (fun p '(l, out, first) => d0 + 1 <= out <= p /\ List.length l = List.length idx /\ keeps n l /\ (forall m, out <= m -> nth_error l (Z.to_nat m) = nth_error idx (Z.to_nat m)) /\
      In back first /\ (p <= d1 -> out = p /\ exists f, first = d1 :: f) /\ (d1 < p -> out < p)) (Z.to_nat (back - (d0 + 1))) (d0 + 1)) with (s := (idx, d0 + 1, d1 :: ds)) as (s' & E & I).
  - intros p ((l, out), first) Hp (B & L & K & Sm & Hf & C1 & C2). unfold copy_step. destruct first as [|d first]; [destruct Hf|]. set (fs := d :: first) in *.
    destruct (advance_ok p fs) as (fs' & -> & A1 & A2); [exists back; split; [exact Hf|lia]|]. cbn [bind].
    assert (Hf' : In back fs') by (apply A1; [exact Hf|lia]).
    destruct (Z.eqb_spec d p) as [->|Hd]; cbn [negb].
    + eexists. split; [reflexivity|]. cbn beta iota. split; [lia|]. split; [exact L|]. split; [exact K|]. split; [exact Sm|]. split; [exact Hf'|]. split; [|intros _; lia].
      intros Hpd. exfalso. destruct (C1 ltac:(lia)) as (_ & f & Ef). injection Ef as Ed _. lia.
    + rewrite (rd_nth 0) by lia. cbn [bind]. rewrite wr_ok by lia. cbn [bind]. eexists. split; [reflexivity|]. cbn beta iota.
      assert (Hx : 0 <= nth (Z.to_nat p) l 0 < n) by (apply K; apply nth_In; lia).
      split; [lia|]. split; [now rewrite upd_length|]. split; [now apply upd_keeps|]. split; [intros m Hm; rewrite upd_nth_other by lia; apply Sm; lia|]. split; [exact Hf'|]. split.
      * intros Hpd. destruct (C1 ltac:(lia)) as (-> & f & Ef). split; [reflexivity|]. injection Ef as -> ->. 
        exists f. apply (A2 d1 f); [reflexivity|lia].
      * intros Hpd. destruct (Z.le_gt_cases p d1) as [Le|Gt]; [|pose proof (C2 Gt); lia]. destruct (C1 Le) as (_ & f & Ef). injection Ef as Ed _. lia.
  - cbn beta iota. split; [lia|]. split; [reflexivity|]. split; [exact HK|]. split; [reflexivity|]. split; [right; exact Hback|]. split; [eauto|lia].
  - destruct s' as ((l, out), first). cbn beta iota in I. destruct I as (B & L & K & Sm & Hf & _ & C2). rewrite E. cbn [bind]. replace (d0 + 1 + Z.of_nat (Z.to_nat (back - (d0 + 1)))) with back in * by lia. specialize (C2 Hd1).
    unfold put_cells, vsize. rewrite firstn_length, skipn_length. rewrite L. set (k := Z.to_nat (Z.of_nat (List.length idx) - 1 - out)).
    replace (Z.of_nat (Nat.min k (List.length idx - Z.to_nat out))) with (Z.of_nat (List.length idx) - 1 - out) by lia.
    destruct (Z.leb_spec (back + (Z.of_nat (List.length idx) - 1 - out)) (Z.of_nat (List.length idx))) as [Le|Gt]; [|now left]. right.
    assert (Eo : out = back - 1) by lia. subst out.
    set (r := firstn (Z.to_nat back) l ++ firstn k (skipn (Z.to_nat (back - 1)) l) ++ skipn (Z.to_nat (back + (Z.of_nat (List.length idx) - 1 - (back - 1)))) l).
    assert (Lr : List.length r = List.length idx) by (unfold r; rewrite !app_length, !firstn_length, !skipn_length; lia).
    assert (N1 : nth_error r (Z.to_nat (back - 1)) = nth_error l (Z.to_nat (back - 1))).
    { unfold r. rewrite nth_error_app1 by (rewrite firstn_length; lia). rewrite <- (skipn_O l) at 1. rewrite firstn_skipn_nth. destruct (Nat.ltb_spec (Z.to_nat (back - 1)) (Z.to_nat back)); [reflexivity|lia]. }
    assert (N2 : nth_error r (Z.to_nat back) = nth_error l (Z.to_nat (back - 1))).
    { unfold r. rewrite nth_error_app2 by (rewrite firstn_length; lia). rewrite firstn_length. replace (Z.to_nat back - Nat.min (Z.to_nat back) (List.length l))%nat with 0%nat by lia.
      rewrite nth_error_app1 by (rewrite firstn_length, skipn_length; lia). rewrite firstn_skipn_nth. destruct (Nat.ltb_spec 0 k); [f_equal; lia|lia]. }
    destruct (nth_error l (Z.to_nat (back - 1))) as [a|] eqn:Ea; [|apply nth_error_None in Ea; lia].
    apply nth_error_split in N1 as (l1 & l2 & Er & L1). rewrite Er in N2. rewrite nth_error_app2 in N2 by lia. replace (Z.to_nat back - List.length l1)%nat with 1%nat in N2 by lia. cbn [nth_error] in N2.
    destruct l2 as [|b l2]; [discriminate|]. injection N2 as ->. exists l1, a, l2. fold r. rewrite <- Er. split; [reflexivity|]. split; [|unfold vsize; lia].
    intros i Hi. apply K. unfold r in Hi. clear - Hi. rewrite !in_app_iff in Hi. destruct Hi as [Hi|[Hi|Hi]].
    + rewrite <- (firstn_skipn (Z.to_nat back) l). apply in_or_app. now left.
    + rewrite <- (firstn_skipn (Z.to_nat (back - 1)) l). apply in_or_app. right. rewrite <- (firstn_skipn k (skipn _ l)). apply in_or_app. now left.
    + rewrite <- (firstn_skipn (Z.to_nat (back + (Z.of_nat (List.length idx) - 1 - (back - 1)))) l). apply in_or_app. now right.
Qed.
