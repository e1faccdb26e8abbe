(** The ranking of the rows, and the result of compute_image. *)
From Verif Require Import Base BaseProofs SortModel SortProofs ImageModel StratModel StratSpec StratFeatures3
  ZoneModel ZoneProofs3 DatasModel DatasSpec DatasProofs IndexModel IndexSpec IndexProofs ViewClassProofs
  FloatModel FloatSpec FloatProofs RecogModel RecogSpec RankProofs RecogProofs.
From Coq Require Import SpecFloat Permutation Sorted.

Lemma SS_filter {A} (R : A -> A -> Prop) f l : StronglySorted R l -> StronglySorted R (filter f l).
Proof.
  induction 1 as [|a l S IH F]; [constructor|]. cbn [filter]. destruct (f a); [|exact IH]. constructor; [exact IH|].
  rewrite Forall_forall in *. intros b Hb. apply filter_In in Hb as (Hb & _). now apply F.
Qed.
Lemma NoDup_map_filter {A B} (g : A -> B) f l : NoDup (map g l) -> NoDup (map g (filter f l)).
Proof.
  induction l as [|a l IH]; [constructor|]. cbn [map filter]. intros H. inversion H as [|? ? N1 ND]; subst.
  destruct (f a); [|now apply IH]. cbn [map]. constructor; [|now apply IH].
  intros C. apply N1. apply in_map_iff in C as (b & E & Hb). apply filter_In in Hb as (Hb & _). apply in_map_iff. eauto.
Qed.

(** * Products *)
Lemma product_snoc xs x : xs <> [] -> product (xs ++ [x]) = dmul (product xs) x.
Proof. destruct xs as [|y xs]; [congruence|]. intros _. cbn [app product]. now rewrite fold_left_app. Qed.

Lemma product_bounds xs : xs <> [] -> (forall x, In x xs -> unit_double x /\ above 1 x) ->
  (List.length xs < 900)%nat -> unit_double (product xs) /\ above (Z.of_nat (List.length xs)) (product xs).
Proof.
  induction xs as [|x xs IH] using rev_ind; [congruence|]. intros _ H L. rewrite app_length in *. cbn [List.length] in *.
  destruct xs as [|y xs].
  - cbn [app product fold_left List.length]. destruct (H x ltac:(now left)) as (U & Ab). split; [exact U|]. exact Ab.
  - destruct (H x ltac:(apply in_or_app; right; now left)) as (U & Ab).
    destruct IH as (U' & A'); [congruence|intros z Hz; apply H, in_or_app; now left|lia|].
    rewrite product_snoc by congruence. split; [now apply dmul_unit|].
    rewrite Nat2Z.inj_add. apply dmul_above; auto. lia.
Qed.

Lemma product_ones n : product (repeat d1 (S n)) = d1.
Proof.
  cbn [repeat product]. induction n as [|n IH]; [reflexivity|]. cbn [repeat fold_left]. change (dmul d1 d1) with d1. exact IH.
Qed.

(** * Rankings *)
Section ranking.
Context (t : table) (kept : Z -> Prop) (sc : Z -> double -> Prop) (f : Z -> double) (l : list Z) (u : list prob).
Hypothesis (Hk : forall i, In i l <-> kept i).
Hypothesis (Hsc : forall i x, kept i -> (sc i x <-> x = f i)).
Hypothesis (Hb : forall i, kept i -> unit_double (f i) /\ above 900 (f i)).
Hypothesis (Hr : representatives (t_ids t) (map (fun i => mkpr i (f i)) l) u).
Hypothesis (Hs : StronglySorted (fun p q => dle (pr_p q) (pr_p p) = true) u).

Lemma rep_kept p : In p u -> kept (pr_i p) /\ pr_p p = f (pr_i p) /\ unit_double (pr_p p).
Proof.
  intros Hp. apply (proj1 Hr) in Hp. apply in_map_iff in Hp as (i & <- & Hi). cbn [pr_i pr_p].
  apply Hk in Hi. split; [exact Hi|]. split; [reflexivity|]. now apply Hb.
Qed.
Lemma rep_best p i : In p u -> kept i -> class t i = class t (pr_i p) -> dle (f i) (pr_p p) = true.
Proof.
  intros Hp Hi E. destruct Hr as (_ & _ & R3 & _).
  apply (R3 p Hp (mkpr i (f i))); [apply in_map_iff; exists i; split; [reflexivity|now apply Hk]|exact E].
Qed.
Lemma rep_some i : kept i -> exists p, In p u /\ class t (pr_i p) = class t i.
Proof.
  intros Hi. destruct Hr as (_ & _ & _ & R4). destruct (R4 (mkpr i (f i))) as (p & Hp & E).
  - apply in_map_iff. exists i. split; [reflexivity|now apply Hk].
  - exists p. split; [exact Hp|exact E].
Qed.
Lemma unit_f i : kept i -> unit_double (f i).
Proof. intros. now apply Hb. Qed.

Lemma head_best p u' i : u = p :: u' -> kept i -> dle (f i) (pr_p p) = true.
Proof.
  intros Eu Hi. destruct (rep_some i Hi) as (q & Hq & E). pose proof (rep_best q i Hq Hi (eq_sym E)) as B.
  pose proof (rep_kept q Hq) as (_ & _ & Uq). assert (Hp : In p u) by (rewrite Eu; now left).
  pose proof (rep_kept p Hp) as (_ & _ & Up). pose proof (unit_f i Hi) as Ui.
  rewrite Eu in Hq, Hs. destruct Hq as [->|Hq]; [exact B|].
  inversion Hs as [|? ? _ F]; subst. rewrite Forall_forall in F. specialize (F q Hq). cbn beta in F.
  rewrite dle_key in * by assumption. lia.
Qed.

Lemma half_unit p : In p u -> unit_double (dmul (pr_p p) dhalf) /\ dle (dmul (pr_p p) dhalf) (pr_p p) = true.
Proof.
  intros Hp. apply dmul_unit; [now apply rep_kept|]. apply unit_doubleb_ok. reflexivity.
Qed.

Lemma half_ranking p u' : u = p :: u' -> ranking t kept sc (filter (fun q => dle (dmul (pr_p p) dhalf) (pr_p q)) u).
Proof.
  intros Eu. assert (Hp : In p u) by (rewrite Eu; now left).
  destruct (half_unit p Hp) as (Uh & Lh). destruct (rep_kept p Hp) as (Kp & Ep & Up).
  set (g := fun q => dle (dmul (pr_p p) dhalf) (pr_p q)) in *.
  assert (Hd : exists u2, filter g u = p :: u2). { rewrite Eu. cbn [filter]. unfold g at 1. rewrite Lh. eauto. }
  assert (Hd2 : forall q u2, filter g u = q :: u2 -> q = p). { intros q u2. destruct Hd as (u3 & ->). congruence. }
  constructor.
  - intros q Hq. apply filter_In in Hq as (Hq & _). destruct (rep_kept q Hq) as (K & E & U). split; [exact K|].
    split; [now apply Hsc|exact U].
  - now apply SS_filter.
  - apply NoDup_map_filter. apply Hr.
  - intros q i x Hq Ki Sx E. apply filter_In in Hq as (Hq & _). apply Hsc in Sx; [|exact Ki]. subst x. now apply rep_best.
  - intros q u2 i x E Ki Sx. apply Hd2 in E. subst q. apply Hsc in Sx; [|exact Ki]. subst x. now apply (head_best p u' i Eu).
  - intros q u2 r E Hr'. apply Hd2 in E. subst q. apply filter_In in Hr' as (Hr' & G). unfold g in G.
    apply (half_best _ _ 900); [exact Up|rewrite Ep; now apply Hb|lia|now apply rep_kept|exact G].
  - intros q u2 i x E Ki Sx G. apply Hd2 in E. subst q. apply Hsc in Sx; [|exact Ki]. subst x.
    destruct (rep_some i Ki) as (r & Hr' & Ec). exists r. split; [|exact Ec]. apply filter_In. split; [exact Hr'|].
    unfold g. pose proof (rep_best r i Hr' Ki (eq_sym Ec)) as B. pose proof (rep_kept r Hr') as (_ & _ & Ur).
    pose proof (unit_f i Ki). rewrite dle_key in * by assumption. lia.
  - intros E. destruct Hd as (u3 & E'). congruence.
Qed.

Lemma empty_ranking : u = [] -> ranking t kept sc [].
Proof.
  intros Eu. constructor; try (intros; contradiction); try (intros; discriminate); try constructor.
  intros _ i Ki. destruct (rep_some i Ki) as (p & Hp & _). rewrite Eu in Hp. destruct Hp.
Qed.

Lemma ones_ranking : ranking t (fun i => kept i /\ f i = d1) sc (filter (fun q => dle d1 (pr_p q)) u).
Proof.
  assert (One : forall q, In q (filter (fun q => dle d1 (pr_p q)) u) -> In q u /\ pr_p q = d1).
  { intros q Hq. apply filter_In in Hq as (Hq & G). split; [exact Hq|]. destruct (rep_kept q Hq) as (_ & _ & U).
    apply dkey_inj; [exact U|exact unit_d1|]. pose proof (dkey_le_1 _ U). rewrite dle_key in G by (try exact unit_d1; exact U). lia. }
  assert (Some' : forall i, kept i -> f i = d1 -> exists q, In q (filter (fun q => dle d1 (pr_p q)) u) /\ class t (pr_i q) = class t i).
  { intros i Ki Ei. destruct (rep_some i Ki) as (r & Hr' & Ec). exists r. split; [|exact Ec]. apply filter_In.
    split; [exact Hr'|]. rewrite <- Ei. now apply rep_best. }
  assert (Sx' : forall i x, kept i /\ f i = d1 -> sc i x -> x = d1).
  { intros i x (Ki & Ei) Sx. apply Hsc in Sx; [|exact Ki]. congruence. }
  constructor.
  - intros q Hq. destruct (One q Hq) as (Hu & E1). destruct (rep_kept q Hu) as (K & E & U).
    split; [split; [exact K|congruence]|]. split; [now apply Hsc|exact U].
  - now apply SS_filter.
  - apply NoDup_map_filter. apply Hr.
  - intros q i x Hq Ki Sx _. destruct (One q Hq) as (_ & ->). rewrite (Sx' i x Ki Sx). reflexivity.
  - intros q u2 i x E Ki Sx. rewrite (Sx' i x Ki Sx). assert (Hq : In q (q :: u2)) by now left. rewrite <- E in Hq.
    destruct (One q Hq) as (_ & ->). reflexivity.
  - intros q u2 r E Hr'. assert (Hq : In q (q :: u2)) by now left. rewrite <- E in Hq.
    destruct (One q Hq) as (_ & ->), (One r Hr') as (_ & ->). unfold at_most, d1. rewrite Z.min_id. lia.
  - intros q u2 i x _ (Ki & Ei) _ _. now apply Some'.
  - intros E i (Ki & Ei). destruct (Some' i Ki Ei) as (q & Hq & _). rewrite E in Hq. destruct Hq.
Qed.
End ranking.

Section recog2.
Context (inp : input) (t : table) (HI : sound_input inp) (HT : sound_table t).
Notation N := (rows t).
Notation coh := (coherent (in_img inp) (in_img90 inp)).
Notation fv := (fv inp).
Notation cv := (cv t).
Notation col := (col t).
Notation sim := (sim inp t).
Notation mk := (mk inp t).
Notation score := (score inp t).
Notation near := (near inp t).
Notation in_rows := (in_rows t).
Notation certain := (certain inp t).
Notation retained := (retained inp t).
Notation comparable := (comparable inp t).
Notation known := (known inp t).
Notation outcome := (outcome inp t).

(** * The complex features *)
Definition pct (s : strategy) (i : Z) : Z := percentage s (fv s) (cv s i).

Lemma complex_in_all s : In s complex_strategies -> In s all_strategies.
Proof. intros H. unfold all_strategies. apply in_or_app. right. apply in_or_app. now left. Qed.
Lemma exclusive_in_all s : In s exclusive_strategies -> In s all_strategies.
Proof. intros H. unfold all_strategies. apply in_or_app. right. apply in_or_app. now right. Qed.

Lemma complex_dist s i : In s complex_strategies -> 0 <= i < N ->
  rel_dist (rel s) (fv s) (cv s i) = Ok (sim s i) /\ 0 <= pct s i <= 100.
Proof.
  intros Hs Hi. destruct (col_ok t HT s (complex_in_all s Hs)) as (_ & _ & C). destruct (C i Hi) as (_ & T & _).
  unfold sim, RecogProofs.sim, pct, rel. unfold complex_strategies in Hs. apply in_app_iff in Hs as [Hs|Hs].
  - destruct (hbar_feature inp HI s Hs) as (_ & Ef).
    assert (Ea : st_algo s = Hbar) by (cbn in Hs; destruct Hs as [<-|[<-|[]]]; reflexivity).
    unfold typed in T. rewrite Ea in T. destruct T as (n & En & _). rewrite Ef, En, Ea. cbn [relation_of rel_dist].
    unfold percentage. rewrite Ea. destruct (num (fv s) =? n); (split; [f_equal; vm_compute; reflexivity|lia]).
  - cbn in Hs. destruct Hs as [<-|[]]. destruct (alternations_feature inp HI) as (_ & l & Ef & Ll).
    unfold typed in T. cbn [st_algo] in T. destruct T as (l' & El & Ll'). rewrite Ef, El. cbn [st_algo relation_of rel_dist percentage].
    destruct (array_law alt_eqb alt_eqb_eq l l' 0) as (v & Ev & _ & Bv & _ & Ev' & _); [intros ->; discriminate Ll|congruence|].
    rewrite Ev. cbn [bind]. rewrite <- Ev'. split; [reflexivity|exact Bv].
Qed.

Lemma reduce_and_update_ok s ss : In s complex_strategies -> ss <> [] -> forall l, (forall i, In i l -> 0 <= i < N) ->
  reduce_and_update (rel s) (col s) (fv s) dhalf (map (mk ss) l) =
  Ok (map (mk (ss ++ [s])) (filter (fun i => 50 <=? pct s i) l)).
Proof.
  intros Hs Hne. destruct (col_ok t HT s (complex_in_all s Hs)) as (_ & _ & C).
  induction l as [|i l IH]; intros H; [reflexivity|]. assert (Hi : 0 <= i < N) by (apply H; now left).
  cbn [map reduce_and_update mk RecogProofs.mk pr_i pr_p filter]. destruct (C i Hi) as (-> & _ & _). cbn [bind].
  destruct (complex_dist s i Hs Hi) as (-> & B). cbn [bind].
  rewrite IH by (intros j Hj; apply H; now right). cbn [bind].
  destruct (percent_ok _ B) as (_ & _ & D & _). change (sim s i) with (percent (pct s i)). rewrite D. destruct (50 <=? pct s i); [|reflexivity].
  cbn [map]. unfold RecogProofs.mk, RecogProofs.score. rewrite map_app. cbn [map]. rewrite product_snoc; [reflexivity|].
  destruct ss; [congruence|discriminate].
Qed.

Lemma filter_true {A} (l : list A) : filter (fun _ => true) l = l.
Proof. induction l as [|a l IH]; [reflexivity|]. cbn [filter]. now rewrite IH. Qed.

Lemma reduce_complex_ok : forall cs ss l cx, incl cs complex_strategies -> ss <> [] ->
  (forall i, In i l -> 0 <= i < N) -> coh cx ->
  exists cx', reduce_complex inp t cs (map (mk ss) l) cx =
    Ok (map (mk (ss ++ cs)) (filter (fun i => forallb (fun s => 50 <=? pct s i) cs) l), cx') /\ coh cx'.
Proof.
  induction cs as [|s cs IH]; intros ss l cx Hi Hne H C; cbn [reduce_complex].
  - exists cx. rewrite app_nil_r. cbn [forallb]. rewrite filter_true. split; [reflexivity|exact C].
  - assert (Hs : In s complex_strategies) by (apply Hi; now left).
    destruct (col_ok t HT s (complex_in_all s Hs)) as (-> & _ & _). cbn [bind].
    destruct (load_ok inp HI s cx (complex_in_all s Hs) C) as (cx1 & -> & C1). cbn [bind].
    rewrite reduce_and_update_ok by assumption. cbn [bind].
    destruct (IH (ss ++ [s]) (filter (fun i => 50 <=? pct s i) l) cx1) as (cx2 & E & C2).
    + intros x Hx. apply Hi. now right.
    + now destruct ss.
    + intros i Hj. apply filter_In in Hj as (Hj & _). now apply H.
    + exact C1.
    + exists cx2. rewrite E, <- app_assoc. cbn [app forallb]. rewrite filter_filter. split; [reflexivity|exact C2].
Qed.

Definition plausibleb (i : Z) : bool := forallb (fun s => 50 <=? pct s i) complex_strategies.
Lemma plausible_iff i : 0 <= i < N -> plausibleb i = true <-> plausible inp t i.
Proof.
  intros Hi. unfold plausibleb, plausible. rewrite forallb_forall. split.
  - intros H s a b Hs Fa Cb. apply feature_fv in Fa. apply (cell_cv t HT) in Cb. specialize (H s Hs).
    unfold pct in H. rewrite Fa, Cb in H. lia.
  - intros H s Hs. destruct (col_ok t HT s (complex_in_all s Hs)) as (_ & _ & C). destruct (C i Hi) as (_ & _ & Ce).
    specialize (H s _ _ Hs (feature_ok inp HI s (complex_in_all s Hs)) Ce). fold (pct s i) in H. lia.
Qed.

(** * Scores *)
Lemma scored_score ss i x : incl ss all_strategies -> 0 <= i < N -> (scored inp t ss i x <-> x = score ss i).
Proof.
  intros Hi Hr. unfold scored, RecogProofs.score. split.
  - intros (xs & F & ->). f_equal. clear Hi. induction F as [|s y ss xs (a & b & Fa & Cb & ->) F IH]; [reflexivity|].
    cbn [map]. rewrite IH. f_equal. apply feature_fv in Fa. apply (cell_cv t HT) in Cb. unfold sim, RecogProofs.sim. now rewrite Fa, Cb.
  - intros ->. exists (map (fun s => sim s i) ss). split; [|reflexivity]. induction ss as [|s ss IH]; [constructor|].
    cbn [map]. constructor; [|apply IH; intros y Hy; apply Hi; now right].
    assert (Hs : In s all_strategies) by (apply Hi; now left).
    destruct (col_ok t HT s Hs) as (_ & _ & C). destruct (C i Hr) as (_ & _ & Ce).
    exists (fv s), (cv s i). split; [now apply feature_ok|]. split; [exact Ce|reflexivity].
Qed.

Lemma simple_score i : 0 <= i < N -> near i = true ->
  unit_double (score simple_strategies i) /\ above 900 (score simple_strategies i).
Proof.
  intros Hi Hn. unfold RecogProofs.score.
  destruct (product_bounds (map (fun s => sim s i) simple_strategies)) as (U & A).
  - discriminate.
  - intros x Hx. apply in_map_iff in Hx as (s & <- & Hs). unfold RecogProofs.near in Hn. rewrite forallb_forall in Hn.
    destruct (close_percentage inp t HI HT s i Hs Hi (Hn s Hs)) as (B & _).
    destruct (percent_ok (percentage s (fv s) (cv s i)) ltac:(lia)) as (U & A & _). split; [exact U|]. apply A. lia.
  - rewrite map_length. vm_compute. lia.
  - split; [exact U|]. refine (above_mono _ _ _ _ A). rewrite map_length. vm_compute. discriminate.
Qed.
Lemma full_score i : 0 <= i < N -> near i = true -> plausibleb i = true ->
  unit_double (score scoring i) /\ above 900 (score scoring i).
Proof.
  intros Hi Hn Hp. unfold RecogProofs.score.
  destruct (product_bounds (map (fun s => sim s i) scoring)) as (U & A).
  - discriminate.
  - intros x Hx. apply in_map_iff in Hx as (s & <- & Hs). unfold scoring in Hs. apply in_app_iff in Hs as [Hs|Hs].
    + unfold RecogProofs.near in Hn. rewrite forallb_forall in Hn.
      destruct (close_percentage inp t HI HT s i Hs Hi (Hn s Hs)) as (B & _).
      destruct (percent_ok (percentage s (fv s) (cv s i)) ltac:(lia)) as (U & A & _). split; [exact U|]. apply A. lia.
    + destruct (complex_dist s i Hs Hi) as (_ & B). unfold plausibleb in Hp. rewrite forallb_forall in Hp. specialize (Hp s Hs).
      destruct (percent_ok (percentage s (fv s) (cv s i)) B) as (U & A & _). split; [exact U|]. apply A. unfold pct in Hp. lia.
  - rewrite map_length. vm_compute. lia.
  - split; [exact U|]. refine (above_mono _ _ _ _ A). rewrite map_length. vm_compute. discriminate.
Qed.
Lemma scoring_incl : incl scoring all_strategies.
Proof. intros s Hs. unfold scoring in Hs. apply in_app_iff in Hs as [Hs|Hs]; [now apply simple_in_all|now apply complex_in_all]. Qed.


(** * The exclusive features *)
Notation pred := (all_in_dist t exclusive_strategies (map fv exclusive_strategies)).
Definition keep (i : Z) : res bool :=
  same <- rd (t_by_words t) i ;; match same with [] => Ok true | _ :: _ => some_of pred same end.
Definition kb (i : Z) : bool := match keep i with Ok b => b | _ => false end.

Lemma reduce_by_word_inv ss : forall l r, reduce_by_word (t_by_words t) pred (map (mk ss) l) = Ok r ->
  r = map (mk ss) (filter kb l) /\ forall i, In i l -> exists b, keep i = Ok b.
Proof.
  induction l as [|i l IH]; intros r E; cbn [map reduce_by_word] in E.
  - injection E as <-. split; [reflexivity|intros i []].
  - cbn [RecogProofs.mk pr_i] in E. apply bind_Ok in E as (same & Es & E). apply bind_Ok in E as (b & Eb & E).
    apply bind_Ok in E as (l' & El & E). destruct (IH l' El) as (-> & K).
    assert (Ek : keep i = Ok b) by (unfold keep; rewrite Es; exact Eb).
    split; [|intros j [<-|Hj]; [eauto|auto]]. cbn [filter]. unfold kb at 1. rewrite Ek. destruct b; injection E as <-; reflexivity.
Qed.
Lemma reduce_by_word_total ss l : (forall i, In i l -> exists b, keep i = Ok b) ->
  reduce_by_word (t_by_words t) pred (map (mk ss) l) = Ok (map (mk ss) (filter kb l)).
Proof.
  induction l as [|i l IH]; intros H; cbn [map reduce_by_word]; [reflexivity|]. cbn [RecogProofs.mk pr_i].
  destruct (H i ltac:(now left)) as (b & Ek). assert (Ek' := Ek). unfold keep in Ek. apply bind_Ok in Ek as (same & -> & Ek).
  cbn [bind]. rewrite Ek. cbn [bind]. rewrite IH by (intros j Hj; apply H; now right). cbn [bind filter].
  replace (kb i) with b by (unfold kb; now rewrite Ek'). destruct b; reflexivity.
Qed.

Lemma some_of_inv p l b : some_of p l = Ok b -> (b = true <-> exists j, In j l /\ p j = Ok true).
Proof.
  revert b. induction l as [|i l IH]; intros b E; cbn [some_of] in E.
  - injection E as <-. split; [discriminate|intros (j & [] & _)].
  - apply bind_Ok in E as (c & Ec & E). destruct c.
    + injection E as <-. split; [intros _; exists i; split; [now left|exact Ec]|reflexivity].
    + rewrite (IH b E). split; [intros (j & Hj & Ej); exists j; split; [now right|exact Ej]|].
      intros (j & [<-|Hj] & Ej); [congruence|eauto].
Qed.
Lemma some_of_total p l : (forall j, In j l -> exists b, p j = Ok b) -> exists b, some_of p l = Ok b.
Proof.
  induction l as [|i l IH]; intros H; cbn [some_of]; [eauto|]. destruct (H i ltac:(now left)) as ([|] & ->); cbn [bind]; [eauto|].
  apply IH. intros j Hj. apply H. now right.
Qed.

Lemma scan_words : forall i, 0 <= i < N -> rd (t_by_words t) i = Ok (scan_order (t_glyphs t) i).
Proof.
  intros i Hi. destruct (by_words_order (t_glyphs t) (st_size t HT) (st_labels t HT)) as (out & E & Lo & W).
  rewrite (st_by_words t HT) in E. injection E as <-. rewrite <- (W i Hi). apply rd_nth. rewrite Lo. exact Hi.
Qed.
Lemma same_words : forall i, 0 <= i < N -> exists same, rd (t_by_words t) i = Ok same /\
  forall j, In j same <-> same_word (t_glyphs t) i j.
Proof.
  intros i Hi. destruct (by_words_exact (t_glyphs t) (st_size t HT) (st_labels t HT)) as (out & E & Lo & W).
  rewrite (st_by_words t HT) in E. injection E as <-.
  exists (nth (Z.to_nat i) (t_by_words t) []). split; [apply rd_nth; rewrite Lo; exact Hi|]. now apply W.
Qed.

Lemma eq_list_sym (l l' : list Z) : l <> [] -> List.length l = List.length l' ->
  array_in_dist Z.eqb l' l 50 = Ok (50 <=? 100 * Z.of_nat (List.length (filter (fun '(x, y) => x =? y) (combine l l'))) / Z.of_nat (List.length l)).
Proof.
  intros Hne Hl. destruct (array_law Z.eqb Z.eqb_eq l l' 50 Hne Hl) as (v & _ & Ev & _ & _ & <- & _).
  unfold array_in_dist. rewrite Ev. reflexivity.
Qed.

Lemma pred_eq j : 0 <= j < N -> exists l l',
  fv (mkst ProportionalityZone false) = VVec l /\ cv (mkst ProportionalityZone false) j = VVec l' /\
  pred j = (if 50 <=? pct (mkst Zone false) j then b <- pz_in_dist l' l 50 ;; Ok b else Ok false).
Proof.
  intros Hj. destruct (zone_feature inp HI) as (_ & z & Ez & Lz). destruct (pz_feature inp HI) as (_ & l & El & _).
  destruct (col_ok t HT (mkst Zone false) (exclusive_in_all _ ltac:(now left))) as (Gz & _ & Cz).
  destruct (col_ok t HT (mkst ProportionalityZone false) (exclusive_in_all _ ltac:(right; now left))) as (Gp & _ & Cp).
  destruct (Cz j Hj) as (Az & Tz & _). destruct (Cp j Hj) as (Ap & Tp & _).
  unfold typed in Tz, Tp. cbn [st_algo] in Tz, Tp. destruct Tz as (z' & Ez' & Lz'). destruct Tp as (l' & El').
  exists l, l'. split; [exact El|]. split; [exact El'|].
  change exclusive_strategies with [mkst Zone false; mkst ProportionalityZone false]. cbn [map all_in_dist].
  rewrite Gz. cbn [bind]. rewrite Az. cbn [bind]. rewrite Ez, Ez'. unfold rel at 1. cbn [st_algo relation_of rel_in_dist rel_count].
  change (rel_count (rel (mkst Zone false)) / 2) with 50.
  rewrite (eq_list_sym z z') by (try congruence; intros ->; discriminate Lz). cbn [bind].
  unfold pct. rewrite Ez, Ez'. unfold percentage at 1. destruct (50 <=? _); [|reflexivity].
  rewrite Gp. cbn [bind]. rewrite Ap. cbn [bind]. rewrite El, El'. unfold rel at 1. cbn [st_algo relation_of rel_in_dist].
  change (rel_count (rel (mkst ProportionalityZone false)) / 2) with 50.
  destruct (pz_in_dist l' l 50) as [[|]| | |]; reflexivity.
Qed.

Lemma pred_alike j : 0 <= j < N -> (pred j = Ok true <-> alike inp t j).
Proof.
  intros Hj. destruct (pred_eq j Hj) as (l & l' & El & El' & ->).
  assert (Hz := exclusive_in_all (mkst Zone false) ltac:(now left)).
  assert (Hp := exclusive_in_all (mkst ProportionalityZone false) ltac:(right; now left)).
  destruct (col_ok t HT _ Hz) as (_ & _ & Cz). destruct (Cz j Hj) as (_ & _ & Az).
  destruct (col_ok t HT _ Hp) as (_ & _ & Cp). destruct (Cp j Hj) as (_ & _ & Ap).
  pose proof (feature_ok inp HI _ Hz) as Fz. pose proof (feature_ok inp HI _ Hp) as Fp. rewrite El in Fp. rewrite El' in Ap.
  unfold alike. split.
  - destruct (Z.leb_spec 50 (pct (mkst Zone false) j)) as [H|H]; [|discriminate]. intros E. split.
    + intros a b Fa Cb. apply feature_fv in Fa. apply (cell_cv t HT) in Cb. subst a b. exact H.
    + intros a b Fa Cb. apply feature_fv in Fa. apply (cell_cv t HT) in Cb. rewrite El in Fa. rewrite El' in Cb.
      injection Fa as <-. injection Cb as <-. unfold pz_in_dist in E. destruct (pz_compute l' l) as [v| | |]; cbn [bind] in E; try discriminate E.
      exists v. split; [reflexivity|]. injection E as E. lia.
  - intros (A & B). specialize (A _ _ Fz Az). fold (pct (mkst Zone false) j) in A. destruct (Z.leb_spec 50 (pct (mkst Zone false) j)); [|lia].
    destruct (B _ _ Fp Ap) as (v & Ev & Hv). unfold pz_in_dist. rewrite Ev. cbn [bind]. f_equal. lia.
Qed.

Lemma pz_product_outcome : forall b a acc, (exists x y, In (x, y) (combine b a) /\ (x + y) mod 4294967296 = 0) /\ pz_product acc b a = UB \/
  ~ (exists x y, In (x, y) (combine b a) /\ (x + y) mod 4294967296 = 0) /\ exists v, pz_product acc b a = Ok v.
Proof.
  induction b as [|x b IH]; intros a acc; [right; split; [intros (? & ? & [] & _)|cbn; eauto]|].
  destruct a as [|y a]; [right; split; [intros (? & ? & [] & _)|cbn; eauto]|]. cbn [combine]. change (pz_product acc (x :: b) (y :: a)) with (q <- divu (u32 (x * 100)) ((x + y) mod 4294967296) ;; pz_product (u32 (acc + q)) b a).
  unfold divu.
  destruct (Z.eqb_spec ((x + y) mod 4294967296) 0) as [E|E]; cbn [bind].
  - left. split; [|reflexivity]. exists x, y. split; [now left|exact E].
  - destruct (IH a (u32 (acc + u32 (x * 100) / ((x + y) mod 4294967296)))) as [((x' & y' & I & E') & ->)|(No & v & ->)].
    + left. split; [exists x', y'; split; [now right|exact E']|reflexivity].
    + right. split; [|eauto]. intros (x' & y' & [I|I] & E'); [injection I as <- <-; contradiction|]. apply No. eauto.
Qed.
Lemma pz_outcome b a : (common_zero b a /\ pz_compute b a = UB) \/ (~ common_zero b a /\ exists v, pz_compute b a = Ok v).
Proof.
  unfold common_zero, pz_compute. destruct (Nat.eqb_spec (List.length b) (List.length a)) as [L|L]; cbn [negb]; [|right; split; [tauto|eauto]].
  destruct b as [|x b]; [right; split; [intros (_ & ? & ? & [] & _)|eauto]|].
  destruct (pz_product_outcome (x :: b) a 0) as [(E & ->)|(No & v & ->)]; [left; tauto|right]. split; [tauto|]. cbn [bind]. unfold divu at 1.
  replace (Z.of_nat (List.length (x :: b)) =? 0) with false by (symmetry; apply Z.eqb_neq; cbn [List.length]; lia). cbn [bind]. unfold compute_relationship, divu. cbn [Z.eqb bind]. eauto.
Qed.
Lemma pred_outcome j : 0 <= j < N -> (divided inp t j /\ pred j = UB) \/ (~ divided inp t j /\ exists b, pred j = Ok b).
Proof.
  intros Hj. destruct (pred_eq j Hj) as (l & l' & El & El' & ->).
  assert (Hz := exclusive_in_all (mkst Zone false) ltac:(now left)).
  assert (Hp := exclusive_in_all (mkst ProportionalityZone false) ltac:(right; now left)).
  destruct (col_ok t HT _ Hz) as (_ & _ & Cz). destruct (Cz j Hj) as (_ & _ & Az).
  destruct (col_ok t HT _ Hp) as (_ & _ & Cp). destruct (Cp j Hj) as (_ & _ & Ap).
  pose proof (feature_ok inp HI _ Hz) as Fz. pose proof (feature_ok inp HI _ Hp) as Fp. rewrite El in Fp. rewrite El' in Ap.
  destruct (Z.leb_spec 50 (pct (mkst Zone false) j)) as [H|H].
  - unfold pz_in_dist. destruct (pz_outcome l' l) as [(C & ->)|(C & v & ->)].
    + left. split; [|reflexivity]. split.
      * intros a b Fa Cb. apply feature_fv in Fa. apply (cell_cv t HT) in Cb. subst a b. exact H.
      * intros a b Fa Cb. apply feature_fv in Fa. apply (cell_cv t HT) in Cb. rewrite El in Fa. rewrite El' in Cb. injection Fa as <-. injection Cb as <-. exact C.
    + right. split; [|cbn [bind]; eauto]. intros (_ & D). apply C, D; assumption.
  - right. split; [|eauto]. intros (D & _). specialize (D _ _ Fz Az). fold (pct (mkst Zone false) j) in D. lia.
Qed.
Lemma keep_outcome i : 0 <= i < N -> (divides inp t i /\ keep i = UB) \/ (~ divides inp t i /\ exists b, keep i = Ok b).
Proof.
  intros Hi. unfold keep, divides. rewrite (scan_words i Hi). cbn [bind].
  assert (R : forall j, In j (scan_order (t_glyphs t) i) -> 0 <= j < N) by (intros j Hj; rewrite scan_order_In, others_In in Hj by exact Hi; apply Hj).
  assert (G : forall l, (forall j, In j l -> 0 <= j < N) ->
    ((exists before j after, l = before ++ j :: after /\ (forall k, In k before -> ~ alike inp t k) /\ divided inp t j) /\ some_of pred l = UB) \/
    (~ (exists before j after, l = before ++ j :: after /\ (forall k, In k before -> ~ alike inp t k) /\ divided inp t j) /\ exists b, some_of pred l = Ok b)).
  { clear Hi R. induction l as [|j l IH]; intros R; cbn [some_of].
    - right. split; [intros ([|? ?] & ? & ? & E & _); discriminate|eauto].
    - destruct (pred_outcome j (R j (or_introl eq_refl))) as [(D & ->)|(D & b & E)].
      + left. split; [|reflexivity]. exists [], j, l. split; [reflexivity|]. split; [intros k []|exact D].
      + rewrite E. cbn [bind]. destruct b.
        * right. split; [|eauto]. apply (pred_alike j (R j (or_introl eq_refl))) in E. intros ([|x before] & j' & after & El & Nb & D'); cbn [app] in El; injection El as -> El; [contradiction|].
          apply (Nb x); [now left|exact E].
        * assert (Na : ~ alike inp t j) by (intros A; apply (pred_alike j (R j (or_introl eq_refl))) in A; congruence).
          destruct (IH ltac:(intros k Hk; apply R; now right)) as [((before & j' & after & El & Nb & D') & ->)|(No & b & ->)].
          -- left. split; [|reflexivity]. exists (j :: before), j', after. split; [cbn [app]; f_equal; exact El|]. split; [|exact D']. intros k [<-|Hk]; [exact Na|now apply Nb].
          -- right. split; [|eauto]. intros ([|x before] & j' & after & El & Nb & D'); cbn [app] in El; injection El as -> El; [contradiction|].
             apply No. exists before, j', after. split; [exact El|]. split; [|exact D']. intros k Hk. apply Nb. now right. }
  specialize (G _ R). destruct (scan_order (t_glyphs t) i) as [|j0 l] eqn:Es; [|exact G].
  right. split; [intros ([|? ?] & ? & ? & E & _); discriminate|eauto].
Qed.
Lemma reduce_by_word_outcome ss l : (forall i, In i l -> 0 <= i < N) ->
  ((exists i, In i l /\ divides inp t i) /\ reduce_by_word (t_by_words t) pred (map (mk ss) l) = UB) \/
  (~ (exists i, In i l /\ divides inp t i) /\ exists r, reduce_by_word (t_by_words t) pred (map (mk ss) l) = Ok r).
Proof.
  induction l as [|i l IH]; intros H; cbn [map reduce_by_word].
  - right. split; [intros (? & [] & _)|eauto].
  - cbn [RecogProofs.mk pr_i]. destruct (IH ltac:(intros k Hk; apply H; now right)) as [((k & Ik & Dk) & E)|(No & r & E)]; destruct (keep_outcome i (H i (or_introl eq_refl))) as [(D & Ek)|(D & b & Ek)];
      unfold keep in Ek; rewrite (scan_words i (H i (or_introl eq_refl))) in Ek |- *; cbn [bind] in Ek |- *; rewrite Ek; cbn [bind]; try rewrite E; cbn [bind].
    + left. split; [exists i; split; [now left|exact D]|reflexivity].
    + left. split; [exists k; split; [now right|exact Dk]|reflexivity].
    + left. split; [exists i; split; [now left|exact D]|reflexivity].
    + right. split; [|destruct b; eauto]. intros (k & [<-|Ik] & Dk); [contradiction|]. apply No. eauto.
Qed.
Lemma reduce_exclusive_outcome ss l cx : (forall i, In i l -> 0 <= i < N) -> coh cx ->
  ((exists i, In i l /\ divides inp t i) /\ reduce_exclusive inp t exclusive_strategies (map (mk ss) l) cx = UB) \/
  (~ (exists i, In i l /\ divides inp t i) /\ exists r, reduce_exclusive inp t exclusive_strategies (map (mk ss) l) cx = Ok r).
Proof.
  intros H C. unfold reduce_exclusive. destruct l as [|i l].
  - right. split; [intros (? & [] & _)|cbn [map]; eauto].
  - cbn [map]. change (mk ss i :: map (mk ss) l) with (map (mk ss) (i :: l)). set (l0 := i :: l) in *. clearbody l0.
    destruct (load_values_ok inp HI exclusive_strategies cx) as (cx1 & -> & C1); [intros s Hs; now apply exclusive_in_all|exact C|].
    cbn [bind]. destruct (reduce_by_word_outcome ss l0 H) as [(D & ->)|(D & r & ->)]; cbn [bind]; [left; auto|right; eauto].
Qed.

Lemma keep_supported i b : 0 <= i < N -> keep i = Ok b -> (b = true <-> supported inp t i).
Proof.
  intros Hi E. unfold keep in E. destruct (same_words i Hi) as (same & Es & W). rewrite Es in E. cbn [bind] in E.
  unfold supported. destruct same as [|j0 same].
  - injection E as <-. split; [intros _; left; intros j Hj; now apply W in Hj|reflexivity].
  - rewrite (some_of_inv _ _ _ E). split.
    + intros (j & Hj & Ej). right. exists j. assert (Sj : same_word (t_glyphs t) i j) by now apply W. split; [exact Sj|].
      apply pred_alike; [destruct Sj as (_ & ? & _); assumption|exact Ej].
    + intros [C|(j & Sj & Aj)]; [exfalso; apply (C j0), W; now left|]. exists j. split; [now apply W|].
      apply pred_alike; [destruct Sj as (_ & ? & _); assumption|exact Aj].
Qed.


Lemma keep_total i : comparable -> 0 <= i < N -> exists b, keep i = Ok b.
Proof.
  intros Cm Hi. unfold keep. destruct (same_words i Hi) as (same & -> & W). cbn [bind]. destruct same as [|j0 same]; [eauto|].
  apply some_of_total. intros j Hj. apply W in Hj. destruct Hj as (_ & Hj & _).
  destruct (pred_eq j Hj) as (l & l' & El & El' & ->). destruct (50 <=? _); [|eauto].
  assert (Hp := exclusive_in_all (mkst ProportionalityZone false) ltac:(right; now left)).
  destruct (col_ok t HT _ Hp) as (_ & _ & Cp). destruct (Cp j Hj) as (_ & _ & Ap).
  destruct (pz_feature inp HI) as (Fp & l0 & E0 & B0 & L0). rewrite E0 in El, Fp. injection El as ->. rewrite El' in Ap.
  destruct (Cm _ _ _ Fp Ap) as (By & Pos).
  destruct (Nat.eq_dec (List.length l') (List.length l)) as [En|Nn].
  - destruct (pz_compute_ok l' l By B0 Pos ltac:(lia)) as (v & _ & _ & _ & _ & D). rewrite D. cbn [bind]. eauto.
  - unfold pz_in_dist, pz_compute. replace (Nat.eqb (List.length l') (List.length l)) with false by (symmetry; now apply Nat.eqb_neq).
    cbn [negb bind]. eauto.
Qed.

Lemma reduce_exclusive_ok ss l cx : (forall i, In i l -> 0 <= i < N) -> coh cx ->
  (forall ps cx', reduce_exclusive inp t exclusive_strategies (map (mk ss) l) cx = Ok (ps, cx') ->
     exists l', ps = map (mk ss) l' /\ forall i, In i l' <-> In i l /\ supported inp t i) /\
  (comparable -> exists ps cx', reduce_exclusive inp t exclusive_strategies (map (mk ss) l) cx = Ok (ps, cx')).
Proof.
  intros H C. unfold reduce_exclusive. destruct l as [|i l].
  - cbn [map]. split; [|intros _; eauto]. intros ps cx' E. injection E as <- <-. exists []. split; [reflexivity|]. intros i. cbn. tauto.
  - cbn [map]. change (mk ss i :: map (mk ss) l) with (map (mk ss) (i :: l)). set (l0 := i :: l) in *. clearbody l0.
    destruct (load_values_ok inp HI exclusive_strategies cx) as (cx1 & -> & C1); [intros s Hs; now apply exclusive_in_all|exact C|].
    cbn [bind]. split.
    + intros ps cx' E. apply bind_Ok in E as (r & Er & E). injection E as <- <-.
      destruct (reduce_by_word_inv ss _ _ Er) as (-> & K). exists (filter kb l0). split; [reflexivity|].
      intros j. rewrite filter_In. split; intros (Hj & S); (split; [exact Hj|]); destruct (K j Hj) as (b & Ek);
        apply (keep_supported j b (H j Hj)) in Ek as Ks; unfold kb in *; rewrite Ek in *; now apply Ks.
    + intros Cm. rewrite reduce_by_word_total by (intros j Hj; apply keep_total; auto). cbn [bind]. eauto.
Qed.

(** * compute_image *)
Context (sortv : list Z -> list prob -> list prob) (sortp : list prob -> list prob).
Hypothesis (Hv : is_std_sort (lt_by_views (t_ids t)) (sortv (t_ids t))).
Hypothesis (Hp : is_std_sort gt_prob sortp).

Lemma ids_length : Z.of_nat (List.length (t_ids t)) = N.
Proof.
  destruct (st_ids t HT) as (sort & Hs & ->). destruct (classes_rank (t_glyphs t) sort Hs) as (_ & _ & L & _). unfold rows. now rewrite L.
Qed.
Lemma ids_mk ss l : (forall i, In i l -> 0 <= i < N) -> ids_ok (t_ids t) (map (mk ss) l) = true.
Proof.
  intros H. apply ids_ok_iff. rewrite ids_length. intros p Hq. apply in_map_iff in Hq as (i & <- & Hi). now apply H.
Qed.

Lemma sort_stage ss l : (forall i, In i l -> 0 <= i < N) -> (forall i, In i l -> unit_double (score ss i)) ->
  exists l' u, sort_by_views sortv (t_ids t) (map (mk ss) l) = Ok (map (mk ss) l') /\ Permutation l l' /\
    unique_by_views (t_ids t) (map (mk ss) l') = Ok u /\
    representatives (t_ids t) (map (mk ss) l) (sortp u) /\ unit_ps (sortp u) /\
    StronglySorted (fun p q => dle (pr_p q) (pr_p p) = true) (sortp u).
Proof.
  intros H U. destruct (ranked_ok (t_ids t) (sortv (t_ids t)) sortp (map (mk ss) l) Hv Hp) as (P & I & _ & u & Eu & R & Us & S).
  - intros p Hq. apply in_map_iff in Hq as (i & <- & Hi). now apply U.
  - now apply ids_mk.
  - destruct (Permutation_map_inv _ _ (Permutation_sym P)) as (l' & El & Pl). exists l', u. unfold sort_by_views. rewrite ids_mk by exact H.
    rewrite El in *. repeat split; auto; apply R.
Qed.

Lemma finish_ok kept ss l u (cx : ctxs) :
  (forall i, In i l <-> kept i) -> (forall i, kept i -> 0 <= i < N) -> incl ss all_strategies ->
  (forall i, kept i -> unit_double (score ss i) /\ above 900 (score ss i)) ->
  representatives (t_ids t) (map (mk ss) l) (sortp u) -> unit_ps (sortp u) ->
  StronglySorted (fun p q => dle (pr_p q) (pr_p p) = true) (sortp u) ->
  exists ranked,
    match sortp u with
    | [] => Ok ([], cx)
    | p :: _ => l <- insert_views (t_glyphs t) (dmul (pr_p p) dhalf) (sortp u) ;; Ok (l, cx)
    end = Ok (labels_of t ranked, cx) /\ ranking t kept (scored inp t ss) ranked.
Proof.
  intros Hk Hr Hi Hb R U S.
  assert (Sc : forall i x, kept i -> (scored inp t ss i x <-> x = score ss i)) by (intros i x Ki; apply scored_score; auto).
  destruct (sortp u) as [|p u'] eqn:Eu.
  - exists []. split; [reflexivity|]. apply (empty_ranking t kept (scored inp t ss) (score ss) l [] Hk); auto.
  - exists (filter (fun q => dle (dmul (pr_p p) dhalf) (pr_p q)) (p :: u')). split.
    + rewrite insert_views_ok; [reflexivity| |exact U| |exact S].
      * apply dmul_unit; [apply U; now left|]. apply unit_doubleb_ok. reflexivity.
      * intros q Hq. apply Hr. destruct (rep_kept t kept (score ss) l (p :: u') Hk Hb R q Hq) as (K & _). exact K.
    + apply (half_ranking t kept (scored inp t ss) (score ss) l (p :: u') Hk Sc Hb R S p u' eq_refl).
Qed.

Lemma ranking_ext kept kept' sc ranked : (forall i, kept i <-> kept' i) -> ranking t kept sc ranked -> ranking t kept' sc ranked.
Proof.
  intros E [R1 R2 R3 R4 R5 R6 R7 R8]. constructor; auto.
  - intros p Hq. destruct (R1 p Hq) as (A & B). split; [now apply E|exact B].
  - intros p i x Hq Ki. apply R4; [exact Hq|now apply E].
  - intros p r i x Er Ki. apply (R5 p r i x Er). now apply E.
  - intros p r i x Er Ki. apply (R7 p r i x Er). now apply E.
  - intros Er i Ki. apply (R8 Er i). now apply E.
Qed.

Lemma compute_image_full cx :
  let m := compute_image sortv sortp simple_strategies complex_strategies exclusive_strategies t inp dhalf cx in
  (forall labels cx', m = Ok (labels, cx') -> outcome labels) /\
  ((comparable \/ exists i, certain i) -> exists labels cx', m = Ok (labels, cx')) /\
  ((undefined inp t /\ m = UB) \/ (~ undefined inp t /\ exists labels cx', m = Ok (labels, cx'))).
Proof.
  cbv zeta. unfold compute_image.
  destruct (simple_universe_ok inp t HI HT (ctx_reset cx) (reset_coherent _ _ _)) as (l & cx1 & -> & C1 & ND & W). cbn [bind].
  assert (Wc : forall i, In i l <-> candidate inp t i).
  { intros i. rewrite W. split; [intros (Hi & H); now apply (near_candidate inp t HI HT)|].
    intros H. pose proof H as (Hi & _). split; [exact Hi|now apply (near_candidate inp t HI HT)]. }
  assert (Hl : forall i, In i l -> 0 <= i < N) by (intros i Hi; now apply W).
  assert (Sb : forall i, candidate inp t i -> unit_double (score simple_strategies i) /\ above 900 (score simple_strategies i)).
  { intros i Hi. apply Wc, W in Hi. now apply simple_score. }
  destruct (sort_stage simple_strategies l Hl) as (l1 & u & -> & P1 & Eu & R & Us & S); [intros i Hi; apply Sb, Wc, Hi|].
  cbn [bind]. change (complex_strategies ++ exclusive_strategies) with (mkst Hbar false :: tl (complex_strategies ++ exclusive_strategies)).
  cbv iota. rewrite Eu. cbn [bind].
  assert (Ce : forall i, certain i <-> candidate inp t i /\ score simple_strategies i = d1).
  { intros i. unfold RecogSpec.certain. split; intros (Ci & E); (split; [exact Ci|]).
    - apply (scored_score simple_strategies i d1 simple_in_all (proj1 Ci)) in E. congruence.
    - now apply (scored_score simple_strategies i d1 simple_in_all (proj1 Ci)). }
  assert (Sc : forall i x, candidate inp t i -> (scored inp t simple_strategies i x <-> x = score simple_strategies i)).
  { intros i x (Hi & _). apply scored_score; [exact simple_in_all|exact Hi]. }
  destruct (sortp u) as [|p u'] eqn:Es.
  { assert (No : forall i, ~ candidate inp t i).
    { intros i Ki. destruct (rep_some t (candidate inp t) (score simple_strategies) l [] Wc R i Ki) as (q & [] & _). }
    split; [|split; [intros _; eauto|right; split; [intros (_ & i & Ci & _); exact (No i Ci)|eauto]]]. intros labels cx' E. injection E as <- <-. exists []. split; [reflexivity|]. right.
    split; [intros i (Ci & _); now apply (No i)|]. constructor; try (intros; contradiction); try (intros; discriminate); try constructor.
    intros _ i (Ci & _). now apply (No i). }
  assert (HpIn : In p (p :: u')) by now left.
  destruct (rep_kept t _ (score simple_strategies) l (p :: u') Wc Sb R p HpIn) as (Cp & Ep & Up).
  assert (Rows : forall q, In q (p :: u') -> 0 <= pr_i q < Z.of_nat (List.length (t_glyphs t))).
  { intros q Hq. destruct (rep_kept t _ (score simple_strategies) l (p :: u') Wc Sb R q Hq) as ((Hi & _) & _). exact Hi. }
  destruct (dle d1 (pr_p p)) eqn:D.
  { assert (Cer : certain (pr_i p)).
    { apply Ce. split; [exact Cp|]. rewrite <- Ep. apply dkey_inj; [exact Up|exact unit_d1|].
      pose proof (dkey_le_1 _ Up). rewrite dle_key in D by (try exact unit_d1; exact Up). lia. }
    rewrite insert_views_ok by (auto using unit_d1). cbn [bind]. split; [|split; [intros _; eauto|right; split; [intros (Nc & _); exact (Nc _ Cer)|eauto]]].
    intros labels cx' E. injection E as <- <-. eexists. split; [reflexivity|]. left. split.
    - exists (pr_i p). exact Cer.
    - apply (ranking_ext (fun i => candidate inp t i /\ score simple_strategies i = d1)); [intros i; symmetry; apply Ce|].
      apply (ones_ranking t _ _ (score simple_strategies) l (p :: u') Wc Sc Sb R S). }
  assert (No : forall i, ~ certain i).
  { intros i Ki. apply Ce in Ki as (Ki & Ei). pose proof (head_best t _ (scored inp t simple_strategies) (score simple_strategies) l (p :: u') Wc Sc Sb R S p u' i eq_refl Ki) as B.
    rewrite Ei in B. congruence. }
  assert (H1 : forall i, In i l1 -> 0 <= i < N) by (intros i Hi; apply Hl, (Permutation_in _ (Permutation_sym P1)), Hi).
  destruct (reduce_complex_ok complex_strategies simple_strategies l1 cx1) as (cx2 & -> & C2);
    [apply incl_refl|discriminate|exact H1|exact C1|]. cbn [bind]. fold scoring.
  change (fun i => forallb (fun s => 50 <=? pct s i) complex_strategies) with plausibleb. set (l2 := filter plausibleb l1).
  assert (H2 : forall i, In i l2 <-> candidate inp t i /\ plausibleb i = true).
  { intros i. unfold l2. rewrite filter_In, <- Wc. split; intros (A & B); (split; [|exact B]);
      [apply (Permutation_in _ (Permutation_sym P1) A)|apply (Permutation_in _ P1 A)]. }
  assert (H2r : forall i, In i l2 -> 0 <= i < N) by (intros i Hi; apply H2 in Hi as ((Hi & _) & _); exact Hi).
  destruct (reduce_exclusive_ok scoring l2 cx2 H2r C2) as (Inv & Tot).
  assert (Fin : forall l', (forall i, In i l' <-> In i l2 /\ supported inp t i) -> forall cx3 : ctxs, exists ranked : list prob,
    (ps <- sort_by_views sortv (t_ids t) (map (mk scoring) l') ;;
     ps <- unique_by_views (t_ids t) ps ;;
     match sortp ps with
     | [] => Ok (@nil oview, cx3)
     | p :: _ => l <- insert_views (t_glyphs t) (dmul (pr_p p) dhalf) (sortp ps) ;; Ok (l, cx3)
     end) = Ok (labels_of t ranked, cx3) /\ ranking t retained (scored inp t scoring) ranked).
  { intros l' Hl' cx3.
    assert (Kr : forall i, In i l' <-> retained i).
    { intros i. rewrite Hl', H2. unfold RecogSpec.retained. split; intros H.
      - destruct H as ((Ci & Pi) & Si). split; [exact Ci|]. split; [|exact Si]. destruct Ci as (Hi & _). now apply plausible_iff.
      - destruct H as (Ci & Pi & Si). split; [|exact Si]. split; [exact Ci|]. destruct Ci as (Hi & _). now apply plausible_iff. }
    assert (Kr' : forall i, retained i -> 0 <= i < N) by (intros i ((Hi & _) & _); exact Hi).
    assert (Kb : forall i, retained i -> unit_double (score scoring i) /\ above 900 (score scoring i)).
    { intros i Ki. pose proof Ki as (Ci & Pi & _). pose proof Ci as (Hi & _). apply full_score; [exact Hi|now apply (near_candidate inp t HI HT)|now apply plausible_iff]. }
    destruct (sort_stage scoring l') as (l3 & u3 & -> & _ & E3 & R3 & U3 & S3);
      [intros i Hi; apply Kr', Kr, Hi|intros i Hi; apply Kb, Kr, Hi|].
    cbn [bind]. rewrite E3. cbn [bind].
    exact (finish_ok retained scoring l' u3 cx3 Kr Kr' scoring_incl Kb R3 U3 S3). }
  split; [|split].
  - intros labels cx' E. apply bind_Ok in E as ((ps & cx3) & Ex & E). destruct (Inv ps cx3 Ex) as (l' & -> & Hl').
    destruct (Fin l' Hl' cx3) as (ranked & Er & Rk). cbv zeta in E. rewrite Er in E. injection E as <- <-.
    exists ranked. split; [reflexivity|]. right. split; [exact No|exact Rk].
  - intros [Cm|(i & Ki)]; [|exfalso; now apply (No i)]. destruct (Tot Cm) as (ps & cx3 & Ex). rewrite Ex. cbn [bind].
    destruct (Inv ps cx3 Ex) as (l' & -> & Hl'). destruct (Fin l' Hl' cx3) as (ranked & Er & _). cbv zeta. rewrite Er. eauto.
  - assert (Ud : undefined inp t <-> exists i, In i l2 /\ divides inp t i).
    { unfold undefined. split.
      - intros (_ & i & Ci & Pi & Di). exists i. split; [|exact Di]. apply H2. split; [exact Ci|]. destruct Ci as (Hi & _). now apply plausible_iff.
      - intros (i & Hi & Di). split; [exact No|]. apply H2 in Hi as (Ci & Pi). exists i. split; [exact Ci|]. split; [destruct Ci as (Hi & _); now apply plausible_iff|exact Di]. }
    destruct (reduce_exclusive_outcome scoring l2 cx2 H2r C2) as [(D' & Ex)|(D' & (ps & cx3) & Ex)].
    + left. split; [now apply Ud|]. rewrite Ex. reflexivity.
    + right. split; [intros U; apply D', Ud, U|]. rewrite Ex. cbn [bind].
      destruct (Inv ps cx3 Ex) as (l' & -> & Hl'). destruct (Fin l' Hl' cx3) as (ranked & Er & _). cbv zeta. rewrite Er. eauto.
Qed.

Lemma compute_image_outcome cx :
  let m := compute_image sortv sortp simple_strategies complex_strategies exclusive_strategies t inp dhalf cx in
  (forall labels cx', m = Ok (labels, cx') -> outcome labels) /\
  ((comparable \/ exists i, certain i) -> exists labels cx', m = Ok (labels, cx')).
Proof. destruct (compute_image_full cx) as (A & B & _). exact (conj A B). Qed.
(** The result, or a division by zero. *)
Lemma compute_image_exact cx :
  let m := compute_image sortv sortp simple_strategies complex_strategies exclusive_strategies t inp dhalf cx in
  (undefined inp t /\ m = UB) \/ (~ undefined inp t /\ exists labels cx', m = Ok (labels, cx') /\ outcome labels).
Proof.
  destruct (compute_image_full cx) as (A & _ & [U|(U & labels & cx' & E)]); [left; exact U|right]. split; [exact U|]. exists labels, cx'. split; [exact E|exact (A _ _ E)].
Qed.

(** * An image of the table *)

Lemma known_certain i : known i -> certain i.
Proof.
  intros (Hi & K).
  assert (Eq' : forall s, In s simple_strategies -> fv s = cv s i).
  { intros s Hs. destruct (K s Hs) as (v & F & C). apply feature_fv in F. apply (cell_cv t HT) in C. congruence. }
  assert (Cl : forall s, In s simple_strategies -> closeb inp t s i = true).
  { intros s Hs. unfold closeb. rewrite <- (Eq' s Hs), Z.sub_diag. change (Z.abs 0) with 0.
    destruct (range_cases s) as [->| ->]; reflexivity. }
  assert (Cn : candidate inp t i).
  { apply (near_candidate inp t HI HT i Hi). unfold RecogProofs.near. apply forallb_forall. exact Cl. }
  split; [exact Cn|]. apply scored_score; [exact simple_in_all|exact Hi|]. unfold RecogProofs.score.
  assert (E : map (fun s => sim s i) simple_strategies = repeat d1 (S (List.length simple_strategies - 1))).
  { change (S (List.length simple_strategies - 1)) with (List.length simple_strategies).
    assert (A : forall ss, incl ss simple_strategies -> map (fun s => sim s i) ss = repeat d1 (List.length ss)).
    { induction ss as [|s ss IH]; intros Hin; [reflexivity|]. cbn [map List.length repeat]. rewrite IH by (intros x Hx; apply Hin; now right).
      f_equal. assert (Hs : In s simple_strategies) by (apply Hin; now left). unfold sim, RecogProofs.sim.
      destruct (close_percentage inp t HI HT s i Hs Hi (Cl s Hs)) as (B & _). apply percent_ok; [lia|].
      rewrite <- (Eq' s Hs). destruct (simple_feature inp HI s Hs) as (_ & Ef & _). rewrite Ef. unfold percentage.
      rewrite Z.sub_diag, Z.eqb_refl. change (100 * Z.abs 0) with 0. rewrite Z.div_0_l by (destruct (range_cases s); lia).
      destruct (st_algo s); reflexivity. }
    apply A. apply incl_refl. }
  rewrite E. symmetry. apply product_ones.
Qed.

Lemma known_recognised i cx : known i ->
  exists labels cx' p rest,
    compute_image sortv sortp simple_strategies complex_strategies exclusive_strategies t inp dhalf cx = Ok (labels, cx') /\
    certain p /\ nth (Z.to_nat p) (t_glyphs t) [] <> [] /\ labels = nth (Z.to_nat p) (t_glyphs t) [] ++ rest.
Proof.
  intros K. apply known_certain in K. destruct (compute_image_outcome cx) as (O & T).
  destruct T as (labels & cx' & E); [right; eauto|]. destruct (O labels cx' E) as (ranked & -> & [(_ & R)|(C & _)]); [|exfalso; now apply (C i)].
  destruct ranked as [|p ranked]; [exfalso; exact (rk_nonempty _ _ _ _ R eq_refl i K)|].
  exists (labels_of t (p :: ranked)), cx', (pr_i p), (labels_of t ranked). split; [exact E|].
  destruct (rk_kept _ _ _ _ R p ltac:(now left)) as (Cp & _). split; [exact Cp|]. split; [|reflexivity].
  apply (st_labels t HT). apply nth_In. destruct Cp as ((Hi & _) & _). unfold rows in Hi. lia.
Qed.

End recog2.
