(** The rows kept by the simple and complex features, and their scores. *)
From Verif Require Import Base BaseProofs SortModel SortProofs ImageModel ImageSpec ImageProofs StratModel StratSpec
  StratFeatures StratFeatures2 StratFeatures3 ZoneModel ZoneSpec ZoneProofs3 DatasModel DatasSpec DatasProofs
  IndexModel IndexSpec IndexProofs ViewClassProofs FloatModel FloatSpec FloatProofs RecogModel RecogSpec RankProofs.
From Coq Require Import SpecFloat Permutation Sorted.

(** * The features of the image *)
Lemma recognisable_both img img90 : recognisable img -> rotate90 img = Ok img90 ->
  recognisable img90 /\ zonable img /\ zonable img90.
Proof.
  intros (Hwf & Hw & Hh & B1 & B2) E. destruct (rotate90_law img Hwf) as (r & E' & Wr & w & h & _).
  assert (r = img90) by congruence. subst r. unfold recognisable, zonable. rewrite w, h.
  assert (iw img * ih img <= iw img * ih img * ih img) by nia. 
  split; [split; [exact Wr|]; lia|]. split; (split; [assumption|]); lia.
Qed.

Lemma num_feature img : recognisable img ->
  (exists v, hdirection img = Ok v /\ 0 <= v <= 200) /\ (exists v, hdirection2 img = Ok v /\ 0 <= v <= 100) /\
  (exists v, hgravity img = Ok v /\ 0 <= v <= 200) /\ (exists v, hgravity2 img = Ok v /\ 0 <= v <= 100) /\
  (exists v, dvdirection img = Ok v /\ 0 <= v <= 200) /\ (exists v, dvdirection2 img = Ok v /\ 0 <= v <= 100) /\
  (exists v, dvgravity img = Ok v /\ 0 <= v <= 200) /\ (exists v, dvgravity2 img = Ok v /\ 0 <= v <= 100) /\
  (exists v, dzdensity img = Ok v /\ 0 <= v <= 100) /\ (exists v, proportionality img = Ok v /\ 0 <= v <= 100) /\
  (exists v, density img = Ok v /\ 0 <= v <= 100) /\ (exists v, hbar img = Ok v).
Proof.
  intros (Hwf & Hw & Hh & B1 & B2).
  assert (A : iw img * ih img <= iw img * ih img * ih img) by nia.
  assert (M : measurable img (iw img * ih img)) by (split; [exact Hwf|]; lia).
  assert (L : 1 <= iw img <= iw img * ih img /\ 1 <= ih img <= iw img * ih img) by nia.
  repeat match goal with |- _ /\ _ => split end.
  - destruct (hdirection_ok img Hwf Hw Hh ltac:(lia)) as (E & ?). eauto.
  - destruct (hdirection2_ok img Hwf Hw Hh ltac:(lia)) as (v & E & ? & _). eauto.
  - destruct (hgravity_ok img Hwf Hw Hh ltac:(lia)) as (E & ?). eauto.
  - destruct (hgravity2_ok img Hwf Hw Hh ltac:(lia)) as (v & E & ? & _). eauto.
  - destruct (dvdirection_ok img Hwf Hw Hh ltac:(lia)) as (E & ?). eauto.
  - destruct (dvdirection2_ok img Hwf Hw Hh ltac:(lia)) as (v & E & ? & _). eauto.
  - destruct (dvgravity_ok img Hwf Hw Hh ltac:(lia)) as (E & ?). eauto.
  - destruct (dvgravity2_ok img Hwf Hw Hh ltac:(lia)) as (v & E & ? & _). eauto.
  - destruct (dzdensity_ok img Hwf ltac:(lia)) as (v & E & ? & _). eauto.
  - destruct (proportionality_ok img ltac:(lia) ltac:(lia) ltac:(lia) ltac:(lia)) as (v & E & ? & _). eauto.
  - destruct (density_ok img M) as (v & E & ? & _). eauto.
  - rewrite (hbar_ok img Hwf Hw). eauto.
Qed.

Lemma filter_len {A} (f : A -> bool) l : (List.length (filter f l) <= List.length l)%nat.
Proof. induction l as [|a l IH]; [reflexivity|]. cbn [filter]. destruct (f a); cbn [List.length]; lia. Qed.

Section recog.
Context (inp : input) (t : table) (HI : sound_input inp) (HT : sound_table t).
Notation N := (rows t).

Definition fv (s : strategy) : fval :=
  match feature_alone (in_zsort inp) s (in_img inp) (in_img90 inp) with Ok v => v | _ => VNum 0 end.
Definition num (v : fval) : Z := match v with VNum n => n | _ => 0 end.

Lemma simple_feature s : In s simple_strategies ->
  feature inp s (fv s) /\ fv s = VNum (num (fv s)) /\ 0 <= num (fv s) <= range s /\ rel s = RInterval (range s).
Proof.
  destruct HI as (R & E & _). destruct (recognisable_both _ _ R E) as (R90 & _ & _).
  intros Hs. unfold feature, fv, feature_alone, rel, range.
  pose proof (num_feature _ R) as F. pose proof (num_feature _ R90) as F9.
  set (img := in_img inp) in *. set (img90 := in_img90 inp) in *. clearbody img img90.
  repeat match goal with H : _ /\ _ |- _ => destruct H end.
  repeat match goal with H : ex _ |- _ => destruct H end.
  repeat match goal with H : _ /\ _ |- _ => destruct H end.
  cbn in Hs. repeat (destruct Hs as [<-|Hs]); [..|contradiction]; cbn [st_rot st_algo];
    repeat match goal with H : _ = Ok _ |- _ => rewrite H; clear H end; cbn [bind num relation_of]; repeat split; lia.
Qed.

Lemma hbar_feature s : In s (registry2 Hbar) -> feature inp s (fv s) /\ fv s = VNum (num (fv s)).
Proof.
  destruct HI as (R & E & _). destruct (recognisable_both _ _ R E) as (R90 & _ & _).
  intros Hs. unfold feature, fv, feature_alone.
  destruct (num_feature _ R) as (_ & _ & _ & _ & _ & _ & _ & _ & _ & _ & _ & v & E1).
  destruct (num_feature _ R90) as (_ & _ & _ & _ & _ & _ & _ & _ & _ & _ & _ & v9 & E2).
  cbn in Hs. repeat (destruct Hs as [<-|Hs]); [..|contradiction]; cbn [st_rot st_algo].
  - rewrite E1. split; reflexivity.
  - rewrite E2. split; reflexivity.
Qed.

Lemma alternations_feature : let s := mkst Alternations false in
  feature inp s (fv s) /\ exists l, fv s = VAlts l /\ List.length l = 7%nat.
Proof.
  destruct HI as ((Hwf & Hw & Hh & B1 & B2) & E & _). cbv zeta. unfold feature, fv, feature_alone. cbn [st_rot st_algo].
  assert (ih (in_img inp) <= iw (in_img inp) * ih (in_img inp) * ih (in_img inp)) by nia.
  destruct (alternations_ok (in_img inp) Hwf Hw Hh ltac:(lia)) as (r & E' & A).
  assert (r = in_img90 inp) by congruence. subst r. rewrite A. cbn [bind]. split; [reflexivity|]. eexists. split; reflexivity.
Qed.

Lemma zone_feature : let s := mkst Zone false in
  feature inp s (fv s) /\ exists l, fv s = VArr l /\ List.length l = 7%nat.
Proof.
  destruct HI as (R & E & _). destruct (recognisable_both _ _ R E) as (_ & (Hwf & Hw & Hh & B) & _).
  cbv zeta. unfold feature, fv, feature_alone. cbn [st_rot st_algo].
  destruct (border_law (fun _ => 0) (in_img inp) new_zone_ctx Hwf Hw Hh B) as (k & lab & zc & -> & _ & _ & Ez).
  cbn [bind]. rewrite Ez. cbn [bind]. split; [reflexivity|]. eexists. split; reflexivity.
Qed.

Lemma pz_feature : let s := mkst ProportionalityZone false in
  feature inp s (fv s) /\ exists l, fv s = VVec l /\ (forall n, In n l -> 0 <= n <= 100) /\
    100 * Z.of_nat (List.length l) < 4294967296.
Proof.
  destruct HI as (R & E & Hs). destruct R as (Hwf & Hw & Hh & B & _).
  cbv zeta. unfold feature, fv, feature_alone. cbn [st_rot st_algo]. set (img := in_img inp) in *.
  assert (A : iw img * ih img <= iw img * ih img * ih img) by nia.
  assert (L : iw img <= iw img * ih img /\ ih img <= iw img * ih img) by nia.
  destruct (count_zone_ok (fun _ => 0) img new_zone_ctx Hwf Hw Hh ltac:(lia)) as (k & lab & zc & -> & Hk & Nu & Hm & C & Hg).
  destruct (pz_load_ok img k lab (zc_zone zc)) with (sort := in_zsort inp) as (q & Eq' & _ & P & Hq & _); auto; try lia.
  cbn [bind]. rewrite Eq'. cbn [bind]. split; [reflexivity|]. exists q. split; [reflexivity|]. split; [exact Hq|].
  apply Permutation_length in P. rewrite P, map_length. unfold border_zones.
  pose proof (filter_len (fun v => 0 <? contact img lab v) (map (fun i => i + 1) (zrange k))) as F.
  rewrite map_length, zrange_length in F. lia.
Qed.

Lemma feature_ok s : In s all_strategies -> feature inp s (fv s).
Proof.
  unfold all_strategies, complex_strategies, exclusive_strategies. rewrite !in_app_iff.
  intros [H|[[H|H]|[H|H]]].
  - now apply simple_feature.
  - now apply hbar_feature.
  - cbn in H. destruct H as [<-|[]]. apply alternations_feature.
  - cbn in H. destruct H as [<-|[]]. apply zone_feature.
  - cbn in H. destruct H as [<-|[]]. apply pz_feature.
Qed.

Notation coh := (coherent (in_img inp) (in_img90 inp)).
Lemma load_ok s cx : In s all_strategies -> coh cx -> exists cx', load inp s cx = Ok (fv s, cx') /\ coh cx'.
Proof.
  intros Hs C. destruct HI as (R & E & _). destruct (recognisable_both _ _ R E) as (_ & Z1 & Z2).
  pose proof (strategy_load_agrees (in_junk inp) (in_zsort inp) s _ _ cx Z1 Z2 C) as A.
  pose proof (feature_ok s Hs) as F. unfold feature in F. rewrite F in A. fold (load inp s cx) in A.
  destruct (load inp s cx) as [(v, cx')| | |]; cbn [agrees] in A; try discriminate A.
  destruct A as (A & C'). injection A as ->. eauto.
Qed.
Lemma load_values_ok : forall ss cx, incl ss all_strategies -> coh cx ->
  exists cx', load_values inp ss cx = Ok (map fv ss, cx') /\ coh cx'.
Proof.
  induction ss as [|s ss IH]; intros cx Hi C; cbn [load_values map]; [eauto|].
  destruct (load_ok s cx ltac:(apply Hi; now left) C) as (cx1 & -> & C1). cbn [bind].
  destruct (IH cx1 ltac:(intros x Hx; apply Hi; now right) C1) as (cx2 & -> & C2). cbn [bind]. eauto.
Qed.

(** * The columns of the table *)
Definition col (s : strategy) : list fval :=
  match get_col (t_strategies t) (t_cols t) s with Ok c => c | _ => [] end.
Definition cv (s : strategy) (i : Z) : fval := nth (Z.to_nat i) (col s) (VNum 0).

Lemma strategy_eqb_eq s s' : strategy_eqb s s' = true <-> s = s'.
Proof.
  destruct s as [a r], s' as [a' r']. unfold strategy_eqb. cbn [st_algo st_rot]. rewrite andb_true_iff, eqb_true_iff, Z.eqb_eq.
  split; [intros (E & ->); f_equal; destruct a, a'; cbn in E; (reflexivity || discriminate)|intros E; injection E as -> ->; auto].
Qed.

Lemma get_col_In s : forall ss cols, In s ss -> List.length cols = List.length ss ->
  exists c, get_col ss cols s = Ok c /\ In (s, c) (combine ss cols).
Proof.
  induction ss as [|s' ss IH]; intros [|c cols] Hs Hl; cbn in Hl; try discriminate; [destruct Hs|].
  cbn [get_col combine]. destruct (strategy_eqb s s') eqn:E.
  - apply strategy_eqb_eq in E. subst s'. exists c. split; [reflexivity|now left].
  - destruct Hs as [Hs|Hs]; [subst s'; assert (strategy_eqb s s = true) by (now apply strategy_eqb_eq); congruence|].
    destruct (IH cols Hs ltac:(lia)) as (c' & E' & H). exists c'. split; [exact E'|now right].
Qed.
Lemma get_col_unique s c : forall ss cols, NoDup ss -> In (s, c) (combine ss cols) -> get_col ss cols s = Ok c.
Proof.
  induction ss as [|s' ss IH]; intros [|c' cols] ND H; cbn in H; try contradiction.
  inversion ND as [|? ? N1 ND']; subst. cbn [get_col]. destruct H as [H|H].
  - injection H as -> ->. now replace (strategy_eqb s s) with true by (symmetry; now apply strategy_eqb_eq).
  - destruct (strategy_eqb s s') eqn:E; [|now apply IH]. apply strategy_eqb_eq in E. subst s'.
    exfalso. apply N1. apply in_combine_l in H. exact H.
Qed.

Lemma all_strategies_NoDup : NoDup all_strategies.
Proof.
  assert (H : forall l : list strategy, (fix nd l := match l with [] => true | s :: l' => negb (existsb (strategy_eqb s) l') && nd l' end) l = true -> NoDup l).
  { induction l as [|s l IH]; [constructor|]. rewrite andb_true_iff, negb_true_iff. intros (A & B). constructor; [|now apply IH].
    intros C. assert (existsb (strategy_eqb s) l = true); [|congruence]. apply existsb_exists. exists s. split; [exact C|now apply strategy_eqb_eq]. }
  apply H. vm_compute. reflexivity.
Qed.

Lemma col_ok s : In s all_strategies ->
  get_col (t_strategies t) (t_cols t) s = Ok (col s) /\ Z.of_nat (List.length (col s)) = N /\
  forall i, 0 <= i < N -> col_at (col s) i = Ok (cv s i) /\ typed s (cv s i) /\ cell t s i (cv s i).
Proof.
  intros Hs. unfold col. destruct HT as [E1 E2 E3 _ _ _ _ _]. rewrite E1.
  destruct (get_col_In s all_strategies (t_cols t) Hs E2) as (c & E & Hc). rewrite E.
  destruct (E3 s c Hc) as (Hl & Ht). split; [reflexivity|]. split; [exact Hl|].
  intros i Hi. unfold cv, col. rewrite E1, E.
  assert (Hn : nth_error c (Z.to_nat i) = Some (nth (Z.to_nat i) c (VNum 0))) by (apply nth_error_nth'; lia).
  split; [apply col_at_ok; [lia|exact Hn]|]. split; [apply Ht; now apply nth_error_In in Hn|].
  split; [lia|]. exists c. rewrite E1. split; [exact Hc|exact Hn].
Qed.
Lemma cell_cv s i v : cell t s i v -> cv s i = v.
Proof.
  intros (H0 & c & Hc & Hn). unfold cv, col. pose proof all_strategies_NoDup as ND. rewrite <- (st_strategies t HT) in ND.
  rewrite (get_col_unique _ _ _ _ ND Hc). now apply nth_error_nth.
Qed.
Lemma feature_fv s v : feature inp s v -> fv s = v.
Proof. unfold feature, fv. now intros ->. Qed.

(** * Similarities *)
Definition sim (s : strategy) (i : Z) : double := percent (percentage s (fv s) (cv s i)).
Definition closeb (s : strategy) (i : Z) : bool := Z.abs (num (fv s) - num (cv s i)) <=? range s / 10.

Lemma percent_ok c : 0 <= c <= 100 -> unit_double (percent c) /\ (50 <= c -> above 1 (percent c)) /\
  (dle dhalf (percent c) = (50 <=? c)) /\ (percent c = d1 <-> c = 100).
Proof.
  intros H.
  assert (K : forallb (fun c => unit_doubleb (percent c) && (negb (50 <=? c) || aboveb 1 (percent c)) &&
     Bool.eqb (dle dhalf (percent c)) (50 <=? c) && Bool.eqb (dle d1 (percent c)) (c =? 100)) (zrange 101) = true).
  { vm_compute. reflexivity. }
  rewrite forallb_forall in K. specialize (K c ltac:(apply zrange_In; lia)).
  rewrite !andb_true_iff in K. destruct K as (((K1 & K2) & K3) & K4).
  apply unit_doubleb_ok in K1. apply eqb_prop in K3, K4. split; [exact K1|]. split; [|split; [exact K3|]].
  - intros Hc. apply aboveb_ok. destruct (Z.leb_spec 50 c); [|lia]. exact K2.
  - split; [intros E; rewrite E in K4; change (dle d1 d1) with true in K4; lia|].
    intros ->. vm_compute. reflexivity.
Qed.

Lemma simple_in_all s : In s simple_strategies -> In s all_strategies.
Proof. intros H. unfold all_strategies. apply in_or_app. now left. Qed.
Lemma simple_cell s i : In s simple_strategies -> 0 <= i < N ->
  cv s i = VNum (num (cv s i)) /\ 0 <= num (cv s i) < 4294967296.
Proof.
  intros Hs Hi. destruct (col_ok s (simple_in_all s Hs)) as (_ & _ & H). destruct (H i Hi) as (_ & T & _).
  unfold typed in T. destruct s as [a r]. cbn in Hs.
  repeat (destruct Hs as [Hs|Hs]; [injection Hs as <- <-; cbn [st_algo] in T; destruct T as (n & -> & Hn); split; [reflexivity|exact Hn]|]).
  contradiction.
Qed.
Lemma range_cases s : range s = 100 \/ range s = 200.
Proof. unfold range. destruct (st_algo s); auto. Qed.

Lemma in_dist_close s i : In s simple_strategies -> 0 <= i < N ->
  rel_in_dist (rel s) (cv s i) (fv s) ((rel_count (rel s) - 1) / 10) = Ok (negb (closeb s i)).
Proof.
  intros Hs Hi. destruct (simple_feature s Hs) as (_ & Ef & Bf & ->). destruct (simple_cell s i Hs Hi) as (Ec & Bc).
  rewrite Ef, Ec. unfold closeb. cbn [rel_in_dist rel_count]. replace (range s + 1 - 1) with (range s) by lia.
  unfold interval_in_dist. cbn [num]. set (a := num (fv s)) in *. set (b := num (cv s i)) in *. clearbody a b.
  f_equal. apply bool_iff. rewrite negb_true_iff, Z.leb_gt.
  destruct (range_cases s) as [E|E]; rewrite E in *; [change (100 / 10) with 10|change (200 / 10) with 20];
  destruct (Z.ltb_spec b a); rewrite u32_small by lia; rewrite Z.ltb_lt; lia.
Qed.

Lemma close_percentage s i : In s simple_strategies -> 0 <= i < N -> closeb s i = true ->
  90 <= percentage s (fv s) (cv s i) <= 100 /\
  rel_dist (rel s) (cv s i) (fv s) = Ok (sim s i).
Proof.
  intros Hs Hi. destruct (simple_feature s Hs) as (_ & Ef & Bf & ->). destruct (simple_cell s i Hs Hi) as (Ec & Bc).
  unfold closeb, sim. rewrite Z.leb_le. rewrite Ef, Ec. set (a := num (fv s)) in *. set (b := num (cv s i)) in *. clearbody a b.
  cbn [num]. intros Hd.
  assert (P : percentage s (VNum a) (VNum b) = 100 - 100 * Z.abs (a - b) / range s).
  { destruct s as [al r]. cbn in Hs. unfold percentage. cbn [st_algo].
    repeat (destruct Hs as [Hs|Hs]; [injection Hs as <- <-; reflexivity|]). contradiction. }
  rewrite P. assert (Q : 0 <= 100 * Z.abs (a - b) / range s <= 10).
  { destruct (range_cases s) as [E|E]; rewrite E in *; [change (100 / 10) with 10 in *|change (200 / 10) with 20 in *];
      (split; [apply Z.div_pos; lia|apply Z.div_le_upper_bound; lia]). }
  split; [lia|]. cbn [rel_dist]. unfold interval_compute, compute_relationship.
  assert (Ed : (if b <? a then a - b else b - a) = Z.abs (a - b)) by (destruct (Z.ltb_spec b a); lia). rewrite Ed.
  assert (Z.abs (a - b) <= 20) by (destruct (range_cases s) as [E|E]; rewrite E in Hd; [change (100 / 10) with 10 in *|change (200 / 10) with 20 in *]; lia).
  rewrite u32_small by lia. rewrite divu_ok by (destruct (range_cases s); lia). cbn [bind].
  rewrite (Z.mul_comm (Z.abs (a - b))). rewrite u32_small by lia. reflexivity.
Qed.

(** * The candidates *)
Definition in_rows (ps : list prob) : Prop := forall p, In p ps -> 0 <= pr_i p < N.

Lemma in_rows_cons p ps : in_rows (p :: ps) -> 0 <= pr_i p < N /\ in_rows ps.
Proof. intros H. split; [apply H; now left|intros q Hq; apply H; now right]. Qed.

Lemma reduce_with_ok s : In s simple_strategies -> forall ps, in_rows ps ->
  reduce_with_distance (rel s) (col s) (fv s) ((rel_count (rel s) - 1) / 10) ps =
  Ok (filter (fun p => closeb s (pr_i p)) ps).
Proof.
  intros Hs. destruct (col_ok s (simple_in_all s Hs)) as (_ & _ & C).
  induction ps as [|p ps IH]; intros H; [reflexivity|]. apply in_rows_cons in H as (Hp & H).
  cbn [reduce_with_distance filter]. destruct (C _ Hp) as (-> & _ & _). cbn [bind].
  rewrite in_dist_close by assumption. cbn [bind]. rewrite IH by exact H. cbn [bind].
  now destruct (closeb s (pr_i p)).
Qed.

Lemma filter_filter {A} (f g : A -> bool) l : filter g (filter f l) = filter (fun x => f x && g x) l.
Proof. induction l as [|a l IH]; [reflexivity|]. cbn [filter]. destruct (f a); cbn [filter andb]; now rewrite IH. Qed.

Lemma in_rows_filter f ps : in_rows ps -> in_rows (filter f ps).
Proof. intros H p Hp. apply filter_In in Hp as (Hp & _). now apply H. Qed.

Lemma reduce_all_ok : forall ss ps, incl ss simple_strategies -> in_rows ps ->
  reduce_all t ss (map fv ss) ps = Ok (filter (fun p => forallb (fun s => closeb s (pr_i p)) ss) ps).
Proof.
  induction ss as [|s ss IH]; intros ps Hi H; cbn [reduce_all map].
  - f_equal. symmetry. clear. cbn [forallb]. induction ps as [|p ps IH]; [reflexivity|]. cbn [filter]. now rewrite IH.
  - assert (Hs : In s simple_strategies) by (apply Hi; now left).
    destruct (col_ok s (simple_in_all s Hs)) as (-> & _ & _). cbn [bind]. rewrite reduce_with_ok by assumption. cbn [bind].
    rewrite IH; [|intros x Hx; apply Hi; now right|now apply in_rows_filter]. now rewrite filter_filter.
Qed.

(** What is needed to score the rows of a list. *)
Definition measures (s : strategy) (ps : list prob) : Prop :=
  In s all_strategies /\ forall p, In p ps -> rel_dist (rel s) (cv s (pr_i p)) (fv s) = Ok (sim s (pr_i p)).

Lemma init_prob_ok s : forall ps, in_rows ps -> measures s ps ->
  initialize_probability (rel s) (col s) (fv s) ps = Ok (map (fun p => mkpr (pr_i p) (sim s (pr_i p))) ps).
Proof.
  induction ps as [|p ps IH]; intros H (Hs & M); [reflexivity|]. apply in_rows_cons in H as (Hp & H).
  destruct (col_ok s Hs) as (_ & _ & C). cbn [initialize_probability map]. destruct (C _ Hp) as (-> & _ & _). cbn [bind].
  rewrite M by now left. cbn [bind]. rewrite IH; [reflexivity|exact H|]. split; [exact Hs|intros q Hq; apply M; now right].
Qed.
Lemma update_prob_ok s : forall ps, in_rows ps -> measures s ps ->
  update_probability (rel s) (col s) (fv s) ps = Ok (map (fun p => mkpr (pr_i p) (dmul (pr_p p) (sim s (pr_i p)))) ps).
Proof.
  induction ps as [|p ps IH]; intros H (Hs & M); [reflexivity|]. apply in_rows_cons in H as (Hp & H).
  destruct (col_ok s Hs) as (_ & _ & C). cbn [update_probability map]. destruct (C _ Hp) as (-> & _ & _). cbn [bind].
  rewrite M by now left. cbn [bind]. rewrite IH; [reflexivity|exact H|]. split; [exact Hs|intros q Hq; apply M; now right].
Qed.
Lemma in_rows_map f ps : (forall p, pr_i (f p) = pr_i p) -> in_rows ps -> in_rows (map f ps).
Proof. intros E H p Hp. apply in_map_iff in Hp as (q & <- & Hq). rewrite E. now apply H. Qed.
Lemma measures_map s f ps : (forall p, pr_i (f p) = pr_i p) -> measures s ps -> measures s (map f ps).
Proof. intros E (Hs & M). split; [exact Hs|]. intros p Hp. apply in_map_iff in Hp as (q & <- & Hq). rewrite E. now apply M. Qed.

Lemma update_all_ok : forall ss ps, in_rows ps -> (forall s, In s ss -> measures s ps) ->
  update_all t ss (map fv ss) ps =
  Ok (map (fun p => mkpr (pr_i p) (fold_left dmul (map (fun s => sim s (pr_i p)) ss) (pr_p p))) ps).
Proof.
  induction ss as [|s ss IH]; intros ps H M; cbn [update_all map fold_left].
  - f_equal. symmetry. clear. induction ps as [|(i, x) ps IH]; [reflexivity|]. cbn [map pr_i pr_p]. now rewrite IH.
  - destruct (M s ltac:(now left)) as (Hs & Ms). destruct (col_ok s Hs) as (-> & _ & _). cbn [bind].
    rewrite update_prob_ok by (try assumption; now split). cbn [bind].
    rewrite IH.
    + rewrite map_map. reflexivity.
    + apply in_rows_map; [reflexivity|exact H].
    + intros s' Hs'. apply measures_map; [reflexivity|]. apply M. now right.
Qed.

Definition score (ss : list strategy) (i : Z) : double := product (map (fun s => sim s i) ss).
Definition mk (ss : list strategy) (i : Z) : prob := mkpr i (score ss i).

Lemma emit_all cap : forall is ps, Z.of_nat (List.length ps) + Z.of_nat (List.length is) <= cap ->
  fold_left (fun acc i => ps <- acc ;; emit cap ps (mkpr i S754_nan)) is (Ok ps) =
  Ok (ps ++ map (fun i => mkpr i S754_nan) is).
Proof.
  induction is as [|i is IH]; intros ps H; cbn [fold_left map]; [now rewrite app_nil_r|].
  cbn [bind List.length] in *. rewrite emit_ok by lia. rewrite IH by (rewrite app_length; cbn [List.length]; lia).
  now rewrite <- app_assoc.
Qed.

Lemma NoDup_rows l : NoDup l -> (forall i, In i l -> 0 <= i < N) -> Z.of_nat (List.length l) <= N.
Proof.
  intros ND H. assert (L : (List.length l <= List.length (zrange N))%nat).
  { apply NoDup_incl_length; [exact ND|]. intros i Hi. apply zrange_In. now apply H. }
  rewrite zrange_length in L. unfold rows in *. lia.
Qed.

Definition first_strategy := mkst Dvgravity2 true.
Definition other_strategies := tl simple_strategies.
Lemma simple_split : simple_strategies = first_strategy :: other_strategies.
Proof. reflexivity. Qed.

Lemma first_column_eq : first_column t = nums_of (col first_strategy).
Proof.
  unfold first_column, col. rewrite (st_strategies t HT). pose proof (st_columns t HT) as L.
  destruct (t_cols t) as [|c cols]; [discriminate L|]. reflexivity.
Qed.

Lemma nums_length c : List.length (nums_of c) = List.length c.
Proof. apply map_length. Qed.
Lemma nth_nums c i : nth (Z.to_nat i) (nums_of c) 0 = num (nth (Z.to_nat i) c (VNum 0)).
Proof. exact (map_nth num c (VNum 0) (Z.to_nat i)). Qed.

Lemma init_universe_ok :
  exists is, initialize_universe (t_cap t) (rel first_strategy) (col first_strategy) (t_first t) (num (fv first_strategy))
    = Ok (map (fun i => mkpr i S754_nan) is) /\
    NoDup is /\ forall i, In i is <-> 0 <= i < N /\ closeb first_strategy i = true.
Proof.
  assert (Hs : In first_strategy simple_strategies) by now left.
  destruct (simple_feature _ Hs) as (_ & _ & Bf & Er).
  destruct (col_ok _ (simple_in_all _ Hs)) as (_ & Hl & _).
  unfold initialize_universe. rewrite Er. cbn [rel_count]. change (range first_strategy) with 100 in *.
  change ((100 + 1 - 1) / 10) with 10.
  destruct (st_first t HT) as (sort & Hsort & Ef). rewrite Ef. rewrite first_column_eq in *.
  destruct (get_range_exact sort _ Hsort (num (fv first_strategy)) 10) as (is & E & ND & W); [|lia|lia|lia|].
  { intros v Hv. apply in_map_iff in Hv as (x & <- & Hx). apply In_nth with (d := VNum 0) in Hx as (n & Hn & <-).
    destruct (simple_cell first_strategy (Z.of_nat n) Hs ltac:(lia)) as (Ec & B). unfold cv in Ec, B. rewrite Nat2Z.id in Ec, B.
    fold (num (nth n (col first_strategy) (VNum 0))). lia. }
  rewrite E. cbn [bind].
  assert (W' : forall i, In i is <-> 0 <= i < N /\ closeb first_strategy i = true).
  { intros i. rewrite W. unfold within, closeb. rewrite nums_length, Hl, nth_nums. fold (cv first_strategy i).
    change (range first_strategy / 10) with 10. split; intros (A & B); (split; [exact A|lia]). }
  exists is. split; [|split; [exact ND|exact W']].
  rewrite emit_all; [reflexivity|]. cbn [List.length]. unfold t_cap. apply (NoDup_rows is ND). intros i Hi. now apply W'.
Qed.

Lemma close_measures s ps : In s simple_strategies -> in_rows ps ->
  (forall p, In p ps -> closeb s (pr_i p) = true) -> measures s ps.
Proof. intros Hs H C. split; [now apply simple_in_all|]. intros p Hp. apply close_percentage; auto. Qed.

Definition near (i : Z) : bool := forallb (fun s => closeb s i) simple_strategies.

Lemma simple_universe_ok cx : coh cx ->
  exists l cx', compute_simple_universe inp t simple_strategies cx = Ok (map (mk simple_strategies) l, cx') /\ coh cx' /\
    NoDup l /\ forall i, In i l <-> 0 <= i < N /\ near i = true.
Proof.
  intros C. rewrite simple_split. unfold compute_simple_universe.
  assert (Hf : In first_strategy simple_strategies) by now left.
  assert (Ho : incl other_strategies simple_strategies) by (intros s Hs; rewrite simple_split; now right).
  destruct (load_ok first_strategy cx (simple_in_all _ Hf) C) as (cx1 & -> & C1). cbn [bind].
  destruct (col_ok first_strategy (simple_in_all _ Hf)) as (-> & _ & _). cbn [bind].
  fold (num (fv first_strategy)).
  destruct init_universe_ok as (is & -> & ND & W). cbn [bind].
  destruct (load_values_ok other_strategies cx1 ltac:(intros s Hs; apply simple_in_all; now apply Ho) C1) as (cx2 & -> & C2).
  cbn [bind].
  assert (R0 : in_rows (map (fun i => mkpr i S754_nan) is)).
  { intros p Hp. apply in_map_iff in Hp as (i & <- & Hi). cbn [pr_i]. now apply W. }
  rewrite reduce_all_ok by assumption. cbn [bind].
  set (g := fun i => forallb (fun s => closeb s i) other_strategies).
  assert (Fm : forall l, filter (fun p => forallb (fun s => closeb s (pr_i p)) other_strategies) (map (fun i => mkpr i S754_nan) l)
    = map (fun i => mkpr i S754_nan) (filter g l)).
  { induction l as [|i l IH]; [reflexivity|]. cbn [map filter pr_i]. fold (g i). destruct (g i); cbn [map]; now rewrite IH. }
  rewrite Fm. set (l := filter g is).
  assert (Hl : forall i, In i l <-> 0 <= i < N /\ near i = true).
  { intros i. unfold l. rewrite filter_In, W. unfold near. rewrite simple_split. cbn [forallb]. fold (g i).
    rewrite andb_true_iff. tauto. }
  assert (Hc : forall s i, In s simple_strategies -> In i l -> closeb s i = true).
  { intros s i Hs Hi. apply Hl in Hi as (_ & Hi). unfold near in Hi. rewrite forallb_forall in Hi. now apply Hi. }
  assert (R1 : in_rows (map (fun i => mkpr i S754_nan) l)).
  { intros p Hp. apply in_map_iff in Hp as (i & <- & Hi). cbn [pr_i]. now apply Hl. }
  rewrite init_prob_ok; [|exact R1|apply close_measures; [exact Hf|exact R1|]].
  2:{ intros p Hp. apply in_map_iff in Hp as (i & <- & Hi). cbn [pr_i]. now apply Hc. }
  cbn [bind]. rewrite map_map. cbn [pr_i].
  rewrite update_all_ok.
  - cbn [bind]. rewrite map_map. cbn [pr_i pr_p]. exists l, cx2.
    split; [reflexivity|]. split; [exact C2|]. split; [apply NoDup_filter, ND|exact Hl].
  - intros p Hp. apply in_map_iff in Hp as (i & <- & Hi). cbn [pr_i]. now apply Hl.
  - intros s Hs. apply close_measures; [now apply Ho|..].
    + intros p Hp. apply in_map_iff in Hp as (i & <- & Hi). cbn [pr_i]. now apply Hl.
    + intros p Hp. apply in_map_iff in Hp as (i & <- & Hi). cbn [pr_i]. apply Hc; [now apply Ho|exact Hi].
Qed.

Lemma near_candidate i : 0 <= i < N -> (near i = true <-> candidate inp t i).
Proof.
  intros Hi. unfold near, candidate. rewrite forallb_forall. split.
  - intros H. split; [exact Hi|]. intros s a b Hs Fa Cb. apply feature_fv in Fa. apply cell_cv in Cb.
    specialize (H s Hs). unfold closeb in H. rewrite Fa, Cb in H. cbn [num] in H. lia.
  - intros (_ & H) s Hs. unfold closeb. destruct (simple_feature s Hs) as (F & Ef & _).
    destruct (simple_cell s i Hs Hi) as (Ec & _). destruct (col_ok s (simple_in_all s Hs)) as (_ & _ & C).
    destruct (C i Hi) as (_ & _ & Ce). rewrite Ef in F. rewrite Ec in Ce. specialize (H s _ _ Hs F Ce). lia.
Qed.
End recog.

(** C40 *)
Lemma candidates_exact inp t cx : sound_input inp -> sound_table t ->
  exists ps cx', compute_simple_universe inp t simple_strategies (ctx_reset cx) = Ok (ps, cx') /\
    NoDup (map pr_i ps) /\ Z.of_nat (List.length ps) <= rows t /\
    forall i, In i (map pr_i ps) <-> candidate inp t i.
Proof.
  intros HI HT. destruct (simple_universe_ok inp t HI HT (ctx_reset cx) (reset_coherent _ _ _)) as (l & cx' & E & _ & ND & W).
  exists (map (mk inp t simple_strategies) l), cx'. split; [exact E|]. rewrite map_map. cbn [mk pr_i]. rewrite map_id.
  split; [exact ND|]. split.
  - rewrite map_length. apply (NoDup_rows t l ND). intros i Hi. now apply W.
  - intros i. rewrite W. split.
    + intros (Hi & H). now apply (near_candidate inp t HI HT).
    + intros H. pose proof H as (Hi & _). split; [exact Hi|]. now apply (near_candidate inp t HI HT).
Qed.
