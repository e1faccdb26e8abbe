(** extract_text8: the recognition of a character. *)
From Verif Require Import Base BaseProofs SortModel ImageModel ImageSpec StratModel StratSpec ZoneModel DatasModel DatasSpec DatasProofs DatasIoModel TrieModel
  UtilModel IndexModel GlyphsProofs3 FloatModel FloatSpec FloatProofs FloatProofs2 RecogModel RecogSpec RecogProofs RecogProofs2 Ocr6Model Ocr6Spec Ocr6Proofs Ocr6Proofs2
  OcrProofs Ocr6Proofs3 Ocr6Proofs4 Ocr8Model Ocr8Spec.
From Coq Require Import Sorted SpecFloat Permutation.

(** * Arithmetic *)
Lemma interval8_range s : In s simple_strategies -> interval8 s = range s /\ (range s = 100 \/ range s = 200).
Proof.
  intros Hs. assert (G : forallb (fun s => (interval8 s =? range s) && ((range s =? 100) || (range s =? 200))) simple_strategies = true) by (vm_compute; reflexivity).
  rewrite forallb_forall in G. specialize (G s Hs). rewrite andb_true_iff, orb_true_iff, !Z.eqb_eq in G. exact G.
Qed.
Lemma tenth_range s : In s simple_strategies -> 10 <= range s / 10 <= 20.
Proof. intros Hs. destruct (interval8_range s Hs) as (_ & [-> | ->]); vm_compute; split; congruence. Qed.
Lemma in_interval_ok s v x : In s simple_strategies -> 0 <= v <= range s -> 0 <= x < 4294967296 -> in_interval v x (interval8 s / 10) = (Z.abs (x - v) <=? range s / 10).
Proof.
  intros Hs Hv Hx. pose proof (tenth_range s Hs). destruct (interval8_range s Hs) as (-> & R). unfold in_interval. set (d := range s / 10) in *.
  destruct (Z.ltb_spec v x) as [H1|H1].
  - rewrite u32_small by lia. destruct (Z.ltb_spec (v + d) x), (Z.leb_spec (Z.abs (x - v)) d); cbn [negb]; lia || reflexivity.
  - rewrite u32_small by lia. destruct (Z.ltb_spec (x + d) v), (Z.leb_spec (Z.abs (x - v)) d); cbn [negb]; lia || reflexivity.
Qed.
Lemma update_ok s p v x : In s simple_strategies -> 0 <= v <= range s -> 0 <= x < 4294967296 -> Z.abs (x - v) <= range s / 10 ->
  update_probability s p v x = Ok (share p (similarity s x v) 100).
Proof.
  intros Hs Hv Hx Hn. pose proof (tenth_range s Hs). destruct (interval8_range s Hs) as (Ei & R). unfold update_probability. rewrite Ei. cbv zeta. unfold similarity, share. change (double_of 100) with d100.
  assert (Hd : range s / 10 <= range s) by (destruct R as [-> | ->]; vm_compute; congruence). set (d := range s / 10) in *.
  destruct (Z.ltb_spec v x) as [H1|H1].
  - rewrite (u32_small (v + d)) by lia. destruct (Z.leb_spec x (v + d)); [|lia]. rewrite (u32_small (x - v)) by lia. rewrite (u32_small (range s - (x - v))) by lia.
    rewrite (u32_small (_ * 100)) by lia. unfold divu. destruct (Z.eqb_spec (range s) 0); [lia|]. cbn [bind]. rewrite Z.abs_eq by lia. reflexivity.
  - rewrite (u32_small (x + d)) by lia. destruct (Z.leb_spec v (x + d)); [|lia]. rewrite (u32_small (v - x)) by lia. rewrite (u32_small (range s - (v - x))) by lia.
    rewrite (u32_small (_ * 100)) by lia. unfold divu. destruct (Z.eqb_spec (range s) 0); [lia|]. cbn [bind]. rewrite Z.abs_neq by lia. rewrite Z.opp_sub_distr, Z.add_comm, Z.add_opp_r. reflexivity.
Qed.
Lemma similarity_bounds s x v : In s simple_strategies -> Z.abs (x - v) <= range s / 10 -> 0 <= similarity s x v <= 100 /\ (similarity s x v = 100 <-> x = v).
Proof.
  intros Hs Hn. pose proof (tenth_range s Hs). destruct (interval8_range s Hs) as (_ & R). unfold similarity. set (e := Z.abs (x - v)) in *.
  assert (E : 0 <= e <= 20 /\ (e = 0 <-> x = v)) by (unfold e; lia). destruct E as (Be & <-). clearbody e.
  destruct R as [-> | ->]; (split; [split; [apply Z.div_pos; lia|apply Z.div_le_upper_bound; lia]|]); (split; [|intros ->; reflexivity]); intros Q.
  - pose proof (Z.mul_div_le ((100 - e) * 100) 100 ltac:(lia)). lia.
  - pose proof (Z.mul_div_le ((200 - e) * 100) 200 ltac:(lia)). lia.
Qed.

(** * Scores *)
Definition step8 (row value : strategy -> Z) (p : double) (s : strategy) : double := share p (similarity s (row s) (value s)) 100.
Lemma product8_upto row value b : 0 <= b <= 2 ^ 40 -> forall ss, (forall s, In s ss -> In s simple_strategies /\ Z.abs (row s - value s) <= range s / 10) ->
  forall p, upto b 40 p -> upto b 40 (fold_left (step8 row value) ss p).
Proof.
  intros Hb. induction ss as [|s ss IH]; intros Hs p Hp; [exact Hp|]. cbn [fold_left]. apply IH; [intros; apply Hs; now right|].
  destruct (Hs s (or_introl eq_refl)) as (H1 & H2). destruct (similarity_bounds s _ _ H1 H2) as (B & _). apply share_upto; try assumption; lia.
Qed.
Lemma product8_unit row value ss : (forall s, In s ss -> In s simple_strategies /\ Z.abs (row s - value s) <= range s / 10) ->
  forall p, unit_double p -> unit_double (fold_left (step8 row value) ss p).
Proof. intros Hs p Hp. apply (upto_unit (2 ^ 40)); [lia|]. apply product8_upto; [lia|exact Hs|now apply unit_upto]. Qed.
Lemma product8_one row value ss : (forall s, In s ss -> In s simple_strategies /\ Z.abs (row s - value s) <= range s / 10) ->
  (dle d1 (fold_left (step8 row value) ss d1) = true <-> forall s, In s ss -> row s = value s).
Proof.
  induction ss as [|s ss IH]; intros Hs; [split; [intros _ s []|reflexivity]|]. cbn [fold_left]. destruct (Hs s (or_introl eq_refl)) as (H1 & H2). destruct (similarity_bounds s _ _ H1 H2) as (B & E).
  assert (Hs' : forall t, In t ss -> In t simple_strategies /\ Z.abs (row t - value t) <= range t / 10) by (intros; apply Hs; now right). unfold step8 at 2.
  destruct (Z.eq_dec (similarity s (row s) (value s)) 100) as [Q|Q].
  - rewrite Q, share_100_1, (IH Hs'). split; [intros H t [<-|Ht]; [now apply E|now apply H]|intros H t Ht; apply H; now right].
  - rewrite upto_99_not_1; [split; [discriminate|intros H; destruct Q; apply E; apply H; now left]|].
    apply product8_upto; [unfold b99; lia|exact Hs'|]. apply share_99; [apply unit_d1|lia].
Qed.
Lemma feature_order_eq : feature_order = algos6. Proof. reflexivity. Qed.
Lemma feature_order_simple s : In s feature_order <-> In s simple_strategies.
Proof.
  rewrite feature_order_eq, algos_split. split; [rewrite <- algos_split; intros H; apply (algos_ok s H)|]. intros H. destruct (strategy_eqb s first_feature) eqn:E.
  - apply strategy_eqb_eq in E. left. now symmetry.
  - right. apply others_cover; [exact H|]. intros Q. apply strategy_eqb_eq in Q. congruence.
Qed.

(** * The candidates *)
Section Candidates.
Context (rt : runtime6) (cols : list (list fval)) (words : list (list (list Z))) (by_word : list (list Z)) (HE : base6 rt cols words by_word)
  (img img90 : image) (HR : recognisable img) (H90 : rotate90 img = Ok img90) (junk : Z -> Z).
Notation N := (Z.of_nat (List.length words)).
Notation load := (load6 junk (r6_zones rt) img img90).
Notation value := (value rt img img90 junk).
Definition rowv (i : Z) (s : strategy) : Z := Ocr6Model.num (cellv cols s i).
Lemma load_value s : In s simple_strategies -> load s = Ok (VNum (value s)) /\ 0 <= value s <= range s.
Proof.
  intros Hs. destruct (simple_sv _ _ _ _ HE img img90 HR H90 junk s Hs) as (E & B). rewrite (load_sv _ _ _ _ HE img img90 HR H90 junk s (simple_in_all s Hs)), E. auto.
Qed.
Lemma simple_typed s v : In s simple_strategies -> typed s v -> exists k, v = VNum k /\ 0 <= k < 4294967296.
Proof.
  intros Hs T. assert (G : forallb (fun s => match st_algo s with Alternations | Zone | ProportionalityZone => false | _ => true end) simple_strategies = true) by reflexivity.
  rewrite forallb_forall in G. specialize (G s Hs). unfold typed in T. destruct (st_algo s); try discriminate G; exact T.
Qed.
Lemma row_cell s i : In s simple_strategies -> 0 <= i < N -> exists c, get_col all_strategies cols s = Ok c /\ col_at c i = Ok (VNum (rowv i s)) /\ 0 <= rowv i s < 4294967296 /\
  forall a, cell6 cols s i (VNum a) <-> a = rowv i s.
Proof.
  intros Hs Hi. destruct (cellv_ok _ _ _ _ HE s i (simple_in_all s Hs) Hi) as (c & E & Ev & T & U). exists c. unfold rowv.
  destruct (simple_typed s _ Hs T) as (k & Ek & Bk). rewrite Ek in *. cbn [Ocr6Model.num]. split; [exact E|]. split; [exact Ev|]. split; [exact Bk|]. intros a. rewrite U. split; congruence.
Qed.
Definition closeb (i : Z) (s : strategy) : bool := Z.abs (rowv i s - value s) <=? range s / 10.
Lemma near8_iff i : 0 <= i < N -> (near8 cols N value i <-> forall s, In s simple_strategies -> closeb i s = true).
Proof.
  intros Hi. unfold near8, closeb. split.
  - intros (_ & H) s Hs. destruct (row_cell s i Hs Hi) as (_ & _ & _ & _ & U). apply Z.leb_le. apply H; [exact Hs|]. now apply U.
  - intros H. split; [exact Hi|]. intros s a Hs Ha. destruct (row_cell s i Hs Hi) as (_ & _ & _ & _ & U). apply U in Ha. subst a. apply Z.leb_le. now apply H.
Qed.
Lemma reduce8_ok s c : In s simple_strategies -> get_col all_strategies cols s = Ok c -> forall ps, (forall p, In p ps -> 0 <= pr_i p < N) ->
  reduce8 (interval8 s / 10) (value s) c ps = Ok (filter (fun p => closeb (pr_i p) s) ps).
Proof.
  intros Hs Ec. destruct (load_value s Hs) as (_ & Bv). induction ps as [|p ps IH]; intros Hp; [reflexivity|]. cbn [reduce8 filter].
  destruct (row_cell s (pr_i p) Hs (Hp p (or_introl eq_refl))) as (c' & Ec' & Ev & B & _). rewrite Ec in Ec'. injection Ec' as <-. rewrite Ev. cbn [bind].
  rewrite IH by (intros; apply Hp; now right). cbn [bind Ocr6Model.num]. rewrite in_interval_ok by assumption. fold (closeb (pr_i p) s). destruct (closeb (pr_i p) s); reflexivity.
Qed.
Lemma reduce_all8_ok : forall ss, (forall s, In s ss -> In s simple_strategies) -> forall ps, (forall p, In p ps -> 0 <= pr_i p < N) ->
  reduce_all8 load cols ss ps = Ok (filter (fun p => forallb (closeb (pr_i p)) ss) ps).
Proof.
  induction ss as [|s ss IH]; intros Hs ps Hp; cbn [reduce_all8 forallb]; [now rewrite filter_true|].
  assert (H1 : In s simple_strategies) by (apply Hs; now left). rewrite (proj1 (load_value s H1)). cbn [bind].
  destruct (get_col_In s all_strategies cols (simple_in_all s H1) (b6_columns _ _ _ _ HE)) as (c & Ec & _). rewrite Ec. cbn [bind Ocr6Model.num].
  rewrite (reduce8_ok s c H1 Ec ps Hp). cbn [bind]. rewrite IH; [|intros; apply Hs; now right|intros p H; apply filter_In in H; apply Hp; apply H].
  now rewrite filter_filter.
Qed.
Lemma score8_ok i : 0 <= i < N -> forall ss, (forall s, In s ss -> In s simple_strategies /\ closeb i s = true) -> forall p,
  score8 load cols ss i p = Ok (fold_left (step8 (rowv i) value) ss p).
Proof.
  intros Hi. induction ss as [|s ss IH]; intros Hs p; [reflexivity|]. cbn [score8 fold_left]. destruct (Hs s (or_introl eq_refl)) as (H1 & H2).
  destruct (load_value s H1) as (-> & Bv). cbn [bind]. destruct (row_cell s i H1 Hi) as (c & -> & Ev & B & _). cbn [bind]. rewrite Ev. cbn [bind Ocr6Model.num].
  rewrite update_ok by (try assumption; now apply Z.leb_le). cbn [bind]. apply IH. intros; apply Hs; now right.
Qed.
Lemma first_rows c : get_col all_strategies cols first6 = Ok c -> forall k, Z.of_nat k <= N ->
  for_up k 0 (fun i ps => x <- col_at c i ;; if in_interval (value first6) (Ocr6Model.num x) (interval8 first6 / 10) then emit N ps (mkpr i d1) else Ok ps) [] =
  Ok (map (fun i => mkpr i d1) (filter (fun i => closeb i first6) (zrange (Z.of_nat k)))).
Proof.
  intros Ec k Hk. set (body := fun (i : Z) (ps : list prob) => _).
  destruct (for_up_total body (fun i ps => ps = map (fun i => mkpr i d1) (filter (fun i => closeb i first6) (zrange i))) k 0) with (s := @nil prob) as (s' & E & H).
  - intros i ps Hi ->. unfold body. destruct (row_cell first6 i first_simple ltac:(lia)) as (c' & Ec' & Ev & B & _). rewrite Ec in Ec'. injection Ec' as <-. rewrite Ev. cbn [bind Ocr6Model.num].
    rewrite in_interval_ok by (exact first_simple || (exact (proj2 (load_value first6 first_simple))) || exact B). fold (closeb i first6).
    rewrite zrange_S, filter_app, map_app by lia. cbn [filter]. destruct (closeb i first6) eqn:Ecl; cbn [map]; [|rewrite app_nil_r; eauto].
    rewrite emit_ok; [eauto|]. rewrite map_length. assert (L : (List.length (filter (fun i0 => closeb i0 first6) (zrange i)) <= List.length (zrange i))%nat) by (clear; induction (zrange i) as [|a l IH]; cbn [filter List.length]; [lia|]; destruct (closeb a first6); cbn [List.length]; lia).
    rewrite zrange_length in L. lia.
  - reflexivity.
  - rewrite E, H. rewrite Z.add_0_l. reflexivity.
Qed.
Lemma datas_size_N : datas_size cols = N.
Proof.
  pose proof (b6_columns _ _ _ _ HE) as L. destruct cols as [|c cols'] eqn:Ec; [discriminate L|]. cbn [datas_size].
  assert (A : exists a l, all_strategies = a :: l) by (eexists; eexists; reflexivity). destruct A as (a & l & Ea). destruct (b6_rows _ _ _ _ HE a c) as (Lc & _); [rewrite Ea; now left|exact Lc].
Qed.
Definition closeall (i : Z) : bool := closeb i first6 && forallb (closeb i) others6.
Lemma closeall_iff i : closeall i = true <-> forall s, In s simple_strategies -> closeb i s = true.
Proof.
  unfold closeall. rewrite andb_true_iff, forallb_forall. change first6 with first_feature. split.
  - intros (H1 & H2) s Hs. apply feature_order_simple in Hs. rewrite feature_order_eq, algos_split in Hs. destruct Hs as [<-|Hs]; auto.
  - intros H. split; [apply H; exact first_simple|]. intros s Hs. apply H. apply (algos_ok s). now apply others_algos.
Qed.
Definition cands : list prob := map (fun i => mkpr i (fold_left (step8 (rowv i) value) algos6 d1)) (filter closeall (zrange N)).
Lemma candidates8_ok : candidates8 (vsize words) cols load = Ok cands.
Proof.
  unfold candidates8. change first6 with first_feature at 1. rewrite (proj1 (load_value first_feature first_simple)). cbn [bind Ocr6Model.num].
  destruct (get_col_In first6 all_strategies cols (simple_in_all _ first_simple) (b6_columns _ _ _ _ HE)) as (c & Ec & _). rewrite Ec. cbn [bind]. rewrite datas_size_N. unfold vsize.
  change (value first_feature) with (value first6). rewrite (first_rows c Ec (Z.to_nat N)) by lia. cbn [bind]. rewrite Z2Nat.id by lia.
  rewrite reduce_all8_ok.
  - cbn [bind]. unfold cands. set (l0 := zrange N). assert (Hl : forall i, In i l0 -> 0 <= i < N) by (intros i; apply zrange_In). clearbody l0. induction l0 as [|i l0 IH]; [reflexivity|].
    assert (IH' := IH (fun j Hj => Hl j (or_intror Hj))). clear IH. cbn [filter]. unfold closeall at 1. destruct (closeb i first6) eqn:E1; cbn [andb]; [|exact IH']. cbn [map filter pr_i]. destruct (forallb (closeb i) others6) eqn:E2; [|exact IH'].
    cbn [map map_res pr_i pr_p]. rewrite score8_ok; [| |].
    + cbn [bind]. rewrite IH'. reflexivity.
    + apply Hl. now left.
    + intros s Hs. assert (Hs' : In s simple_strategies) by (apply (algos_ok s Hs)). split; [exact Hs'|]. apply closeall_iff; [|exact Hs']. unfold closeall. now rewrite E1, E2.
  - intros s Hs. apply (algos_ok s). now apply others_algos.
  - intros p Hp. apply in_map_iff in Hp as (i & <- & Hi). apply filter_In in Hi as (Hi & _). now apply zrange_In in Hi.
Qed.
Lemma cands_In p : In p cands -> 0 <= pr_i p < N /\ (forall s, In s simple_strategies -> closeb (pr_i p) s = true) /\ pr_p p = fold_left (step8 (rowv (pr_i p)) value) algos6 d1.
Proof.
  intros H. apply in_map_iff in H as (i & <- & Hi). apply filter_In in Hi as (Hi & C). apply zrange_In in Hi. rewrite closeall_iff in C. auto.
Qed.
Lemma algos_close i : (forall s, In s simple_strategies -> closeb i s = true) -> forall s, In s algos6 -> In s simple_strategies /\ Z.abs (rowv i s - value s) <= range s / 10.
Proof. intros H s Hs. assert (Hs' : In s simple_strategies) by (apply (algos_ok s Hs)). split; [exact Hs'|]. apply Z.leb_le. exact (H s Hs'). Qed.
Lemma filter_sorted {A} (R : A -> A -> Prop) f l : StronglySorted R l -> StronglySorted R (filter f l).
Proof.
  induction 1 as [|a l H IH F]; cbn [filter]; [constructor|]. destruct (f a); [|exact IH]. constructor; [exact IH|]. rewrite Forall_forall in *. intros x Hx. apply filter_In in Hx. apply F. apply Hx.
Qed.
Lemma cands_found : found8 cols N value cands.
Proof.
  assert (E : map pr_i cands = filter closeall (zrange N)) by (unfold cands; rewrite map_map; apply map_id). split; [|split].
  - rewrite E. apply filter_sorted. apply zrange_sorted.
  - intros i. rewrite E, filter_In, zrange_In, closeall_iff. split; [intros (Hi & H); now apply near8_iff|]. intros H. pose proof H as (Hi & _). split; [exact Hi|]. now apply near8_iff.
  - intros p row Hp Hrow. destruct (cands_In p Hp) as (Hi & _ & ->). unfold product8. rewrite feature_order_eq.
    assert (F : forall ss, (forall s, In s ss -> In s simple_strategies) -> forall q, fold_left (step8 (rowv (pr_i p)) value) ss q = fold_left (fun p s => share p (similarity s (row s) (value s)) 100) ss q).
    { induction ss as [|s ss IH]; intros Hs q; [reflexivity|]. cbn [fold_left]. rewrite IH by (intros; apply Hs; now right). unfold step8. do 3 f_equal.
      assert (H1 : In s simple_strategies) by (apply Hs; now left). destruct (row_cell s (pr_i p) H1 Hi) as (_ & _ & _ & _ & U). symmetry. apply U. now apply Hrow. }
    apply F. intros s Hs. apply (algos_ok s Hs).
Qed.
Lemma cands_unit p : In p cands -> unitp p /\ 0 <= pr_i p < N.
Proof.
  intros Hp. destruct (cands_In p Hp) as (Hi & C & E). split; [|exact Hi]. unfold unitp. rewrite E. apply product8_unit; [now apply algos_close|apply unit_d1].
Qed.
Lemma cands_one p : In p cands -> (dle d1 (pr_p p) = true <-> forall s, In s simple_strategies -> rowv (pr_i p) s = value s).
Proof.
  intros Hp. destruct (cands_In p Hp) as (Hi & C & E). rewrite E, product8_one by (now apply algos_close). rewrite <- feature_order_eq. split; intros H s Hs; apply H; now apply feature_order_simple.
Qed.
Lemma seen_value s : In s simple_strategies -> seen6 (r6_zones rt) img s (VNum (value s)).
Proof. intros Hs. apply (seen_sv _ _ _ _ HE img img90 HR H90 junk); [now apply simple_in_all|]. symmetry. now apply (simple_sv _ _ _ _ HE img img90 HR H90 junk). Qed.
End Candidates.

(** The score is 1 exactly for the rows whose simple features are those of the image. *)
Lemma found8_certain rt cols words by_word value ps : base6 rt cols words by_word -> (forall s, In s simple_strategies -> 0 <= value s <= range s) ->
  found8 cols (Z.of_nat (List.length words)) value ps -> forall p, In p ps ->
  unit_double (pr_p p) /\ (dle d1 (pr_p p) = true <-> row_of cols (pr_i p) value).
Proof.
  intros HE Hv (_ & Mem & Sc) p Hp. assert (Hn : near8 cols (Z.of_nat (List.length words)) value (pr_i p)) by (apply Mem; now apply in_map). pose proof Hn as (Hi & Hc).
  assert (Row : row_of cols (pr_i p) (rowv cols (pr_i p))) by (intros s Hs; destruct (row_cell _ _ _ _ HE s (pr_i p) Hs Hi) as (_ & _ & _ & _ & U); now apply U).
  assert (Cl : forall s, In s feature_order -> In s simple_strategies /\ Z.abs (rowv cols (pr_i p) s - value s) <= range s / 10).
  { intros s Hs. apply feature_order_simple in Hs. split; [exact Hs|]. apply Hc; [exact Hs|now apply Row]. }
  rewrite (Sc p _ Hp Row). unfold product8. change (fun p0 s => share p0 (similarity s (rowv cols (pr_i p) s) (value s)) 100) with (step8 (rowv cols (pr_i p)) value).
  split; [apply product8_unit; [exact Cl|apply unit_d1]|]. rewrite product8_one by exact Cl. split.
  - intros H s Hs. rewrite <- (H s) by now apply feature_order_simple. now apply Row.
  - intros H s Hs. apply feature_order_simple in Hs. symmetry. destruct (row_cell _ _ _ _ HE s (pr_i p) Hs Hi) as (_ & _ & _ & _ & U). apply U. now apply H.
Qed.

Lemma recognise8_exact e n img : sound_env8 e -> recognisable img ->
  (forall f, recognise8 e n img = Ok f -> outcome8 (r6_zones (e8_rt e)) img (e8_cols e) (e8_words e) f) /\
  (comparable6 (r6_zones (e8_rt e)) img (e8_cols e) \/ (exists i, identical8 (r6_zones (e8_rt e)) img (e8_cols e) (Z.of_nat (List.length (e8_words e))) i) ->
     exists f, recognise8 e n img = Ok f).
Proof.
  intros HE HR. unfold sound_env8 in HE. destruct (recognisable_turn img HR) as (img90 & H90). unfold recognise8. rewrite H90. cbn [bind]. cbv zeta. set (junk := r6_junk (e8_rt e) n).
  rewrite (candidates8_ok _ _ _ _ HE img img90 HR H90 junk). cbn [bind].
  pose proof (cands_found _ _ _ _ HE img img90 junk) as Fd. pose proof (cands_unit (e8_rt e) (e8_cols e) (e8_words e) img img90 junk) as Un.
  destruct (decide6_ok _ _ _ _ HE img img90 HR H90 junk _ Un) as (D1 & D2). split.
  - intros f E. exists (value (e8_rt e) img img90 junk), (cands (e8_rt e) (e8_cols e) (e8_words e) img img90 junk). split; [intros s Hs; now apply (seen_value _ _ _ _ HE img img90 HR H90)|]. split; [exact Fd|]. now apply D1.
  - intros H. apply D2. destruct H as [H|(i & Hi & H)]; [now left|right].
    assert (Ev : forall s, In s simple_strategies -> rowv (e8_cols e) i s = value (e8_rt e) img img90 junk s).
    { intros s Hs. destruct (row_cell _ _ _ _ HE s i Hs Hi) as (_ & _ & _ & _ & U). specialize (H s _ Hs (proj2 (U _) eq_refl)).
      pose proof (seen6_unique _ _ _ _ _ H (seen_value _ _ _ _ HE img img90 HR H90 junk s Hs)) as Q. now injection Q. }
    assert (Hn : near8 (e8_cols e) (Z.of_nat (List.length (e8_words e))) (value (e8_rt e) img img90 junk) i).
    { apply (near8_iff _ _ _ _ HE img img90 junk i Hi). intros s Hs. unfold closeb. rewrite (Ev s Hs), Z.sub_diag. apply Z.leb_le. pose proof (tenth_range s Hs). cbn. lia. }
    pose proof Fd as (_ & Mem & _). apply Mem in Hn. apply in_map_iff in Hn as (p & Ep & Hp). exists p. split; [exact Hp|]. apply (cands_one _ _ _ img img90 junk p Hp). rewrite Ep. exact Ev.
Qed.
Lemma seen_range z img s a : is_std_sort Z.ltb z -> recognisable img -> In s simple_strategies -> seen6 z img s (VNum a) -> 0 <= a <= range s.
Proof.
  intros Hz HR Hs (r & Er & E). destruct (simple_feature (mkin (fun _ => 0) z img r) (conj HR (conj Er Hz)) (unturned s) (unturned_simple s Hs)) as (F & Ev & B & _).
  unfold feature in F. cbn [in_zsort in_img in_img90] in F. change (mkst (st_algo s) false) with (unturned s) in E. rewrite E in F. assert (Q : fv (mkin (fun _ => 0) z img r) (unturned s) = VNum a) by congruence. rewrite Q in *. exact B.
Qed.
(** The words of the rows with the features of the image. *)
Lemma outcome8_identical rt cols words by_word img f i : base6 rt cols words by_word -> recognisable img -> outcome8 (r6_zones rt) img cols words f ->
  identical8 (r6_zones rt) img cols (Z.of_nat (List.length words)) i -> f6_amb f = f6_words f /\ incl (labels6 words i) (f6_words f).
Proof.
  intros HE HR (value & ps & Sv & Fd & D) (Hi & H).
  assert (Hv : forall s, In s simple_strategies -> 0 <= value s <= range s) by (intros s Hs; eapply seen_range; [exact (b6_zones _ _ _ _ HE)|exact HR|exact Hs|now apply Sv]).
  assert (Row : row_of cols i value).
  { intros s Hs. destruct (row_cell _ _ _ _ HE s i Hs Hi) as (_ & _ & _ & _ & U). specialize (H s _ Hs (proj2 (U _) eq_refl)). pose proof (seen6_unique _ _ _ _ _ H (Sv s Hs)) as Q. injection Q as Q. rewrite <- Q. now apply U. }
  assert (Hn : near8 cols (Z.of_nat (List.length words)) value i).
  { split; [exact Hi|]. intros s a Hs Ha. destruct (row_cell _ _ _ _ HE s i Hs Hi) as (_ & _ & _ & _ & U). apply U in Ha. subst a. pose proof (Row s Hs) as Q. apply U in Q. rewrite <- Q, Z.sub_diag. pose proof (tenth_range s Hs). cbn. lia. }
  pose proof Fd as (_ & Mem & _). apply Mem in Hn. apply in_map_iff in Hn as (p & Ep & Hp). destruct (found8_certain _ _ _ _ _ _ HE Hv Fd p Hp) as (_ & One). rewrite Ep in One.
  destruct D as [(-> & _)|[(ks & w & En & _ & ->)|(No & _)]]; [destruct Hp| |rewrite (No p Hp) in One; destruct One as (_ & One); specialize (One Row); discriminate].
  cbn [f6_amb f6_words]. split; [reflexivity|]. destruct (en_all _ _ _ En i) as (k & Hk & Ek); [exists p; split; [exact Hp|]; split; [exact Ep|]; now apply One|].
  intros x Hx. apply in_flat_map. exists k. split; [exact Hk|]. now rewrite Ek.
Qed.

(** It does not depend on what was recognised before. *)
Lemma reduce_all8_ext f g cols : (forall s, f s = g s) -> forall ss ps, reduce_all8 f cols ss ps = reduce_all8 g cols ss ps.
Proof.
  intros H. induction ss as [|s ss IH]; intros ps; [reflexivity|]. cbn [reduce_all8]. rewrite H. destruct (g s); try reflexivity. cbn [bind]. destruct (get_col _ _ _); try reflexivity. cbn [bind].
  destruct (reduce8 _ _ _ _); try reflexivity. cbn [bind]. apply IH.
Qed.
Lemma score8_ext f g cols : (forall s, f s = g s) -> forall ss i p, score8 f cols ss i p = score8 g cols ss i p.
Proof.
  intros H. induction ss as [|s ss IH]; intros i p; [reflexivity|]. cbn [score8]. rewrite H. destruct (g s); try reflexivity. cbn [bind]. destruct (get_col _ _ _); try reflexivity. cbn [bind].
  destruct (col_at _ _); try reflexivity. cbn [bind]. destruct (update_probability _ _ _ _); try reflexivity. cbn [bind]. apply IH.
Qed.
Lemma candidates8_ext cap cols f g : (forall s, f s = g s) -> candidates8 cap cols f = candidates8 cap cols g.
Proof.
  intros H. unfold candidates8. rewrite H. destruct (g first6); try reflexivity. cbn [bind]. destruct (get_col _ _ _); try reflexivity. cbn [bind]. destruct (for_up _ _ _ _); try reflexivity. cbn [bind].
  rewrite (reduce_all8_ext f g _ H). destruct (reduce_all8 g _ _ _); try reflexivity. cbn [bind]. apply map_res_ext. intros p. now rewrite (score8_ext f g _ H).
Qed.
Lemma recognise8_steady e : sound_env8 e -> steady (recognise8 e).
Proof.
  intros HE. split.
  - intros n n' im R. unfold recognise8. destruct (rotate90 im) as [im90| | |] eqn:E; try reflexivity. cbn [bind]. cbv zeta.
    set (f := load6 (r6_junk (e8_rt e) n) (r6_zones (e8_rt e)) im im90). set (g := load6 (r6_junk (e8_rt e) n') (r6_zones (e8_rt e)) im im90).
    assert (H : forall s, f s = g s) by (intros s; unfold f, g; rewrite !load6_alone by assumption; reflexivity). clearbody f g.
    rewrite (candidates8_ext _ _ f g H). destruct (candidates8 _ _ _) as [ps| | |]; try reflexivity. cbn [bind]. now apply decide6_ext.
  - intros n im f HR Hf. destruct (recognise8_exact e n im HE HR) as (O & _). destruct (O f Hf) as (v & ps & _ & _ & D). exact (decision6_shape _ _ _ _ _ _ D).
Qed.
(** The candidates for a picture. *)
Lemma candidates8_exact rt cols words by_word img img90 junk : base6 rt cols words by_word -> recognisable img -> rotate90 img = Ok img90 ->
  exists value ps, (forall s, In s simple_strategies -> seen6 (r6_zones rt) img s (VNum (value s))) /\
    candidates8 (vsize words) cols (load6 junk (r6_zones rt) img img90) = Ok ps /\ found8 cols (Z.of_nat (List.length words)) value ps /\
    forall p, In p ps -> unit_double (pr_p p) /\ (dle d1 (pr_p p) = true <-> row_of cols (pr_i p) value).
Proof.
  intros HE HR H90. exists (value rt img img90 junk), (cands rt cols words img img90 junk). split; [intros s Hs; now apply (seen_value _ _ _ _ HE img img90 HR H90)|].
  split; [exact (candidates8_ok _ _ _ _ HE img img90 HR H90 junk)|]. pose proof (cands_found _ _ _ _ HE img img90 junk) as Fd. split; [exact Fd|].
  apply (found8_certain rt cols words by_word); [exact HE| |exact Fd]. intros s Hs. exact (proj2 (load_value _ _ _ _ HE img img90 HR H90 junk s Hs)).
Qed.
