(** Proofs about feature tables. *)
From Verif Require Import Base BaseProofs ImageModel ImageSpec ImageProofs StratModel StratSpec ProofTools SortModel ZoneModel ZoneSpec ZoneProofs2 ZoneProofs3 DatasModel DatasSpec.

(** * Zone informations that agree *)
Definition zi_same (a b : zone_info) : Prop :=
  zi_count a = zi_count b /\
  forall d i, 0 <= d < 4 -> 0 <= i < zi_count b -> zi_get a d i = zi_get b d i.

Lemma for_up_same {St} n i (f g : Z -> St -> res St) s :
  (forall j s, i <= j < i + Z.of_nat n -> f j s = g j s) -> for_up n i f s = for_up n i g s.
Proof.
  revert i s. induction n as [|n IH]; intros i s E; [reflexivity|]. cbn [for_up].
  rewrite E by lia. destruct (g i s); cbn [bind]; auto. apply IH. intros j s' Hj. apply E. lia.
Qed.

Lemma for_up_same_Z {St} n (f g : Z -> St -> res St) s :
  (forall j s, 0 <= j < n -> f j s = g j s) -> for_up (Z.to_nat n) 0 f s = for_up (Z.to_nat n) 0 g s.
Proof. intros E. apply for_up_same. intros j s' Hj. apply E. lia. Qed.

Lemma count_used_same a b d : zi_same a b -> 0 <= d < 4 -> count_used_zone a d = count_used_zone b d.
Proof.
  intros (Ec & Eg) Hd. unfold count_used_zone. rewrite Ec. apply for_up_same_Z. intros j s Hj. now rewrite Eg.
Qed.

Lemma count_total_same a b : zi_same a b -> count_total_used_zone a = count_total_used_zone b.
Proof.
  intros (Ec & Eg). unfold count_total_used_zone. rewrite Ec. apply for_up_same_Z. intros j s Hj.
  rewrite !Eg by lia. reflexivity.
Qed.

Lemma zone_value_same img a b : zi_same a b -> zone_value img a = zone_value img b.
Proof.
  intros S. unfold zone_value. rewrite !(count_used_same a b) by (auto; lia). rewrite (count_total_same a b) by auto.
  destruct S as (-> & _). reflexivity.
Qed.

Lemma pz_load_same sort a b : zi_same a b -> pz_load sort a = pz_load sort b.
Proof.
  intros (Ec & Eg). unfold pz_load. f_equal. unfold pz_values. rewrite Ec.
  apply for_up_same_Z. intros j (t, l) Hj. unfold pz_value. rewrite !Eg by lia. reflexivity.
Qed.

Lemma zone_history junk1 ctx1 junk2 ctx2 img :
  wf_image img -> 1 <= iw img -> 1 <= ih img -> iw img * ih img < 1073741824 ->
  exists zc1 zc2, count_zone_compute junk1 img ctx1 = Ok zc1 /\ count_zone_compute junk2 img ctx2 = Ok zc2 /\
    zi_same (zc_zone zc1) (zc_zone zc2).
Proof.
  intros Hwf Hw Hh Hb.
  destruct (count_zone_ok junk1 img ctx1 Hwf Hw Hh Hb) as (k1 & lab1 & zc1 & E1 & K1 & N1 & _ & C1 & G1).
  destruct (count_zone_ok junk2 img ctx2 Hwf Hw Hh Hb) as (k2 & lab2 & zc2 & E2 & K2 & N2 & _ & C2 & G2).
  exists zc1, zc2. split; [exact E1|]. split; [exact E2|].
  destruct (numbering_unique img k1 lab1 k2 lab2 N1 N2 ltac:(lia) ltac:(lia)) as (-> & El).
  split; [congruence|]. intros d i Hd Hi. rewrite C2 in Hi.
  destruct (G1 (i + 1) ltac:(lia)) as (A0 & A1 & A2 & A3). destruct (G2 (i + 1) ltac:(lia)) as (B0 & B1 & B2 & B3).
  replace (i + 1 - 1) with i in * by lia.
  assert (T : on_top img lab1 (i + 1) = on_top img lab2 (i + 1) /\ on_right img lab1 (i + 1) = on_right img lab2 (i + 1) /\
    on_bottom img lab1 (i + 1) = on_bottom img lab2 (i + 1) /\ on_left img lab1 (i + 1) = on_left img lab2 (i + 1)).
  { unfold on_top, on_right, on_bottom, on_left. repeat split; apply StratProofs.zsum_ext; intros; now rewrite El. }
  destruct T as (T0 & T1 & T2 & T3).
  assert (Hd' : d = 0 \/ d = 1 \/ d = 2 \/ d = 3) by lia. destruct Hd' as [->|[->|[->| ->]]]; congruence.
Qed.

(** * Coherent contexts *)
Definition pick (r : bool) (img img90 : image) : image := if r then img90 else img.

Definition coherent (img img90 : image) (cx : ctxs) : Prop :=
  (forall k r tb, cx_tb cx k r = (true, tb) -> tb_fn k (pick r img img90) = Ok tb) /\
  (forall r zc, cx_zone cx r = (true, zc) ->
     exists zc0, count_zone_compute (fun _ => 0) (pick r img img90) new_zone_ctx = Ok zc0 /\
       zi_same (zc_zone zc) (zc_zone zc0)).

Definition zonable (img : image) : Prop :=
  wf_image img /\ 1 <= iw img /\ 1 <= ih img /\ iw img * ih img < 1073741824.

Lemma reset_coherent img img90 cx : coherent img img90 (ctx_reset cx).
Proof. split; [intros k r tb E; discriminate|intros r zc E; discriminate]. Qed.

(** Outcome of a computation with contexts that agrees with one without. *)
Definition agrees {A} (img img90 : image) (m : res (A * ctxs)) (v : res A) : Prop :=
  match m with
  | Ok (a, cx) => v = Ok a /\ coherent img img90 cx
  | Throw e => v = Throw e
  | UB => v = UB
  | NoFuel => v = NoFuel
  end.

Lemma tbkind_eqb_spec a b : tbkind_eqb a b = true <-> a = b.
Proof. destruct a, b; cbn; split; congruence. Qed.

Lemma tb_compute_agrees img img90 k r cx : coherent img img90 cx ->
  agrees img img90 (tb_compute k r (pick r img img90) cx) (tb_fn k (pick r img img90)).
Proof.
  intros (C1 & C2). unfold tb_compute. destruct (cx_tb cx k r) as (loaded, tb) eqn:E. destruct loaded.
  - split; [now apply C1|split; assumption].
  - destruct (tb_fn k (pick r img img90)) as [tb'| | |] eqn:F; cbn [bind agrees]; auto.
    split; [reflexivity|]. split; [|exact C2]. cbn [cx_tb]. intros k' r' tb0.
    destruct (tbkind_eqb k k') eqn:Ek; [|apply C1]. destruct (Bool.eqb r r') eqn:Er; [|apply C1].
    apply tbkind_eqb_spec in Ek. apply eqb_prop in Er. subst. cbn [andb]. congruence.
Qed.

Lemma zone_compute_agrees junk img img90 r cx : zonable (pick r img img90) -> coherent img img90 cx ->
  exists zc0 zi cx', count_zone_compute (fun _ => 0) (pick r img img90) new_zone_ctx = Ok zc0 /\
    zone_compute junk r (pick r img img90) cx = Ok (zi, cx') /\ zi_same zi (zc_zone zc0) /\ coherent img img90 cx'.
Proof.
  intros (Hwf & Hw & Hh & Hb) (C1 & C2). unfold zone_compute. destruct (cx_zone cx r) as (loaded, zc) eqn:E. destruct loaded.
  - destruct (C2 r zc E) as (zc0 & E0 & S). exists zc0, (zc_zone zc), cx. repeat split; auto; apply S.
  - destruct (zone_history junk zc (fun _ => 0) new_zone_ctx _ Hwf Hw Hh Hb) as (zc1 & zc0 & E1 & E0 & S).
    exists zc0. rewrite E1. cbn [bind]. do 2 eexists. split; [exact E0|]. split; [reflexivity|]. split; [exact S|].
    split; [exact C1|]. cbn [cx_zone]. intros r' zc'. destruct (Bool.eqb r r') eqn:Er; [|apply C2].
    apply eqb_prop in Er. subst r'. intros Ez. assert (zc' = zc1) by congruence. subst zc'. eauto.
Qed.

Lemma tb_load_agrees img img90 pre post k r cx : coherent img img90 cx ->
  agrees img img90 (tb_load pre post k r (pick r img img90) cx)
    (n <- tb_feature pre post (tb_fn k) (pick r img img90) ;; Ok (VNum n)).
Proof.
  intros C. unfold tb_load, tb_feature. destruct (pre (pick r img img90)) as [[v|a]| | |]; cbn [bind agrees]; auto.
  pose proof (tb_compute_agrees img img90 k r cx C) as A.
  destruct (tb_compute k r (pick r img img90) cx) as [(tb, cx')| | |]; cbn [agrees bind] in *.
  - destruct A as (-> & C'). cbn [bind]. destruct (post a tb); cbn [bind agrees]; auto.
  - now rewrite A.
  - now rewrite A.
  - now rewrite A.
Qed.

Lemma strategy_load_agrees junk sort s img img90 cx : zonable img -> zonable img90 -> coherent img img90 cx ->
  agrees img img90 (strategy_load junk sort s img img90 cx) (feature_alone sort s img img90).
Proof.
  intros Z1 Z2 C. destruct s as [a r]. unfold strategy_load, feature_alone. cbn [st_algo st_rot].
  assert (Zp : zonable (pick r img img90)) by (destruct r; assumption).
  assert (N : forall v : res Z, agrees img img90 (n <- v ;; Ok (VNum n, cx)) (n <- v ;; Ok (VNum n))).
  { intros v. destruct v; cbn [bind agrees]; auto. }
  change (if r then img90 else img) with (pick r img img90).
  change (if r then img else img90) with (pick r img90 img).
  destruct a; cbv zeta; auto.
  - apply tb_load_agrees; exact C.
  - apply tb_load_agrees; exact C.
  - apply tb_load_agrees; exact C.
  - apply tb_load_agrees; exact C.
  - apply tb_load_agrees; exact C.
  - apply tb_load_agrees; exact C.
  - apply tb_load_agrees; exact C.
  - apply tb_load_agrees; exact C.
  - destruct (alternations (pick r img img90) (pick r img90 img)); cbn [bind agrees]; auto.
  - destruct (zone_compute_agrees junk img img90 r cx Zp C) as (zc0 & zi & cx' & E0 & E1 & S & C').
    rewrite E0, E1. cbn [bind]. rewrite (zone_value_same _ _ _ S).
    destruct (zone_value (pick r img img90) (zc_zone zc0)); cbn [bind agrees]; auto.
  - destruct (zone_compute_agrees junk img img90 r cx Zp C) as (zc0 & zi & cx' & E0 & E1 & S & C').
    rewrite E0, E1. cbn [bind]. rewrite (pz_load_same _ _ _ S).
    destruct (pz_load sort (zc_zone zc0)); cbn [bind agrees]; auto.
Qed.

(** * Tables *)
Lemma load_columns_agrees junk sort img img90 : zonable img -> zonable img90 ->
  forall ss cols cx, coherent img img90 cx -> List.length cols = List.length ss ->
  agrees img img90 (load_columns junk sort ss cols img img90 cx)
    (row <- row_alone sort ss img img90 ;; Ok (add_row cols row)).
Proof.
  intros Z1 Z2. induction ss as [|s ss IH]; intros [|c cols] cx C Hl; try discriminate; cbn [load_columns row_alone].
  - split; [reflexivity|exact C].
  - pose proof (strategy_load_agrees junk sort s img img90 cx Z1 Z2 C) as A.
    destruct (strategy_load junk sort s img img90 cx) as [(v, cx1)| | |]; cbn [agrees bind] in *; [|now rewrite A..].
    destruct A as (-> & C1). cbn [bind]. injection Hl as Hl. specialize (IH cols cx1 C1 Hl).
    destruct (load_columns junk sort ss cols img img90 cx1) as [(cs, cx2)| | |]; cbn [agrees bind] in *.
    + destruct IH as (E & C2). destruct (row_alone sort ss img img90); cbn [bind] in *; try discriminate.
      split; [|exact C2]. cbn [add_row]. congruence.
    + destruct (row_alone sort ss img img90); cbn [bind] in *; congruence.
    + destruct (row_alone sort ss img img90); cbn [bind] in *; congruence.
    + destruct (row_alone sort ss img img90); cbn [bind] in *; congruence.
Qed.

Lemma rotate_zonable img : zonable img -> exists img90, rotate90 img = Ok img90 /\ zonable img90.
Proof.
  intros (Hwf & Hw & Hh & Hb). destruct (rotate90_law img Hwf) as (r & E & Hwr & Ew & Eh & _).
  exists r. split; [exact E|]. split; [exact Hwr|]. rewrite Ew, Eh. lia.
Qed.

Lemma datas_load_alone junk sort ss d img : zonable img -> List.length (d_cols d) = List.length ss ->
  (d' <- datas_load junk sort ss d img ;; Ok (d_cols d')) =
  (row <- features_alone sort ss img ;; Ok (add_row (d_cols d) row)).
Proof.
  intros Z1 Hl. destruct (rotate_zonable img Z1) as (img90 & E & Z2).
  unfold datas_load, features_alone. rewrite E. cbn [bind].
  pose proof (load_columns_agrees junk sort img img90 Z1 Z2 ss (d_cols d) (ctx_reset (d_ctx d)) (reset_coherent _ _ _) Hl) as A.
  destruct (load_columns junk sort ss (d_cols d) img img90 (ctx_reset (d_ctx d))) as [(cs, cx)| | |]; cbn [agrees bind d_cols] in *.
  - destruct A as (-> & _). reflexivity.
  - now rewrite A.
  - now rewrite A.
  - now rewrite A.
Qed.

Lemma row_alone_length sort ss img img90 row : row_alone sort ss img img90 = Ok row -> List.length row = List.length ss.
Proof.
  revert row. induction ss as [|s ss IH]; intros row E; cbn [row_alone] in E; [injection E as <-; reflexivity|].
  destruct (feature_alone sort s img img90); cbn [bind] in E; try discriminate.
  destruct (row_alone sort ss img img90); cbn [bind] in E; try discriminate.
  assert (row = a :: a0) by congruence. subst row. cbn [List.length]. f_equal. now apply IH.
Qed.

Lemma add_row_length cols row : List.length row = List.length cols -> List.length (add_row cols row) = List.length cols.
Proof.
  revert row. induction cols as [|c cols IH]; intros [|v row] E; try discriminate; [reflexivity|].
  cbn [add_row List.length] in *. f_equal. apply IH. lia.
Qed.

Lemma datas_load_all_alone junk sort ss imgs : forall d,
  Forall zonable imgs -> List.length (d_cols d) = List.length ss ->
  (d' <- datas_load_all junk sort ss d imgs ;; Ok (d_cols d')) =
  (rows <- rows_alone sort ss imgs ;; Ok (add_rows (d_cols d) rows)).
Proof.
  induction imgs as [|img imgs IH]; intros d F Hl; [reflexivity|]. cbn [datas_load_all rows_alone].
  inversion F as [|i is Z1 F']; subst. pose proof (datas_load_alone junk sort ss d img Z1 Hl) as E.
  destruct (datas_load junk sort ss d img) as [d1| | |]; cbn [bind] in *.
  - destruct (features_alone sort ss img) as [row| | |] eqn:Ef; cbn [bind] in *; try discriminate.
    assert (Ed : d_cols d1 = add_row (d_cols d) row) by congruence.
    assert (Hr : List.length row = List.length ss).
    { unfold features_alone in Ef. destruct (rotate90 img); cbn [bind] in Ef; try discriminate.
      eapply row_alone_length; eauto. }
    rewrite IH by (auto; rewrite Ed, add_row_length; lia).
    destruct (rows_alone sort ss imgs); cbn [bind]; auto. rewrite Ed. reflexivity.
  - destruct (features_alone sort ss img); cbn [bind] in *; congruence.
  - destruct (features_alone sort ss img); cbn [bind] in *; congruence.
  - destruct (features_alone sort ss img); cbn [bind] in *; congruence.
Qed.

(** * Comparison of rows *)
Lemma list_eqb_ok {A} (eqb : A -> A -> bool) a b :
  (forall x y, eqb x y = true <-> x = y) -> list_eqb eqb a b = true <-> a = b.
Proof.
  intros H. revert b. induction a as [|x a IH]; intros [|y b]; cbn [list_eqb]; split; try congruence; try discriminate.
  - rewrite andb_true_iff, H, IH. intros (-> & ->). reflexivity.
  - intros E. injection E as -> ->. rewrite andb_true_iff, H, IH. auto.
Qed.

Lemma alt_eqb_ok x y : alt_eqb x y = true <-> x = y.
Proof.
  destruct x as [s c], y as [s' c']. unfold alt_eqb. cbn [alt_start alt_count].
  rewrite andb_true_iff, eqb_true_iff, Z.eqb_eq. split; [intros (-> & ->); reflexivity|intros E; injection E; auto].
Qed.

Lemma fval_eqb_ok a b : fval_eqb a b = true <-> a = b.
Proof.
  destruct a, b; cbn [fval_eqb]; try (split; congruence);
    rewrite ?Z.eqb_eq, ?(list_eqb_ok alt_eqb _ _ alt_eqb_ok), ?(list_eqb_ok Z.eqb _ _ Z.eqb_eq); split; congruence.
Qed.

Lemma list_ltb_ok {A} (ltb : A -> A -> bool) (before : A -> A -> Prop) :
  (forall x y, ltb x y = true <-> before x y) -> (forall x y, before x y \/ x = y \/ before y x) ->
  (forall x, ~ before x x) -> (forall x y, before x y -> ~ before y x) ->
  forall a b, list_ltb ltb a b = true <-> list_before before a b.
Proof.
  intros Hl Ht Hi Ha. induction a as [|x a IH]; intros [|y b]; cbn [list_ltb].
  - split; [discriminate|]. intros [(x & t & E)|(c & x & y & t & t' & E & _)]; [discriminate|destruct c; discriminate].
  - split; [intros _; left; exists y, b; reflexivity|reflexivity].
  - split; [discriminate|]. intros [(z & t & E)|(c & z & y & t & t' & _ & E & _)]; [discriminate|destruct c; discriminate].
  - destruct (ltb x y) eqn:E1.
    + rewrite Hl in E1. split; [intros _; right; exists [], x, y, a, b; auto|reflexivity].
    + assert (N1 : ~ before x y) by (rewrite <- Hl; congruence). destruct (ltb y x) eqn:E2.
      * rewrite Hl in E2. split; [discriminate|]. intros [(z & t & E)|(c & z & z' & t & t' & F1 & F2 & B)].
        -- injection E as -> ->. exfalso. exact (Hi _ E2).
        -- destruct c as [|u c]; cbn [app] in F1, F2; injection F1 as F1 _; injection F2 as F2 _; subst; [contradiction|exfalso; exact (Hi _ E2)].
      * assert (N2 : ~ before y x) by (rewrite <- Hl; congruence). assert (x = y) as -> by (destruct (Ht x y) as [|[|]]; tauto).
        rewrite IH. split; intros [(z & t & E)|(c & z & z' & t & t' & F1 & F2 & B)].
        -- left. exists z, t. now rewrite E.
        -- right. exists (y :: c), z, z', t, t'. rewrite F1, F2. auto.
        -- left. exists z, t. injection E as ->. reflexivity.
        -- right. destruct c as [|u c]; cbn [app] in F1, F2.
           ++ injection F1 as F1 _. injection F2 as F2 _. subst z z'. exfalso. exact (Hi _ B).
           ++ injection F1 as _ F1. injection F2 as _ F2. exists c, z, z', t, t'. auto.
Qed.
Lemma alt_ltb_ok x y : alt_ltb x y = true <-> alt_before x y.
Proof.
  unfold alt_ltb, alt_before. rewrite orb_true_iff, !andb_true_iff, negb_true_iff, Z.ltb_lt, Z.eqb_eq. tauto.
Qed.
Lemma alt_before_total x y : alt_before x y \/ x = y \/ alt_before y x.
Proof.
  destruct x as [s c], y as [s' c']. unfold alt_before. cbn [alt_count alt_start].
  destruct (Z.lt_trichotomy c c') as [H|[->|H]]; [auto| |auto]. destruct s, s'; auto 6.
Qed.
Lemma alt_before_asym x y : alt_before x y -> ~ alt_before y x.
Proof. unfold alt_before. intros H H'. destruct H as [H|(H & E & E')], H' as [H'|(H' & F & F')]; try lia. congruence. Qed.
Lemma fval_ltb_ok v w : fval_ltb v w = true <-> value_before v w.
Proof.
  assert (Hz : forall x y, list_ltb Z.ltb x y = true <-> list_before Z.lt x y)
    by (apply list_ltb_ok; intros; [apply Z.ltb_lt|lia|lia|lia]).
  assert (Ha : forall x y, list_ltb alt_ltb x y = true <-> list_before alt_before x y).
  { apply list_ltb_ok; [apply alt_ltb_ok|apply alt_before_total| |apply alt_before_asym]. intros x H. exact (alt_before_asym _ _ H H). }
  destruct v, w; cbn [fval_ltb value_before]; try (split; [discriminate|contradiction]); [apply Z.ltb_lt|apply Ha|apply Hz|apply Hz].
Qed.
(** The order of the values of a feature is total. *)
Lemma list_before_total {A} (before : A -> A -> Prop) : (forall x y, before x y \/ x = y \/ before y x) ->
  forall l l', list_before before l l' \/ l = l' \/ list_before before l' l.
Proof.
  intros Ht. induction l as [|x l IH]; intros [|y l'].
  - auto.
  - left. left. exists y, l'. reflexivity.
  - right. right. left. exists x, l. reflexivity.
  - destruct (Ht x y) as [H|[->|H]].
    + left. right. exists [], x, y, l, l'. auto.
    + assert (G : forall a b, list_before before a b -> list_before before (y :: a) (y :: b)).
      { intros a b [(z & t & E)|(c & z & z' & t & t' & F1 & F2 & B)]; [left; exists z, t; now rewrite E|].
        right. exists (y :: c), z, z', t, t'. rewrite F1, F2. auto. }
      destruct (IH l') as [H|[->|H]]; auto.
    + right. right. right. exists [], y, x, l', l. auto.
Qed.
Lemma list_before_cons {A} (before : A -> A -> Prop) x y l l' :
  (forall x, ~ before x x) -> list_before before (x :: l) (y :: l') <-> before x y \/ (x = y /\ list_before before l l').
Proof.
  intros Hi. split.
  - intros [(z & t & E)|(c & z & z' & t & t' & F1 & F2 & B)].
    + injection E as -> ->. right. split; [reflexivity|]. left. exists z, t. reflexivity.
    + destruct c as [|u c]; cbn [app] in F1, F2; injection F1 as F1 G1; injection F2 as F2 G2; subst; [auto|].
      right. split; [reflexivity|]. right. exists c, z, z', t, t'. auto.
  - intros [H|(-> & [(z & t & E)|(c & z & z' & t & t' & F1 & F2 & B)])].
    + right. exists [], x, y, l, l'. auto.
    + left. exists z, t. now rewrite E.
    + right. exists (y :: c), z, z', t, t'. rewrite F1, F2. auto.
Qed.
Lemma list_before_irrefl {A} (before : A -> A -> Prop) : (forall x, ~ before x x) -> forall l, ~ list_before before l l.
Proof.
  intros Hi. induction l as [|x l IH].
  - intros [(z & t & E)|(c & z & z' & t & t' & F1 & F2 & B)]; [discriminate|destruct c; discriminate].
  - rewrite list_before_cons by exact Hi. intros [H|(_ & H)]; [exact (Hi _ H)|exact (IH H)].
Qed.
Lemma list_before_trans {A} (before : A -> A -> Prop) : (forall x, ~ before x x) ->
  (forall x y z, before x y -> before y z -> before x z) ->
  forall a b c, list_before before a b -> list_before before b c -> list_before before a c.
Proof.
  intros Hi Ht. induction a as [|x a IH]; intros [|y b] [|z c] H1 H2;
    try (destruct H2 as [(u & t & E)|(w & u & u' & t & t' & _ & F2 & _)]; [discriminate|destruct w; discriminate]);
    try (left; exists z, c; reflexivity).
  - destruct H1 as [(u & t & E)|(w & u & u' & t & t' & _ & F2 & _)]; [discriminate|destruct w; discriminate].
  - rewrite list_before_cons in H1, H2 |- * by exact Hi. destruct H1 as [H1|(-> & H1)], H2 as [H2|(-> & H2)]; eauto.
Qed.
Lemma alt_before_trans x y z : alt_before x y -> alt_before y z -> alt_before x z.
Proof. unfold alt_before. intros [H|(H & E & F)] [H'|(H' & E' & F')]; try (left; lia). congruence. Qed.
Lemma values_ordered u v w : same_kind u v ->
  (value_before u v \/ u = v \/ value_before v u) /\ ~ value_before u u /\ (value_before u v -> value_before v w -> value_before u w).
Proof.
  assert (Iz : forall x : Z, ~ x < x) by (intros; lia). assert (Ia : forall x, ~ alt_before x x) by (intros x H; exact (alt_before_asym _ _ H H)).
  assert (Tz : forall x y z : Z, x < y -> y < z -> x < z) by (intros; lia).
  assert (Oz : forall x y : Z, x < y \/ x = y \/ y < x) by (intros; lia).
  destruct u, v; cbn [same_kind]; try contradiction; intros _; (split; [|split]); cbn [value_before].
  - destruct (Oz n n0) as [|[->|]]; auto.
  - lia.
  - destruct w; try contradiction. lia.
  - destruct (list_before_total _ alt_before_total l l0) as [|[->|]]; auto.
  - now apply list_before_irrefl.
  - destruct w; try contradiction. apply list_before_trans; [exact Ia|exact alt_before_trans].
  - destruct (list_before_total _ Oz l l0) as [|[->|]]; auto.
  - now apply list_before_irrefl.
  - destruct w; try contradiction. apply list_before_trans; [exact Iz|exact Tz].
  - destruct (list_before_total _ Oz l l0) as [|[->|]]; auto.
  - now apply list_before_irrefl.
  - destruct w; try contradiction. apply list_before_trans; [exact Iz|exact Tz].
Qed.

Lemma col_at_ok c i v : 0 <= i -> nth_error c (Z.to_nat i) = Some v -> col_at c i = Ok v.
Proof. intros Hi E. unfold col_at. replace (i <? 0) with false by lia. now rewrite E. Qed.

Lemma has_row_cons c cols i : has_row (c :: cols) i -> has_row cols i /\ exists v, nth_error c (Z.to_nat i) = Some v.
Proof.
  intros (H0 & H). split; [split; [exact H0|intros c' Hc; apply H; now right]|].
  specialize (H c (or_introl eq_refl)). destruct (nth_error c (Z.to_nat i)) eqn:E; [eauto|].
  apply nth_error_None in E. lia.
Qed.

Lemma datas_eq_ok d i j : has_row (d_cols d) i -> has_row (d_cols d) j ->
  exists b : bool, datas_eq d i j = Ok b /\ (b = true <-> row_of (d_cols d) i = row_of (d_cols d) j).
Proof.
  unfold datas_eq. generalize (d_cols d) as cols. clear d. intros cols. induction cols as [|c cols IH]; intros Hi Hj.
  - exists true. split; [reflexivity|]. split; reflexivity.
  - destruct (has_row_cons _ _ _ Hi) as (Hi' & v & Ev). destruct (has_row_cons _ _ _ Hj) as (Hj' & w & Ew).
    cbn [cmp_datas row_of map]. rewrite (col_at_ok c i v), (col_at_ok c j w) by (auto; apply Hi || apply Hj). cbn [bind].
    rewrite Ev, Ew. destruct cols as [|c' cols'].
    + exists (fval_eqb v w). split; [reflexivity|]. rewrite fval_eqb_ok. cbn [map]. split; congruence.
    + rewrite orb_false_r. destruct (fval_eqb v w) eqn:E.
      * apply fval_eqb_ok in E. subst w. destruct (IH Hi' Hj') as (b & -> & Hb). exists b. split; [reflexivity|].
        rewrite Hb. unfold row_of. split; congruence.
      * exists false. split; [reflexivity|]. split; [discriminate|]. intros X.
        assert (v = w) by congruence. apply fval_eqb_ok in H. congruence.
Qed.

Lemma datas_lt_ok d i j : d_cols d <> [] -> has_row (d_cols d) i -> has_row (d_cols d) j ->
  exists b : bool, datas_lt d i j = Ok b /\ (b = true <-> lt_rows (row_of (d_cols d) i) (row_of (d_cols d) j)).
Proof.
  unfold datas_lt. generalize (d_cols d) as cols. clear d. intros cols. induction cols as [|c cols IH]; intros Hne Hi Hj; [congruence|].
  destruct (has_row_cons _ _ _ Hi) as (Hi' & v & Ev). destruct (has_row_cons _ _ _ Hj) as (Hj' & w & Ew).
  cbn [cmp_datas]. rewrite (col_at_ok c i v), (col_at_ok c j w) by (auto; apply Hi || apply Hj). cbn [bind].
  assert (Er : forall k, row_of (c :: cols) k = nth_error c (Z.to_nat k) :: row_of cols k) by reflexivity.
  rewrite !Er, Ev, Ew. destruct cols as [|c' cols'].
  - exists (fval_ltb v w). split; [reflexivity|]. cbn [row_of map]. rewrite fval_ltb_ok. split.
    + intros E. refine (conj eq_refl (conj _ (conj _ _))); [discriminate| |].
      * intros n v' w' _ _ Hn. cbn [List.length] in Hn. lia.
      * cbn [List.length Nat.sub nth_error]. intros v' w' E1 E2. congruence.
    + intros (_ & _ & _ & H). cbn [List.length Nat.sub nth_error] in H. now apply H.
  - destruct (IH ltac:(discriminate) Hi' Hj') as (b & Eb & Hb).
    set (ri := row_of (c' :: cols') i) in *. set (rj := row_of (c' :: cols') j) in *.
    assert (Li : List.length ri = S (List.length cols')) by (unfold ri, row_of; rewrite map_length; reflexivity).
    assert (Lj : List.length rj = S (List.length cols')) by (unfold rj, row_of; rewrite map_length; reflexivity).
    assert (Hc : lt_rows (Some v :: ri) (Some w :: rj) <-> (value_before v w \/ v = w) /\ lt_rows ri rj).
    { unfold lt_rows. cbn [List.length]. rewrite Li, Lj. cbn [Nat.sub]. rewrite Nat.sub_0_r. cbn [nth_error]. split.
      - intros (_ & _ & H1 & H2). split; [apply (H1 0%nat v w); auto; lia|].
        refine (conj eq_refl (conj _ (conj _ _))).
        + intros X. rewrite X in Li. discriminate.
        + intros n v' w' E1 E2 Hn. apply (H1 (S n)); auto. lia.
        + exact H2.
      - intros (H0 & _ & _ & H1 & H2). refine (conj eq_refl (conj _ (conj _ _))); [discriminate| |exact H2].
        intros n v' w' E1 E2 Hn. destruct n as [|n]; cbn [nth_error] in *.
        + assert (v' = v) by congruence. assert (w' = w) by congruence. subst. exact H0.
        + apply (H1 n); auto. lia. }
    destruct (fval_ltb v w || fval_eqb v w) eqn:E.
    + exists b. split; [exact Eb|]. rewrite Hc, Hb. rewrite orb_true_iff, fval_eqb_ok, fval_ltb_ok in E. tauto.
    + exists false. split; [reflexivity|]. rewrite Hc. rewrite orb_false_iff in E. destruct E as (E1 & E2).
      split; [discriminate|]. intros ([X|X] & _); [apply fval_ltb_ok in X; congruence|]. apply fval_eqb_ok in X. congruence.
Qed.

(** * The columns *)
Lemma row_alone_map sort ss img img90 : forall row,
  row_alone sort ss img img90 = Ok row <-> map (fun s => feature_alone sort s img img90) ss = map Ok row.
Proof.
  induction ss as [|s ss IH]; intros row; cbn [row_alone map].
  - split; [intros [= <-]; reflexivity|]. destruct row; [reflexivity|discriminate].
  - split.
    + destruct (feature_alone sort s img img90) as [v| | |]; try discriminate. cbn [bind].
      destruct (row_alone sort ss img img90) as [r| | |]; try discriminate. cbn [bind]. intros [= <-].
      cbn [map]. f_equal. now apply IH.
    + destruct row as [|v row]; [discriminate|]. cbn [map]. intros [= -> E]. cbn [bind].
      rewrite (proj2 (IH row) E). reflexivity.
Qed.
Lemma row_columns sort img img90 row :
  row_alone sort all_strategies img img90 = Ok row <-> columns sort img img90 = map Ok row.
Proof. rewrite row_alone_map. reflexivity. Qed.
