(** The feature table written by write_datas: one row by glyph, whose values can
    be read back. *)
From Verif Require Import Base BaseProofs SortModel ImageModel ImageSpec ImageProofs StratModel StratSpec StratFeatures
  StratFeatures2 StratFeatures3 ZoneModel ZoneSpec ZoneProofs3 DatasModel DatasSpec DatasProofs StreamModel GlyphIoModel GlyphIoSpec
  DatasIoModel DatasIoSpec DatasIoProofs IndexModel IndexSpec FloatModel FloatSpec RecogModel RecogSpec RecogProofs LearnModel LearnSpec LearnProofs.
From Coq Require Import Permutation Sorted.

Lemma is_u32_u32 n : is_u32 (u32 n).
Proof. apply Z.mod_pos_bound. reflexivity. Qed.
Lemma is_u32_small n : 0 <= n < 4294967296 -> is_u32 n.
Proof. trivial. Qed.

(** * Values that fit *)
Lemma make_alternations_u32 get first w a : make_alternations get first w = Ok a -> is_u32 (alt_count a).
Proof.
  unfold make_alternations. destruct (get first) as [start| | |]; try discriminate. cbn [bind]. intros H.
  refine (loop_partial _ (fun '(_, count) => is_u32 count) (fun a => is_u32 (alt_count a)) _ _ _ _ _ H).
  - intros [it count] Hc. destruct (next_alternation get it (first + w)) as [[more it']| | |]; cbn [bind]; try exact I.
    destruct more; [apply is_u32_u32|exact Hc].
  - apply is_u32_small. lia.
Qed.
Lemma alternations_u32 img img90 l : alternations img img90 = Ok l -> Forall (fun x => is_u32 (alt_count x)) l.
Proof.
  unfold alternations, alt_row, alt_block. cbv zeta. intros H.
  match type of H with bind ?m _ = _ => destruct m as [a0| | |] eqn:E0; try discriminate end. cbn [bind] in H.
  assert (U0 : is_u32 (alt_count a0)).
  { destruct (ih img <? 2); [injection E0 as <-; apply is_u32_small; cbn; lia|exact (make_alternations_u32 _ _ _ _ E0)]. }
  do 6 match type of H with bind ?m _ = _ => let a := fresh "a" in let E := fresh "E" in
    destruct m as [a| | |] eqn:E; try discriminate; cbn [bind] in H; apply make_alternations_u32 in E end.
  injection H as <-. repeat (apply Forall_cons; [assumption|]). apply Forall_nil.
Qed.
Lemma hbar_u32 img v : hbar img = Ok v -> is_u32 v.
Proof.
  unfold hbar. intros H. refine (loop_partial _ (fun '(_, _, n) => is_u32 n) is_u32 _ _ _ _ _ H).
  - intros [[p prev] n] Hn. destruct (p =? data_end img); [exact Hn|]. destruct (all_letters (idata img) p (iw img)) as [full| | |]; cbn [bind]; try exact I.
    destruct full; [destruct prev; [exact Hn|apply is_u32_u32]|exact Hn].
  - apply is_u32_small. lia.
Qed.
Lemma for_up_partial {St} (I : St -> Prop) n : forall i (f : Z -> St -> res St) s r, (forall i s s', I s -> f i s = Ok s' -> I s') -> I s -> for_up n i f s = Ok r -> I r.
Proof.
  induction n as [|n IH]; intros i f s r Hf Hs H; cbn [for_up] in H; [injection H as <-; exact Hs|].
  destruct (f i s) as [s'| | |] eqn:E; try discriminate. cbn [bind] in H. exact (IH _ _ _ _ Hf (Hf _ _ _ Hs E) H).
Qed.
Lemma zone_value_u32 img zi l : zone_value img zi = Ok l -> Forall is_u32 l.
Proof.
  assert (U0 : is_u32 0) by (apply is_u32_small; lia). assert (B : forall b, is_u32 (bool_u b)) by (intros []; apply is_u32_small; cbn; lia).
  assert (C : forall d v, count_used_zone zi d = Ok v -> is_u32 v).
  { intros d v H. refine (for_up_partial is_u32 _ _ _ _ _ _ U0 H). intros i n n' Hn E. destruct (zi_get zi d i); try discriminate. cbn [bind] in E.
    destruct (_ =? 0); injection E as <-; [exact Hn|apply is_u32_u32]. }
  unfold zone_value. intros H.
  do 2 match type of H with bind ?m _ = _ => destruct m as [?| | |] eqn:?; try discriminate; cbn [bind] in H end.
  do 4 match type of H with bind ?m _ = _ => let a := fresh "a" in let E := fresh "E" in
    destruct m as [a| | |] eqn:E; try discriminate; cbn [bind] in H; apply C in E end.
  match type of H with bind ?m _ = _ => destruct m as [?| | |]; try discriminate; cbn [bind] in H end.
  injection H as <-. repeat (apply Forall_cons; [first [apply B|assumption|apply is_u32_u32]|]). apply Forall_nil.
Qed.

(** * One image *)
Definition fval_of (zsort : list Z -> list Z) (img : image) (s : strategy) : fval :=
  match rotate90 img with
  | Ok img90 => match feature_alone zsort s img img90 with Ok v => v | _ => VNum 0 end
  | _ => VNum 0
  end.
Section One.
Context (zsort : list Z -> list Z) (Hz : is_std_sort Z.ltb zsort) (img img90 : image) (HR : recognisable img) (E90 : rotate90 img = Ok img90).

Lemma some_sound : sound_input (mkin (fun _ => 0) zsort img img90).
Proof. split; [exact HR|]. split; [exact E90|exact Hz]. Qed.
Lemma fval_of_feature s : In s all_strategies -> feature_alone zsort s img img90 = Ok (fval_of zsort img s).
Proof.
  intros Hs. pose proof (feature_ok _ some_sound s Hs) as F. unfold feature, fv in F. cbn [in_zsort in_img in_img90] in F.
  unfold fval_of. rewrite E90. exact F.
Qed.
Lemma fval_of_fits s : In s all_strategies -> value_of (st_algo s) (fval_of zsort img s) /\ typed s (fval_of zsort img s).
Proof.
  intros Hs. pose proof (fval_of_feature s Hs) as F.
  assert (Ef : fv (mkin (fun _ => 0) zsort img img90) s = fval_of zsort img s).
  { unfold fv. cbn [in_zsort in_img in_img90]. rewrite F. reflexivity. }
  pose proof some_sound as HS. revert Hs. unfold all_strategies, complex_strategies, exclusive_strategies. rewrite !in_app_iff.
  intros [H|[[H|H]|[H|H]]].
  - destruct (simple_feature _ HS s H) as (_ & E & B & _). rewrite Ef in *. rewrite E.
    assert (U : is_u32 (num (fval_of zsort img s))) by (unfold is_u32; destruct (range_cases s); lia).
    unfold typed. cbn in H. repeat (destruct H as [<-|H]; [split; [split; [exact U|exact I]|eexists; split; [reflexivity|exact U]]|]). destruct H.
  - destruct (hbar_feature _ HS s H) as (_ & E). rewrite Ef in *. rewrite E.
    assert (U : is_u32 (num (fval_of zsort img s))).
    { cbn in H. destruct H as [<-|[<-|[]]]; unfold feature_alone in F; cbn [st_rot st_algo] in F.
      - destruct (hbar img) as [v| | |] eqn:Eh; try discriminate. cbn [bind] in F. injection F as F. rewrite <- F. exact (hbar_u32 _ _ Eh).
      - destruct (hbar img90) as [v| | |] eqn:Eh; try discriminate. cbn [bind] in F. injection F as F. rewrite <- F. exact (hbar_u32 _ _ Eh). }
    unfold typed. cbn in H. repeat (destruct H as [<-|H]; [split; [split; [exact U|exact I]|eexists; split; [reflexivity|exact U]]|]). destruct H.
  - cbn in H. destruct H as [<-|[]]. destruct (alternations_feature _ HS) as (_ & l & E & L). rewrite Ef in E.
    unfold feature_alone in F; cbn [st_rot st_algo] in F. destruct (alternations img img90) as [l'| | |] eqn:Ea; try discriminate. cbn [bind] in F.
    injection F as F. rewrite <- F in *. injection E as ->. split; [|exists l; split; [reflexivity|exact L]].
    split; [reflexivity|]. split; [exact L|]. exact (alternations_u32 _ _ _ Ea).
  - cbn in H. destruct H as [<-|[]]. destruct (zone_feature _ HS) as (_ & l & E & L). rewrite Ef in E.
    unfold feature_alone in F; cbn [st_rot st_algo] in F. destruct (count_zone_compute (fun _ => 0) img new_zone_ctx) as [zc| | |]; try discriminate. cbn [bind] in F.
    destruct (zone_value img (zc_zone zc)) as [l'| | |] eqn:Ez; try discriminate. cbn [bind] in F.
    injection F as F. rewrite <- F in *. injection E as ->. split; [|exists l; split; [reflexivity|exact L]].
    split; [reflexivity|]. split; [exact L|]. exact (zone_value_u32 _ _ _ Ez).
  - cbn in H. destruct H as [<-|[]]. destruct (pz_feature _ HS) as (_ & l & E & B & L). rewrite Ef in E. rewrite E.
    split; [|exists l; reflexivity]. split; [reflexivity|]. split; [lia|]. apply Forall_forall. intros n Hn. specialize (B n Hn). unfold is_u32. lia.
Qed.
Lemma row_alone_fvals : row_alone zsort all_strategies img img90 = Ok (map (fval_of zsort img) all_strategies).
Proof.
  assert (G : forall ss, incl ss all_strategies -> row_alone zsort ss img img90 = Ok (map (fval_of zsort img) ss)).
  { induction ss as [|s ss IH]; intros H; [reflexivity|]. cbn [row_alone map]. rewrite (fval_of_feature s) by (apply H; left; reflexivity). cbn [bind].
    rewrite IH by (intros x Hx; apply H; right; exact Hx). reflexivity. }
  apply G. apply incl_refl.
Qed.
End One.

(** * The table *)
Definition feature_table (zsort : list Z -> list Z) (imgs : list image) : list (list fval) :=
  map (fun s => map (fun img => fval_of zsort img s) imgs) all_strategies.

Section Table.
Context (zsort : list Z -> list Z) (Hz : is_std_sort Z.ltb zsort).

Lemma features_alone_fvals img : recognisable img -> features_alone zsort all_strategies img = Ok (map (fval_of zsort img) all_strategies).
Proof.
  intros HR. unfold features_alone. destruct (rotate90_law img (proj1 HR)) as (r & Er & _). rewrite Er. cbn [bind]. apply row_alone_fvals; assumption.
Qed.
Lemma rows_alone_fvals imgs : Forall recognisable imgs -> rows_alone zsort all_strategies imgs = Ok (map (fun img => map (fval_of zsort img) all_strategies) imgs).
Proof.
  induction 1 as [|img imgs HR _ IH]; [reflexivity|]. cbn [rows_alone map]. rewrite (features_alone_fvals img HR). cbn [bind]. rewrite IH. reflexivity.
Qed.
Lemma add_row_map {A B} (f : A -> list fval) (g : A -> fval) (l : list A) (h : B -> A) : add_row (map f l) (map g l) = map (fun s => f s ++ [g s]) l.
Proof. induction l as [|a l IH]; [reflexivity|]. cbn [map add_row]. rewrite IH. reflexivity. Qed.
Lemma add_rows_map (ss : list strategy) imgs : forall done,
  add_rows (map (fun s => map (fun img => fval_of zsort img s) done) ss) (map (fun img => map (fval_of zsort img) ss) imgs) =
  map (fun s => map (fun img => fval_of zsort img s) (done ++ imgs)) ss.
Proof.
  induction imgs as [|img imgs IH]; intros done; [rewrite app_nil_r; reflexivity|]. unfold add_rows in *. cbn [map fold_left].
  rewrite (add_row_map (B := strategy) _ (fval_of zsort img) ss (fun s => s)).
  replace (map (fun s => map (fun img0 => fval_of zsort img0 s) done ++ [fval_of zsort img s]) ss) with
    (map (fun s => map (fun img0 => fval_of zsort img0 s) (done ++ [img])) ss).
  2: { apply map_ext. intros s. rewrite map_app. reflexivity. }
  rewrite IH, <- app_assoc. reflexivity.
Qed.
Lemma empty_columns_map : empty_columns = map (fun s => map (fun img => fval_of zsort img s) []) all_strategies.
Proof. reflexivity. Qed.
Lemma feature_table_rows imgs : Forall recognisable imgs ->
  (rows <- rows_alone zsort all_strategies imgs ;; Ok (add_rows empty_columns rows)) = Ok (feature_table zsort imgs).
Proof.
  intros H. rewrite (rows_alone_fvals imgs H). cbn [bind]. rewrite empty_columns_map, (add_rows_map all_strategies imgs []). reflexivity.
Qed.
Lemma feature_table_fits imgs : Forall recognisable imgs -> Z.of_nat (List.length imgs) < 18446744073709551616 ->
  DatasIoSpec.table (List.length imgs) all_strategies (feature_table zsort imgs).
Proof.
  intros H B. split; [exact B|]. unfold feature_table.
  assert (G : forall ss, incl ss all_strategies -> Forall2 (fun s c => List.length c = List.length imgs /\ Forall (value_of (st_algo s)) c) ss
    (map (fun s => map (fun img => fval_of zsort img s) imgs) ss)).
  { induction ss as [|s ss IH]; intros Hi; [constructor|]. cbn [map]. constructor; [|apply IH; intros x Hx; apply Hi; right; exact Hx].
    split; [apply map_length|]. apply Forall_forall. intros v Hv. apply in_map_iff in Hv. destruct Hv as (img & <- & Hin).
    rewrite Forall_forall in H. pose proof (H img Hin) as HR. destruct (rotate90_law img (proj1 HR)) as (r & Er & _).
    apply (fval_of_fits zsort Hz img r HR Er). apply Hi. left. reflexivity. }
  apply G. apply incl_refl.
Qed.
(** The file written for the glyphs, and what it holds. *)
Lemma write_datas_table junk cx gs : Forall storable gs -> Forall (fun g => recognisable (gl_img g)) gs -> Z.of_nat (List.length gs) < 18446744073709551616 ->
  write_datas_file junk zsort cx (write_glyphs gs) = Ok (Some (write_datas (feature_table zsort (map gl_img gs)))) /\
  load_file (read_datas all_strategies) (write_datas (feature_table zsort (map gl_img gs))) = Ok (feature_table zsort (map gl_img gs)).
Proof.
  intros Hs HR HB. assert (HR' : Forall recognisable (map gl_img gs)) by (apply Forall_map; exact HR). split.
  - rewrite write_datas_rows; [|exact Hs|].
    + pose proof (feature_table_rows (map gl_img gs) HR') as E. destruct (rows_alone zsort all_strategies (map gl_img gs)) as [rows| | |]; try discriminate.
      cbn [bind] in *. injection E as ->. reflexivity.
    + rewrite Forall_forall in *. intros g Hg. pose proof (HR g Hg) as H. destruct (rotate90_law _ (proj1 H)) as (r & Er & _).
      exact (proj1 (proj2 (recognisable_both _ _ H Er))).
  - apply (datas_file_round_trip (List.length (map gl_img gs)) all_strategies); [discriminate|]. apply feature_table_fits; [exact HR'|]. rewrite map_length. exact HB.
Qed.
Lemma feature_table_cell imgs s i img img90 : Forall recognisable imgs -> In s all_strategies -> nth_error imgs i = Some img -> rotate90 img = Ok img90 ->
  exists col v, In (s, col) (combine all_strategies (feature_table zsort imgs)) /\ nth_error col i = Some v /\ feature_alone zsort s img img90 = Ok v.
Proof.
  intros H Hs Hi E. rewrite Forall_forall in H. pose proof (H img (nth_error_In _ _ Hi)) as HR.
  exists (map (fun img => fval_of zsort img s) imgs), (fval_of zsort img s). split; [|split].
  - unfold feature_table. clear - Hs. induction all_strategies as [|a l IH]; [destruct Hs|]. cbn [map combine]. destruct Hs as [->|Hs]; [left; reflexivity|right; exact (IH Hs)].
  - rewrite nth_error_map, Hi. reflexivity.
  - apply fval_of_feature; assumption.
Qed.
End Table.
Lemma write_datas_features junk zsort cx gs : is_std_sort Z.ltb zsort -> Forall storable gs -> Forall (fun g => recognisable (gl_img g)) gs ->
  Z.of_nat (List.length gs) < 18446744073709551616 ->
  exists bytes cols, write_datas_file junk zsort cx (write_glyphs gs) = Ok (Some bytes) /\ load_file (read_datas all_strategies) bytes = Ok cols /\
    List.length cols = List.length all_strategies /\
    forall s col, In (s, col) (combine all_strategies cols) -> List.length col = List.length gs /\
      forall i g img90, nth_error gs i = Some g -> rotate90 (gl_img g) = Ok img90 ->
        exists v, nth_error col i = Some v /\ feature_alone zsort s (gl_img g) img90 = Ok v.
Proof.
  intros Hz Hs HR HB. destruct (write_datas_table zsort Hz junk cx gs Hs HR HB) as [A B].
  eexists. exists (feature_table zsort (map gl_img gs)). split; [exact A|]. split; [exact B|]. split; [apply map_length|].
  intros s col Hin.
  assert (G : In s all_strategies /\ col = map (fun img => fval_of zsort img s) (map gl_img gs)).
  { unfold feature_table in Hin. clear - Hin. revert Hin. induction all_strategies as [|a l IH]; [intros []|]. cbn [map combine].
    intros [E|H]; [injection E as -> <-; split; [left; reflexivity|reflexivity]|destruct (IH H) as [? ?]; split; [right; assumption|assumption]]. }
  destruct G as [Hs' ->]. split; [rewrite !map_length; reflexivity|]. intros i g img90 Hi E. exists (fval_of zsort (gl_img g) s).
  split; [rewrite !nth_error_map, Hi; reflexivity|]. apply fval_of_feature; try assumption.
  rewrite Forall_forall in HR. apply HR. apply nth_error_In with i. exact Hi.
Qed.
