(** Proofs about what extract_text6 and extract_text8 print: a picture. *)
From Verif Require Import Base BaseProofs SortModel ImageModel ImageSpec StratModel StratSpec ZoneModel DatasModel DatasSpec TrieModel UtilModel IndexModel FloatModel FloatSpec FloatProofs FloatProofs2
  FormatModel FormatSpec FormatProofs RecogModel RecogSpec RecogProofs Ocr6Model Ocr6Spec Ocr6Proofs Ocr6Proofs2 OcrProofs Ocr6Proofs3 Ocr6Proofs4 Ocr8Model Ocr8Spec Ocr8Proofs OcrOutModel OcrOutSpec.
From Coq Require Import Sorted SpecFloat QArith.
Local Open Scope Z_scope.

(** * The recognition without what it prints *)
Lemma decide_forget nan rt cols words by_word load ps :
  decide6 rt cols words by_word load ps = ('(f, _) <- decide_out nan rt cols words by_word load ps ;; Ok f).
Proof.
  unfold decide6, decide_out, rank_out. destruct (rank6 rt words ps) as [tmp| | |]; try reflexivity. cbn [bind]. destruct tmp as [|p tmp]; [reflexivity|].
  destruct (first_word6 words p) as [w| | |]; try reflexivity. cbn [bind]. destruct (dle d1 (pr_p p)); [reflexivity|].
  destruct (reduce_complex6 load cols complex_strategies ps) as [qs| | |]; try reflexivity. cbn [bind].
  destruct (reduce_exclusive6 load cols by_word qs) as [qs'| | |]; try reflexivity. cbn [bind].
  destruct (rank6 rt words qs') as [r| | |]; try reflexivity. cbn [bind]. destruct r as [|q r]; [reflexivity|].
  destruct (first_word6 words q) as [w2| | |]; reflexivity.
Qed.
Lemma recognise_forget6 nan e n im : recognise6 e n im = ('(f, _) <- recognise_out6 nan e n im ;; Ok f).
Proof.
  unfold recognise6, recognise_out6. destruct (rotate90 im) as [r| | |]; try reflexivity. cbn [bind]. cbv zeta. destruct (map_res _ _) as [vs| | |]; try reflexivity. cbn [bind].
  destruct (candidates6 _ _ _ _) as [ps| | |]; try reflexivity. cbn [bind]. apply decide_forget.
Qed.
Lemma recognise_forget8 nan e n im : recognise8 e n im = ('(f, _) <- recognise_out8 nan e n im ;; Ok f).
Proof.
  unfold recognise8, recognise_out8. destruct (rotate90 im) as [r| | |]; try reflexivity. cbn [bind]. cbv zeta.
  destruct (candidates8 _ _ _) as [ps| | |]; try reflexivity. cbn [bind]. apply decide_forget.
Qed.

(** * The list of the candidates *)
Lemma score_shown nan x : unit_double x -> score_text x (print_double nan x).
Proof.
  intros [->|(m & e & -> & (H1 & H2 & _) & H3 & _)].
  - left. split; reflexivity.
  - destruct (print_double_shown nan false m e H2 ltac:(lia)) as (t & -> & S). exact S.
Qed.
Lemma key_eq p q : unitp p -> unitp q -> key p = key q -> pr_p p = pr_p q.
Proof. intros Hp Hq E. now apply dkey_inj. Qed.
Lemma best_ok words p : unitp p -> forall ps prev, (forall q, In q ps -> unitp q) -> unitp prev -> pr_p prev = pr_p p -> StronglySorted (fun a b => key b <= key a) (prev :: ps) ->
  exists best rest, ps = best ++ rest /\ (forall q, In q best -> pr_p q = pr_p p) /\ (forall q, In q rest -> dlt (pr_p q) (pr_p p) = true) /\
    best_chars words prev ps = (flat_map (words_text words) best, rest).
Proof.
  intros Up. induction ps as [|q ps IH]; intros prev U Uv Ev So; [exists [], []; repeat split; intros ? []|].
  assert (Uq : unitp q) by (apply U; now left). apply StronglySorted_inv in So as (So & Fo). rewrite Forall_forall in Fo. cbn [best_chars]. destruct (dlt (pr_p q) (pr_p prev)) eqn:D.
  - exists [], (q :: ps). split; [reflexivity|]. split; [intros ? []|]. split; [|reflexivity]. rewrite Ev in D.
    intros r [<-|Hr]; [exact D|]. rewrite dlt_unit in * by (assumption || (apply U; now right)). apply StronglySorted_inv in So as (_ & F). rewrite Forall_forall in F. specialize (F r Hr). lia.
  - assert (Eq : pr_p q = pr_p p).
    { rewrite dlt_unit in D by assumption. pose proof (Fo q (or_introl eq_refl)). rewrite <- Ev. apply key_eq; [assumption..|lia]. }
    destruct (IH q ltac:(intros; apply U; now right) Uq Eq So) as (best & rest & -> & B1 & B2 & ->). exists (q :: best), rest. split; [reflexivity|]. split; [intros r [<-|Hr]; auto|]. split; [exact B2|reflexivity].
Qed.
Lemma rest_shown nan words rest : (forall q, In q rest -> unitp q) -> exists ts, Forall2 (fun q u => score_text (pr_p q) u) rest ts /\
  flat_map (fun q => escape "[00;31m" ++ chars_text words q ++ escape "[0m" ++ print_double nan (pr_p q) ++ str "  ") rest =
  flat_map (fun '(q, u) => red ++ words_text words q ++ plain ++ u ++ str "  ") (combine rest ts).
Proof.
  induction rest as [|q rest IH]; intros U; [exists []; split; [constructor|reflexivity]|]. destruct IH as (ts & F & E); [intros; apply U; now right|].
  exists (print_double nan (pr_p q) :: ts). split; [constructor; [apply score_shown, U; now left|exact F]|]. cbn [combine flat_map]. rewrite E. reflexivity.
Qed.
Lemma show_ok nan words rs : (forall q, In q rs -> unitp q) -> StronglySorted (fun a b => key b <= key a) rs ->
  match rs with [] => listing words [] [] (show_infos nan words []) | p :: _ =>
    exists best, listing words rs (p :: best) (show_infos nan words rs) /\ exists rest, rs = p :: best ++ rest /\
      (forall q, In q best -> pr_p q = pr_p p) /\ (forall q, In q rest -> dlt (pr_p q) (pr_p p) = true) end.
Proof.
  intros U So. destruct rs as [|p rs]; [constructor|]. assert (Up : unitp p) by (apply U; now left).
  destruct (best_ok words p Up rs p ltac:(intros; apply U; now right) Up eq_refl So) as (best & rest & -> & B1 & B2 & E). exists best. split; [|exists rest; auto].
  cbn [show_infos]. rewrite E. destruct (rest_shown nan words rest) as (ts & F & Et); [intros q Hq; apply U; right; apply in_app_iff; now right|].
  pose proof (listing_some words p best rest (print_double nan (pr_p p)) ts B1 B2 (score_shown nan _ Up) F) as L. rewrite <- Et in L.
  cbn [flat_map] in L. unfold blue, red, plain in L. unfold escape.
  replace (show_infos nan words (p :: best ++ rest)) with (show_infos nan words (p :: best ++ rest)) by reflexivity.
  change (chars_text words p) with (words_text words p).
  change (27 :: str "[0m)") with (([27] ++ str "[0m") ++ str ")"). change (27 :: str "[00;34mbest: ") with (([27] ++ str "[00;34m") ++ str "best: ").
  rewrite <- !app_assoc in L |- *. exact L.
Qed.

Lemma ranked_of words ps r : (forall p, In p ps -> unitp p) -> incl r ps -> NoDup (map (words_at words) r) ->
  (forall q, In q ps -> exists p, In p r /\ words_at words p = words_at words q /\ key q <= key p) -> StronglySorted (fun p q => key q <= key p) r -> ranked words ps r.
Proof.
  intros U I ND A So. constructor; [exact I|exact ND| |].
  - intros p Hp. destruct (A p Hp) as (q & Hq & E & K). exists q. split; [exact Hq|]. split; [exact E|]. rewrite dle_unit by auto. lia.
  - refine (sorted_mono _ _ _ _ So). intros a b Ha Hb H. rewrite dle_unit by auto. lia.
Qed.
Lemma take_best words keep p best rest : (forall q, In q (p :: best) -> keep q = true) -> (forall q, In q rest -> keep q = false) ->
  take_words keep words (p :: best ++ rest) = flat_map (fun q => labels6 words (pr_i q)) (p :: best).
Proof.
  intros H1 H2. change (p :: best ++ rest) with ((p :: best) ++ rest). revert H1. generalize (p :: best). intros l. induction l as [|q l IH]; intros H1.
  - cbn [app flat_map]. destruct rest as [|r rest]; [reflexivity|]. cbn [take_words]. now rewrite H2 by now left.
  - cbn [app take_words flat_map]. rewrite H1 by now left. rewrite IH by (intros; apply H1; now right). reflexivity.
Qed.

Section Decide.
Context (rt : runtime6) (cols : list (list fval)) (words : list (list (list Z))) (by_word : list (list Z)) (HE : base6 rt cols words by_word) (img img90 : image) (HR : recognisable img) (H90 : rotate90 img = Ok img90) (junk : Z -> Z).
Notation N := (Z.of_nat (List.length words)).
Notation zsort := (r6_zones rt).
Notation load := (load6 junk zsort img img90).
Lemma decide_out_ok nan ps f t : (forall p, In p ps -> unitp p /\ 0 <= pr_i p < N) ->
  decide_out nan rt cols words by_word load ps = Ok (f, t) -> explained zsort img cols words ps f t.
Proof.
  intros Hb. unfold decide_out, rank_out. destruct (rank6_ok words rt (b6_views _ _ _ _ HE words) (b6_probs _ _ _ _ HE) ps Hb) as (tmp & -> & R1 & R2 & R3 & R4). cbn [bind].
  assert (Ups : forall p, In p ps -> unitp p) by (intros p Hp; now apply Hb). pose proof (ranked_of words ps tmp Ups R1 R2 R3 R4) as Rk.
  pose proof (show_ok nan words tmp (fun q Hq => Ups q (R1 q Hq)) R4) as Sh. destruct tmp as [|p tmp'].
  { intros E. apply Ok_inj in E. injection E as <- <-. assert (Ep : ps = []) by (destruct ps as [|q ps']; [reflexivity|destruct (R3 q (or_introl eq_refl)) as (? & [] & _)]). now apply explained_none. }
  destruct Sh as (best & Li & rest & Es & B1 & B2). assert (Hp : In p ps) by (apply R1; now left). destruct (first_word_ok _ _ _ _ HE p (proj2 (Hb p Hp))) as (w & l & Ew & ->). cbn [bind].
  destruct (dle d1 (pr_p p)) eqn:Op.
  { intros E. apply Ok_inj in E. apply pair_equal_spec in E. destruct E as (<- & <-). rewrite Es in Rk, Li |- *. 
    rewrite (take_best words _ p best rest).
    - cbn [flat_map]. rewrite Ew. cbn [app]. eapply explained_sure; [exact Rk|exact Li|exact Op|]. cbn [flat_map]. now rewrite Ew.
    - intros q [<-|Hq]; [exact Op|]. rewrite (B1 q Hq). exact Op.
    - intros q Hq. specialize (B2 q Hq). assert (Uq : unitp q) by (apply Ups, R1; rewrite Es; right; apply in_app_iff; now right). rewrite dlt_unit in B2 by auto.
      destruct (dle d1 (pr_p q)) eqn:Oq; [|reflexivity]. rewrite dle_key in Oq by (exact unit_d1 || exact Uq). pose proof (dkey_le_1 (pr_p p) (Ups p Hp)). unfold key in B2. lia. }
  rewrite (reduce_complex6_ok _ _ _ _ HE img img90 HR H90 junk complex_strategies (fun s H => H) ps Hb). cbn [bind].
  change (fun p0 : prob => mkpr (pr_i p0) (fold_left (stepd rt cols img img90 junk (pr_i p0)) complex_strategies (pr_p p0))) with (fun p0 : prob => mkpr (pr_i p0) (final rt cols img img90 junk p0)).
  change (fun p0 : prob => forallb (fun s : strategy => 50 <=? pct6 rt cols img img90 junk s (pr_i p0)) complex_strategies) with (fun p0 => plausibleb6 rt cols img img90 junk (pr_i p0)).
  set (qs0 := map (fun p0 => mkpr (pr_i p0) (final rt cols img img90 junk p0)) (filter (fun p0 => plausibleb6 rt cols img img90 junk (pr_i p0)) ps)).
  assert (Hq0 : forall q, In q qs0 <-> exists p0, In p0 ps /\ plausible6 zsort img cols (pr_i p0) /\ q = mkpr (pr_i p0) (final rt cols img img90 junk p0)).
  { intros q. unfold qs0. rewrite in_map_iff. split.
    - intros (p0 & <- & H). apply filter_In in H as (H & P). exists p0. split; [exact H|]. split; [|reflexivity]. apply (plausible6_iff _ _ _ _ HE img img90 HR H90 junk); [now apply Hb|exact P].
    - intros (p0 & H & P & ->). exists p0. split; [reflexivity|]. apply filter_In. split; [exact H|]. apply (plausible6_iff _ _ _ _ HE img img90 HR H90 junk); [now apply Hb|exact P]. }
  assert (Hb0 : forall q, In q qs0 -> unitp q /\ 0 <= pr_i q < N).
  { intros q Hq. apply Hq0 in Hq as (p0 & H & _ & ->). destruct (Hb p0 H) as (Up & Ip). cbn [pr_i]. split; [|exact Ip]. now apply (final_unit _ _ _ _ HE img img90 HR H90 junk). }
  clearbody qs0. destruct (reduce_exclusive6_ok _ _ _ _ HE img img90 HR H90 junk qs0 (fun q Hq => proj2 (Hb0 q Hq))) as (Ex1 & _).
  destruct (reduce_exclusive6 load cols by_word qs0) as [qs| | |]; try discriminate. cbn [bind]. specialize (Ex1 qs eq_refl).
  assert (Hqs : reduced zsort img cols words ps qs).
  { intros q. rewrite Ex1, Hq0. unfold kept6. split.
    - intros ((p0 & H & P & ->) & S). exists p0. cbn [pr_i pr_p] in *. split; [exact H|]. split; [auto|]. split; [reflexivity|]. apply (final_iff _ _ _ _ HE img img90 HR H90 junk); [now apply Hb|reflexivity].
    - intros (p0 & H & (P & S) & Ei & F). rewrite (final_iff _ _ _ _ HE img img90 HR H90 junk) in F by (now apply Hb). split; [|now rewrite Ei]. exists p0. split; [exact H|]. split; [exact P|]. destruct q as [qi qp]. cbn [pr_i pr_p] in *. now subst. }
  assert (Hb2 : forall q, In q qs -> unitp q /\ 0 <= pr_i q < N) by (intros q Hq; apply Hb0; now apply Ex1).
  destruct (rank6_ok words rt (b6_views _ _ _ _ HE words) (b6_probs _ _ _ _ HE) _ Hb2) as (r & -> & T1 & T2 & T3 & T4). cbn [bind].
  assert (Uqs : forall q, In q qs -> unitp q) by (intros q Hq; now apply Hb2). pose proof (ranked_of words qs r Uqs T1 T2 T3 T4) as Rk2.
  pose proof (show_ok nan words r (fun q Hq => Uqs q (T1 q Hq)) T4) as Sh2. destruct r as [|q r'].
  - intros E. apply Ok_inj in E. apply pair_equal_spec in E. destruct E as (<- & <-).
    assert (Eq : qs = []) by (destruct qs as [|q qs']; [reflexivity|destruct (T3 q (or_introl eq_refl)) as (? & [] & _)]).
    exact (explained_lost zsort img cols words ps _ p best w l _ qs _ Rk Li Op Ew Hqs Eq Sh2).
  - destruct Sh2 as (best2 & Li2 & rest2 & Es2 & C1 & C2). assert (Hq : In q qs) by (apply T1; now left). destruct (first_word_ok _ _ _ _ HE q (proj2 (Hb2 q Hq))) as (w2 & l2 & Ew2 & ->). cbn [bind]. cbv zeta.
    intros E. apply Ok_inj in E. apply pair_equal_spec in E. destruct E as (<- & <-).
    assert (Et : take_words (fun q' => negb (dlt (pr_p q') (pr_p q))) words (q :: r') = w2 :: (l2 ++ flat_map (fun q0 => labels6 words (pr_i q0)) best2)).
    { rewrite Es2. rewrite (take_best words _ q best2 rest2).
      - cbn [flat_map]. now rewrite Ew2.
      - intros x Hx. assert (Ex : pr_p x = pr_p q) by (destruct Hx as [<-|Hx]; [reflexivity|now apply C1]). rewrite Ex. rewrite dlt_unit by auto. now rewrite Z.ltb_irrefl.
      - intros x Hx. now rewrite (C2 x Hx). }
    rewrite Et. refine (explained_reduced zsort img cols words ps _ p best w l _ qs (q :: r') q best2 w2 _ _ Rk Li Op Ew Hqs Rk2 Li2 _). cbn [flat_map]. now rewrite Ew2.
Qed.
End Decide.
