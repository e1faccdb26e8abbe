(** Proofs about what extract_text6 and extract_text8 print: a picture and the line. *)
From Verif Require Import Base BaseProofs SortModel ImageModel ImageSpec ImageProofs BoxModel BoxSpec BoxProofs StratModel StratSpec ZoneModel DatasModel DatasSpec DatasProofs TrieModel UtilModel IndexModel FloatModel FloatSpec FloatProofs FloatProofs2
  RecogModel RecogSpec RecogProofs RecogProofs2 ExtractModel ExtractSpec ExtractProofs Ocr6Model Ocr6Spec Ocr6Proofs Ocr6Proofs2 OcrProofs Ocr6Proofs3 Ocr6Proofs4 Ocr8Model Ocr8Spec Ocr8Proofs
  ShowModel ShowSpec ShowProofs PrintSpec PrintProofs OcrOutModel OcrOutSpec OcrOutProofs.

(** * A picture *)
Lemma recognise_text6 nan e n img f t : sound_env6 e -> recognisable img -> recognise_out6 nan e n img = Ok (f, t) -> explained6 e img f t.
Proof.
  intros HE HR. destruct (recognisable_turn img HR) as (img90 & H90). pose proof (sound_base e HE) as HB. set (rt := e6_rt e) in *. set (cols := e6_cols e) in *. set (words := e6_words e) in *.
  set (N := Z.of_nat (List.length words)) in *. set (junk := r6_junk rt n). set (value := value rt img img90 junk).
  unfold recognise_out6. rewrite H90. cbn [bind]. cbv zeta. fold rt cols words junk.
  destruct (load_algos _ _ _ _ HB img img90 HR H90 junk) as (vs & -> & Evs). cbn [bind]. rewrite Evs. fold value. unfold vsize. fold N.
  destruct (search6_exact cols N (se_table e HE)) as (sd & E & H). pose proof (se_search e HE) as E2. fold cols in E2. rewrite E2 in E. injection E as <-.
  destruct (H value (value_range _ _ _ _ HB img img90 HR H90 junk)) as (ps & -> & So & Mem & Sc). clear H. cbn [bind].
  assert (Hb : forall p, In p ps -> unitp p /\ 0 <= pr_i p < N).
  { intros p Hp. assert (Hc : close6 cols N value (pr_i p)) by (apply Mem; now apply in_map).
    destruct (simple_val cols N (se_table e HE) first_feature (pr_i p) first_simple (proj1 Hc)) as (_ & C & U & _). split; [|apply Hc]. unfold unitp. rewrite (Sc p Hp _ C). destruct (_ =? _); [apply unit_d1|now left]. }
  intros D. exists value, ps. split; [|split; [split; [exact So|]; split; [exact Mem|exact Sc]|]].
  - intros s Hs. apply (seen_sv _ _ _ _ HB img img90 HR H90 junk); [now apply simple_in_all|]. symmetry. now apply (simple_sv _ _ _ _ HB img img90 HR H90 junk).
  - exact (decide_out_ok _ _ _ _ HB img img90 HR H90 junk nan ps f t Hb D).
Qed.
Lemma recognise_text8 nan e n img f t : sound_env8 e -> recognisable img -> recognise_out8 nan e n img = Ok (f, t) -> explained8 e img f t.
Proof.
  intros HE HR. unfold sound_env8 in HE. destruct (recognisable_turn img HR) as (img90 & H90). unfold recognise_out8. rewrite H90. cbn [bind]. cbv zeta. set (junk := r6_junk (e8_rt e) n).
  rewrite (candidates8_ok _ _ _ _ HE img img90 HR H90 junk). cbn [bind].
  pose proof (cands_found _ _ _ _ HE img img90 junk) as Fd. pose proof (cands_unit (e8_rt e) (e8_cols e) (e8_words e) img img90 junk) as Un.
  intros D. exists (value (e8_rt e) img img90 junk), (cands (e8_rt e) (e8_cols e) (e8_words e) img img90 junk). split; [intros s Hs; now apply (seen_value _ _ _ _ HE img img90 HR H90)|]. split; [exact Fd|].
  exact (decide_out_ok _ _ _ _ HE img img90 HR H90 junk nan _ f t Un D).
Qed.

(** * The line *)
Lemma framed_snoc ims ts im t : List.length ims = List.length ts -> framed_texts (ims ++ [im]) (ts ++ [t]) = framed_texts ims ts ++ framed im ++ t.
Proof.
  unfold framed_texts. revert ts. induction ims as [|i ims IH]; intros [|u ts] H; cbn in H; try lia; cbn [app combine flat_map].
  - now rewrite app_nil_r.
  - rewrite IH by lia. now rewrite !app_assoc.
Qed.
Section Line.
Context (rec : Z -> image -> res found6) (HA : steady rec) (reco : Z -> image -> res (found6 * list Z)) (Hrec : forall n im, rec n im = ('(f, _) <- reco n im ;; Ok f))
  (text : image -> found6 -> list Z -> Prop) (Htext : forall n im f t, recognisable im -> reco n im = Ok (f, t) -> text im f t) (img : image) (Hs : box_searchable img).
Definition out_ok (before : list image) (done : list box) (out : list Z) : Prop :=
  exists pics ims ts, (forall k, In k before <-> In k pics) /\ Forall2 (char_image img) done pics /\ first_seen pics ims /\
    Forall2 (fun im t => exists f, recognised6 rec im f /\ text im f t) ims ts /\ out = framed_texts ims ts.
Lemma step_out_forget s b out : (forall im, section img (bx b) (by_ b) (bw b) (bh b) = Ok im -> exists t, show_image im = Ok t) ->
  step6 rec img s b = ('(s', _) <- step_out reco img s out b ;; Ok s').
Proof.
  intros Hsh. unfold step6, step_out. destruct (section _ _ _ _ _) as [im| | |] eqn:Es; try reflexivity. cbn [bind]. cbv zeta. destruct (cache_find _ _) as [o| | |]; try reflexivity. cbn [bind].
  destruct o as [r|].
  - destruct (rd (q_store s) r) as [(w, l)| | |]; try reflexivity. cbn [bind]. destruct (rd l 0); reflexivity.
  - destruct (Hsh im eq_refl) as (t & ->). cbn [bind]. rewrite Hrec. destruct (reco _ _) as [(f, u)| | |]; try reflexivity. cbn [bind]. destruct (cache_emplace _ _ _); reflexivity.
Qed.
Lemma step_out_ok s before done out x b s' out' : good6 rec before s -> out_ok before done out -> tight_box img x b -> 0 <= x -> small_character img b ->
  step_out reco img s out b = Ok (s', out') -> forall im, char_image img b im -> out_ok (im :: before) (done ++ [b]) out'.
Proof.
  intros (GC & GK & GB) (pics & ims & ts & I1 & FB & FS & FT & ->) T Hx SM E im0 Ci0. destruct (char_section img Hs x b T Hx) as (im & Es & Ci).
  assert (Ei : im0 = im) by (eapply char_image_unique; eassumption). subst im0. clear Ci0.
  unfold step_out in E. rewrite Es in E. cbn [bind] in E. cbv zeta in E. pose proof Ci as (Wi & _). pose proof (SM im Ci) as R.
  assert (SI : show_image im = Ok (framed im)).
  { apply show_image_ok; [exact Wi|]. unfold recognisable in R. destruct R as (_ & R1 & R2 & _ & R4). nia. }
  destruct (cache_find_spec im Wi (q_cache s) GC) as (o & Eo & Ho). rewrite Eo in E. cbn [bind] in E. destruct o as [r|].
  - destruct (rd (q_store s) r) as [(w, l)| | |]; try discriminate E. cbn [bind] in E. destruct (rd l 0); try discriminate E. cbn [bind] in E. injection E as _ <-.
    assert (B : In im before) by (apply GB; eauto). exists (pics ++ [im]), ims, ts. split; [|split; [now apply Forall2_snoc|split; [|auto]]].
    + intros k. rewrite in_app_iff. cbn [In]. rewrite <- (I1 k). tauto.
    + apply seen_again; [exact FS|]. now apply I1.
  - rewrite SI in E. cbn [bind] in E. destruct (reco _ im) as [(f, u)| | |] eqn:Er; try discriminate E. cbn [bind] in E. destruct (cache_emplace _ _ _); try discriminate E. cbn [bind] in E. injection E as _ <-.
    assert (NB : ~ In im before) by (intros Hi; apply GB in Hi; destruct Hi as (r & Hr); exact (Ho _ Hr eq_refl)).
    exists (pics ++ [im]), (ims ++ [im]), (ts ++ [u]). split; [|split; [now apply Forall2_snoc|split; [|split]]].
    + intros k. rewrite in_app_iff. cbn [In]. rewrite <- (I1 k). tauto.
    + apply seen_new; [exact FS|]. now rewrite <- I1.
    + apply Forall2_snoc; [exact FT|]. exists f. split; [|exact (Htext _ _ _ _ R Er)]. apply (recognised6_of rec (vsize (q_store s)) im f HA R). rewrite Hrec, Er. reflexivity.
    + now rewrite framed_snoc by exact (F2_length _ _ _ FT).
Qed.
Definition body_out (p : state6 * list Z) : res (state6 * list Z + state6 * list Z) :=
  let '(s, out) := p in
  cbox <- make_box_character img (q_x s) 0 (iw img) (ih img) ;;
  if box_bool cbox then so <- step_out reco img s out cbox ;; Ok (inl so) else Ok (inr (s, out)).
Lemma loop_out x boxes : scan img x boxes -> forall fuel before done s out, good6 rec before s -> out_ok before done out -> q_x s = x -> 0 <= x -> iw img - x < Z.of_nat fuel -> x <= iw img -> iw img < 2147483648 ->
  Forall (small_character img) boxes ->
  loop fuel (body6 rec img) s = ('(s', _) <- loop fuel body_out (s, out) ;; Ok s') /\
  (forall s' out', loop fuel body_out (s, out) = Ok (s', out') -> exists before', out_ok before' (done ++ boxes) out').
Proof.
  intros Sc. induction Sc as [x b Eb B0|x b rest Eb B1 T H0 H1 H2 H3 Sc IH]; intros fuel before done s out G O <- Hx Hf Hxw HW Sm; (destruct fuel as [|fuel]; [lia|]); cbn [loop]; unfold body6 at 1, body_out at 1 3; rewrite Eb; cbn [bind].
  - rewrite B0. cbn [bind]. split; [reflexivity|]. intros s' out' [= <- <-]. rewrite app_nil_r. eauto.
  - rewrite B1. inversion Sm as [|? ? S1 S2]; subst.
    destruct (char_section img Hs (q_x s) b T Hx) as (im0 & Es0 & Ci0).
    rewrite (step_out_forget s b out).
    2:{ intros im Es. assert (im = im0) by congruence. subst im. exists (framed im0). pose proof Ci0 as (Wi & _). pose proof (S1 im0 Ci0) as R.
      apply show_image_ok; [exact Wi|]. unfold recognisable in R. destruct R as (_ & R1 & R2 & _ & R4). nia. }
    destruct (step_out reco img s out b) as [(s1, o1)| | |] eqn:E1; cbn [bind]; try (split; [reflexivity|discriminate]).
    destruct (step6_ok rec HA img Hs s before (q_x s) b G eq_refl ltac:(lia) T Hx H2 H3 HW S1) as (_ & C2).
    assert (Es : step6 rec img s b = Ok s1).
    { rewrite (step_out_forget s b out), E1; [reflexivity|]. intros im Es. assert (im = im0) by congruence. subst im. exists (framed im0). pose proof Ci0 as (Wi & _). pose proof (S1 im0 Ci0) as R.
      apply show_image_ok; [exact Wi|]. unfold recognisable in R. destruct R as (_ & R1 & R2 & _ & R4). nia. }
    destruct (C2 s1 Es) as (im & f & l & Ci & _ & _ & (X1 & _) & G1).
    pose proof (step_out_ok s before done out (q_x s) b s1 o1 G O T Hx S1 E1 im Ci) as O1.
    specialize (IH fuel (im :: before) (done ++ [b]) s1 o1 G1 O1 X1 ltac:(lia) ltac:(lia) ltac:(lia) HW S2). rewrite <- app_assoc in IH. exact IH.
Qed.
Theorem read_line_out_ok boxes : segment img = Ok boxes -> Forall (small_character img) boxes ->
  read_line6 rec img = ('(s, _) <- read_line_out reco img ;; Ok s) /\
  (forall s out, read_line_out reco img = Ok (s, out) -> printed_with rec text img boxes out).
Proof.
  intros E Sm. pose proof (scan_segment img boxes Hs E) as Sc. pose proof Hs as (_ & Hw & _).
  assert (HW2 : iw img < 2147483648) by (destruct Hs as (_ & ? & ? & ?); nia).
  assert (G0 : good6 rec [] (mkst6 0 [] [] [] [] [])).
  { split; [split; [constructor|intros p []]|]. split; [intros k r []|]. intros k. split; [intros []|intros (r & [])]. }
  assert (O0 : out_ok [] [] []).
  { exists [], [], []. split; [tauto|]. split; [constructor|]. split; [constructor|]. split; [constructor|reflexivity]. }
  destruct (loop_out 0 boxes Sc (S (Z.to_nat (iw img))) [] [] _ [] G0 O0 eq_refl ltac:(lia) ltac:(lia) ltac:(lia) HW2 Sm) as (L1 & L2). split; [exact L1|].
  intros s out Es. destruct (L2 s out Es) as (before' & pics & ims & ts & _ & H). exists pics, ims, ts. exact H.
Qed.
End Line.
