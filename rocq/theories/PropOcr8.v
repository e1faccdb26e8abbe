(** Properties C78 to C81: main/extract_text8.cpp. *)
From Verif Require Import Base BaseProofs SortModel SortProofs ImageModel ImageSpec PnmModel BoxModel BoxSpec StratModel ZoneModel DatasModel DatasSpec UtfSpec StreamModel
  GlyphIoModel GlyphIoSpec DatasIoModel DictIoModel TrieModel TrieSpec SpellModel SpellSpec IndexModel GlyphsModel FloatModel FloatSpec RecogModel RecogSpec
  RecogWitness ExtractModel ExtractSpec AssembleSpec LearnModel LearnSpec PipelineModel PipelineSpec PipelineProofs4 PropPipeline ReadSpec PropRead
  Ocr6Model Ocr6Spec OcrProofs Ocr6Proofs5 PropOcr6 Ocr8Model Ocr8Spec Ocr8Proofs Ocr8Proofs3 Ocr8Proofs4 Ocr8Outcome OcrOutcome OcrOutcome2.
From Coq Require Import Permutation.

(** What is left of a moved string: nothing. *)
Definition ex_rt8 : runtime8 := mkrt8 ex_rt6 (fun _ => []).
Definition read8_with (gs : list glyph) (img : image) : res (list Z * list Z * list Z) :=
  df <- features_of gs ;; extract_text8 ex_rt8 (write_glyphs gs) df (picture img) None.
Definition words8 (gs : list glyph) : res (list (list (list Z))) :=
  df <- features_of gs ;; '(_, e) <- load_all8 ex_rt8 (write_glyphs gs) df None ;; Ok (e8_words e).

(** C78, full statement: the glyphs that have the same features are merged: the words
    of one of them are those of all, the others are removed, and the other glyphs
    remain as they are.  Proved when all the glyphs have the same features: nothing is
    changed. *)
Theorem C78_alike_partial : forall rt, legal8 rt -> forall gs, trainable6 gs -> forall junk z, is_std_sort Z.ltb z -> forall cx0 datas,
  write_datas_file junk z cx0 (write_glyphs gs) = Ok (Some datas) -> forall ws dict, dict_file ws dict ->
  (forall g h, In g gs -> In h gs -> ~ differ_glyphs z g h) ->
  exists nodes e, load_all8 rt (write_glyphs gs) datas dict = Ok (nodes, e) /\ load_optional read_dict [] dict = Ok nodes /\ built8 z gs e /\ e8_rt e = r8_base rt.
Proof. exact load8_alike. Qed.
Print Assumptions C78_alike_partial.
(** It is the glyphs whose features are not those of the first that are taken for
    repetitions.  When there is one of them, or three or more, the program goes out of
    its buffers: so with all files with four different glyphs. *)
Theorem C78_merge_refuted : forall rt, legal8 rt -> forall gs, trainable6 gs -> forall junk z, is_std_sort Z.ltb z -> forall cx0 datas,
  write_datas_file junk z cx0 (write_glyphs gs) = Ok (Some datas) -> forall ws dict, dict_file ws dict -> 1 < Z.of_nat (List.length gs) ->
  (forall i ds, others8 z gs i ds -> (i < List.length gs)%nat -> List.length ds = 1%nat \/ (3 <= List.length ds)%nat) ->
  load_all8 rt (write_glyphs gs) datas dict = UB.
Proof. exact load8_UB. Qed.
Print Assumptions C78_merge_refuted.
Theorem C78_four_refuted : forall rt gs junk z cx0 datas ws dict bytes, legal8 rt -> trainable6 gs -> is_std_sort Z.ltb z ->
  write_datas_file junk z cx0 (write_glyphs gs) = Ok (Some datas) -> dict_file ws dict ->
  (exists a b c d, In a gs /\ In b gs /\ In c gs /\ In d gs /\ differ_glyphs z a b /\ differ_glyphs z a c /\ differ_glyphs z a d /\ differ_glyphs z b c /\ differ_glyphs z b d /\ differ_glyphs z c d) ->
  extract_text8 rt (write_glyphs gs) datas bytes dict = UB.
Proof. exact extract8_four. Qed.
Print Assumptions C78_four_refuted.
(** With two of them the program goes on, with wrong words: r, l and o are learnt, and
    o is read as l. *)
Theorem C78_two_refuted : (forall rt, legal8 rt -> forall gs, trainable6 gs -> forall junk z, is_std_sort Z.ltb z -> forall cx0 datas,
    write_datas_file junk z cx0 (write_glyphs gs) = Ok (Some datas) -> forall ws dict, dict_file ws dict -> 1 < Z.of_nat (List.length gs) ->
    (forall i ds, others8 z gs i ds -> (i < List.length gs)%nat -> List.length ds = 2%nat) ->
    exists nodes e, load_all8 rt (write_glyphs gs) datas dict = Ok (nodes, e) /\ sound_env8 e) /\
  trainable6 ex_rlo /\ words8 ex_rlo = Ok [[[]]; [[]; []]; [str "l"; str "o"; str "r"]] /\ read8_with ex_rlo ex_orl = Ok (str "l _ _ ", str "l _ _ ", str "l??").
Proof. split; [exact load8_two|]. split; [exact ex_trainable6|]. split; vm_compute; reflexivity. Qed.
Print Assumptions C78_two_refuted.
(** Exactly, for every glyph file: in the order of the first feature, the program counts
    the glyphs whose features are not those of the first.  With none or two it loads the
    tables, and each of these glyphs takes the words of the one before it.  With one, or
    three or more, it goes out of its buffers. *)
Theorem C78_outcome : forall rt, legal8 rt -> forall gs, trainable6 gs -> forall junk z, is_std_sort Z.ltb z -> forall cx0 datas,
  write_datas_file junk z cx0 (write_glyphs gs) = Ok (Some datas) -> forall ws dict, dict_file ws dict ->
  exists gs' ds, Permutation gs gs' /\ ordered8 z gs' /\ NoDup ds /\ (forall j, In j ds <-> other8 z gs' j) /\
  (((List.length ds = 0%nat \/ List.length ds = 2%nat) /\ exists nodes e, load_all8 rt (write_glyphs gs) datas dict = Ok (nodes, e) /\ load_optional read_dict [] dict = Ok nodes /\ sound_env8 e /\ joined_rows8 z gs' e) \/
   ((List.length ds = 1%nat \/ (3 <= List.length ds)%nat) /\ load_all8 rt (write_glyphs gs) datas dict = UB)).
Proof. exact load8_outcome. Qed.
Print Assumptions C78_outcome.
Definition ex_7 : image := rows 2 ["xx"; "-x"; "-x"]%string.
Definition ex_oo : list glyph := [g6 "o" ex_o; g6 "0" ex_o].
Lemma ex_trainable_oo : trainable6 ex_oo.
Proof.
  destruct ex_recognisable6 as (_ & _ & R3). split; [|vm_compute; reflexivity].
  intros g [<-|[<-|[]]]; (split; [|split; [assumption|discriminate]]); (eapply storable1; [vm_compute; reflexivity|lia|]); repeat split; vm_compute; congruence.
Qed.
Lemma ex_rlo7 : trainable6 (g6 "7" ex_7 :: ex_rlo).
Proof.
  split; [|vm_compute; reflexivity]. intros g [<-|Hg]; [|apply (proj1 ex_trainable6); exact Hg]. split; [|split; [repeat split; vm_compute; congruence|discriminate]].
  eapply storable1; [vm_compute; reflexivity|lia|]; repeat split; vm_compute; congruence.
Qed.
Lemma differ_at s a b g h : In s all_strategies -> (exists r, rotate90 (gl_img g) = Ok r /\ feature_alone (isort Z.ltb) s (gl_img g) r = Ok a) ->
  (exists r, rotate90 (gl_img h) = Ok r /\ feature_alone (isort Z.ltb) s (gl_img h) r = Ok b) -> a <> b -> differ_glyphs (isort Z.ltb) g h.
Proof. intros Hs Ha Hb Ne. exists s, a, b. auto. Qed.
Example C78_nonvacuous : legal8 ex_rt8 /\ trainable6 ex_oo /\ (forall g h, In g ex_oo -> In h ex_oo -> ~ differ_glyphs (isort Z.ltb) g h) /\ words8 ex_oo = Ok [[str "o"]; [str "0"]] /\
  trainable6 (g6 "7" ex_7 :: ex_rlo) /\ words8 (g6 "7" ex_7 :: ex_rlo) = UB /\
  differ_glyphs (isort Z.ltb) (g6 "7" ex_7) (g6 "r" ex_r) /\ differ_glyphs (isort Z.ltb) (g6 "7" ex_7) (g6 "l" ex_l) /\ differ_glyphs (isort Z.ltb) (g6 "7" ex_7) (g6 "o" ex_o) /\
  differ_glyphs (isort Z.ltb) (g6 "r" ex_r) (g6 "l" ex_l) /\ differ_glyphs (isort Z.ltb) (g6 "r" ex_r) (g6 "o" ex_o) /\ differ_glyphs (isort Z.ltb) (g6 "l" ex_l) (g6 "o" ex_o).
Proof.
  assert (Hd : forall g h, match rotate90 (gl_img g), rotate90 (gl_img h) with Ok r, Ok r' => match feature_alone (isort Z.ltb) (mkst Zone false) (gl_img g) r, feature_alone (isort Z.ltb) (mkst Zone false) (gl_img h) r' with Ok a, Ok b => fval_eqb a b | _, _ => true end | _, _ => true end = false -> differ_glyphs (isort Z.ltb) g h).
  { intros g h H. destruct (rotate90 (gl_img g)) as [r| | |] eqn:Er; try discriminate. destruct (rotate90 (gl_img h)) as [r'| | |] eqn:Er'; try discriminate.
    destruct (feature_alone _ _ (gl_img g) r) as [a| | |] eqn:Ea; try discriminate. destruct (feature_alone _ _ (gl_img h) r') as [b| | |] eqn:Eb; try discriminate.
    exists (mkst Zone false), a, b. split; [cbv; tauto|]. split; [exists r; auto|]. split; [exists r'; auto|]. intros Q. apply DatasProofs.fval_eqb_ok in Q. congruence. }
  split; [exact ex_legal6|]. split; [exact ex_trainable_oo|]. split.
  - intros g h Hg Hh (s & a & b & _ & (r & Er & Ea) & (r' & Er' & Eb) & Ne). apply Ne. assert (Gi : gl_img g = ex_o) by (destruct Hg as [<-|[<-|[]]]; reflexivity). assert (Hi : gl_img h = ex_o) by (destruct Hh as [<-|[<-|[]]]; reflexivity).
    rewrite Gi in *. rewrite Hi in *. assert (r' = r) by congruence. subst r'. congruence.
  - split; [vm_compute; reflexivity|]. split; [exact ex_rlo7|]. split; [vm_compute; reflexivity|]. repeat split; apply Hd; vm_compute; reflexivity.
Qed.

(** C79: the candidates for a picture are exactly the rows whose simple features are
    all at a tenth of their range at most from those of the picture, in the order of
    the rows.  Their score is the product of the similarities of the features; it is
    between 0 and 1, and it is 1 if and only if the features are the same. *)
Theorem C79_candidates : forall rt cols words by_word img img90 junk, base6 rt cols words by_word -> recognisable img -> rotate90 img = Ok img90 ->
  exists value ps, (forall s, In s simple_strategies -> seen6 (r6_zones rt) img s (VNum (value s))) /\
    candidates8 (vsize words) cols (load6 junk (r6_zones rt) img img90) = Ok ps /\ found8 cols (Z.of_nat (List.length words)) value ps /\
    forall p, In p ps -> unit_double (pr_p p) /\ (dle d1 (pr_p p) = true <-> row_of cols (pr_i p) value).
Proof. exact candidates8_exact. Qed.
Print Assumptions C79_candidates.

(** C80, full statement: every picture is recognised as specified from these
    candidates.  Proved when the zone proportions can be compared, or a row has the
    simple features of the picture: the words of that row are then among those given.
    The result is always as specified. *)
Theorem C80_outcome_partial : forall e n img, sound_env8 e -> recognisable img ->
  (forall f, recognise8 e n img = Ok f -> outcome8 (r6_zones (e8_rt e)) img (e8_cols e) (e8_words e) f) /\
  (comparable6 (r6_zones (e8_rt e)) img (e8_cols e) \/ (exists i, identical8 (r6_zones (e8_rt e)) img (e8_cols e) (Z.of_nat (List.length (e8_words e))) i) ->
     exists f, recognise8 e n img = Ok f).
Proof. exact recognise8_exact. Qed.
Print Assumptions C80_outcome_partial.
(** Exactly: there is no result when no candidate has the score 1, and for one that
    resembles the picture, a comparison with another row of its word divides by zero
    before one succeeds. *)
Theorem C80_exact : forall e n img, sound_env8 e -> recognisable img ->
  (undefined8 (r6_zones (e8_rt e)) img (e8_cols e) (e8_words e) /\ recognise8 e n img = UB) \/
  (~ undefined8 (r6_zones (e8_rt e)) img (e8_cols e) (e8_words e) /\
   exists f, recognise8 e n img = Ok f /\ outcome8 (r6_zones (e8_rt e)) img (e8_cols e) (e8_words e) f).
Proof. exact recognise8_outcome. Qed.
Print Assumptions C80_exact.
Theorem C80_identical : forall rt cols words by_word img f i, base6 rt cols words by_word -> recognisable img -> outcome8 (r6_zones rt) img cols words f ->
  identical8 (r6_zones rt) img cols (Z.of_nat (List.length words)) i -> f6_amb f = f6_words f /\ incl (labels6 words i) (f6_words f).
Proof. exact outcome8_identical. Qed.
Print Assumptions C80_identical.

(** A table with the features of one picture, as the program computes them, and the
    first feature changed. *)
Definition ex_one_row (im : image) (d : Z) : list (list fval) := map (fun s => [ex_row im d s]) all_strategies.
Definition ex_rows8 (ds : list Z) : list (list fval) := map (fun s => map (fun d => ex_row ex_i d s) ds) all_strategies.
Definition ex_env8 (ds : list Z) (ws : list (list (list Z))) (bw : list (list Z)) : env8 := mkenv8 ex_rt6 (ex_rows8 ds) ws bw.
Lemma ex_sound8 ds ws bw : List.length ws = List.length ds -> Z.of_nat (List.length ds) < 1000 -> (forall d, In d ds -> 0 <= d <= 100) -> (forall g, In g ws -> g <> []) -> data_by_word ws = Ok bw -> sound_env8 (ex_env8 ds ws bw).
Proof.
  intros L Hn Hd Hw Eb.
  assert (R : forall s c, In (s, c) (combine all_strategies (ex_rows8 ds)) -> In s all_strategies /\ c = map (fun d => ex_row ex_i d s) ds).
  { unfold ex_rows8. generalize all_strategies. intros ss. induction ss as [|t ss IH]; intros s c H; [destruct H|]. cbn [map combine] in H. destruct H as [H|H]; [injection H as <- <-; split; [now left|reflexivity]|]. destruct (IH s c H). split; [now right|assumption]. }
  unfold sound_env8, ex_env8. cbn [e8_rt e8_cols e8_words e8_by_word]. constructor; [reflexivity| |lia|exact Hw|exact Eb|intros; apply isort_is_sort|apply isort_is_sort|apply isort_is_sort].
  intros s c Hc. destruct (R _ _ Hc) as (Hs & ->). rewrite map_length. split; [lia|]. intros v Hv. apply in_map_iff in Hv as (d & <- & Id). specialize (Hd d Id).
  clear - Hs Hd. unfold ex_row. destruct (rotate90 ex_i) as [r| | |] eqn:Er; [|vm_compute in Er; discriminate..]. vm_compute in Er. injection Er as <-.
  vm_compute in Hs. repeat (destruct Hs as [<-|Hs]; [match goal with |- context [feature_alone ?a ?b ?c ?e] => let x := eval vm_compute in (feature_alone a b c e) in replace (feature_alone a b c e) with x by (vm_compute; reflexivity) end;
    unfold typed; cbn [st_algo]; eexists; try (split; [reflexivity|match goal with |- context [strategy_eqb ?a ?b] => let x := eval vm_compute in (strategy_eqb a b) in change (strategy_eqb a b) with x end; cbv iota; lia]); try (split; reflexivity); reflexivity|]). destruct Hs.
Qed.
(** With two rows of the same word near the picture, the comparison of the zone
    proportions divides by zero. *)
Theorem C80_division_refuted : exists e, sound_env8 e /\ recognisable ex_i /\ recognise8 e 0 ex_i = UB.
Proof.
  exists (ex_env8 [10; 10] [[str "l"]; [str "l"]] [[1]; [0]]). split; [|split; [repeat split; vm_compute; congruence|vm_compute; reflexivity]].
  apply ex_sound8; [reflexivity|reflexivity| |intros g [<-|[<-|[]]]; discriminate|vm_compute; reflexivity]. intros d [<-|[<-|[]]]; lia.
Qed.
Print Assumptions C80_division_refuted.
Example C80_exact_nonvacuous : exists e, sound_env8 e /\ recognisable ex_i /\ undefined8 (r6_zones (e8_rt e)) ex_i (e8_cols e) (e8_words e).
Proof.
  destruct C80_division_refuted as (e & HE & HR & E). exists e. split; [exact HE|]. split; [exact HR|].
  destruct (C80_exact e 0 ex_i HE HR) as [(U & _)|(_ & f & Ef & _)]; [exact U|]. rewrite E in Ef. discriminate.
Qed.
Definition ex_ws8 : list (list (list Z)) := [[str "i"]; [str "j"]; [str "k"]; [str "l"]].
Definition ex_candidates8 : res (list Z * bool * bool) :=
  r <- rotate90 ex_i ;; ps <- candidates8 4 (ex_rows8 [30; 20; 10; 0]) (load6 (fun _ => 7) (isort Z.ltb) ex_i r) ;;
  match ps with [p; q; s] => Ok (map pr_i ps, dle (pr_p q) (pr_p p), dle d1 (pr_p s)) | _ => Throw ExBadData end.
Example C79_nonvacuous : base6 ex_rt6 (ex_rows8 [30; 20; 10; 0]) ex_ws8 [[]; []; []; []] /\ recognisable ex_i /\ ex_candidates8 = Ok ([1; 2; 3], false, true).
Proof.
  split; [|split; [repeat split; vm_compute; congruence|vm_compute; reflexivity]]. apply (ex_sound8 [30; 20; 10; 0] ex_ws8); [reflexivity|reflexivity| |intros g [<-|[<-|[<-|[<-|[]]]]]; discriminate|vm_compute; reflexivity].
  intros d [<-|[<-|[<-|[<-|[]]]]]; lia.
Qed.
Example C80_nonvacuous : sound_env8 (ex_env8 [10; 0] [[str "a"]; [str "b"; str "c"]] [[]; []]) /\ recognisable ex_i /\
  identical8 (isort Z.ltb) ex_i (ex_rows8 [10; 0]) 2 1 /\ recognise8 (ex_env8 [10; 0] [[str "a"]; [str "b"; str "c"]] [[]; []]) 0 ex_i = Ok (mkf6 (str "b") (str "b") [str "b"; str "c"] (str "b") [str "b"; str "c"]).
Proof.
  split; [|split; [repeat split; vm_compute; congruence|split; [|vm_compute; reflexivity]]].
  - apply ex_sound8; [reflexivity|reflexivity| |intros g [<-|[<-|[]]]; discriminate|vm_compute; reflexivity]. intros d [<-|[<-|[]]]; lia.
  - split; [lia|]. intros s v Hs (_ & c & Hc & E).
    assert (Ec : c = map (fun d => ex_row ex_i d s) [10; 0]).
    { revert Hc. unfold ex_rows8. generalize all_strategies. intros ss. induction ss as [|t ss IH]; intros H; [destruct H|]. cbn [map combine] in H. destruct H as [H|H]; [injection H as -> <-; reflexivity|auto]. }
    rewrite Ec, nth_error_map in E. change (nth_error [10; 0] (Z.to_nat 1)) with (Some 0) in E. cbn [option_map] in E.
    assert (Q : forall a b : fval, Some a = Some b -> a = b) by (clear; intros a b Q; congruence). apply Q in E. subst v. destruct (rotate90 ex_i) as [r| | |] eqn:Er; [|vm_compute in Er; discriminate..]. exists r. split; [exact Er|]. unfold ex_row. rewrite Er. vm_compute in Er. injection Er as <-.
    clear - Hs. vm_compute in Hs. repeat (destruct Hs as [<-|Hs]; [vm_compute; reflexivity|]). destruct Hs.
Qed.

(** C81, full statement: with every glyph file and the features written from it, the
    program ends on every image, and the words it gives to a picture are words of
    glyphs near it, among them those of the glyphs with the same features.  Proved when
    the glyphs have the same features, and the pictures can be compared with them or
    have these features. *)
Theorem C81_read_partial : forall rt gs junk z cx0 datas bytes img boxes dict spell, legal8 rt -> trainable6 gs -> is_std_sort Z.ltb z ->
  write_datas_file junk z cx0 (write_glyphs gs) = Ok (Some datas) -> (forall g h, In g gs -> In h gs -> ~ differ_glyphs z g h) ->
  image_of_bytes bytes 128 = Ok img -> box_searchable img -> segment img = Ok boxes ->
  Forall (readable8 z gs img) boxes -> dict_spell (labels gs) dict spell ->
  exists e fs amb, built8 z gs e /\ line6 (recognise8 e) img 0 [] boxes fs amb /\
    Forall2 (fun b f => forall im, char_image img b im -> named8 z gs im (f6_words f) /\ complete8 z gs im (f6_words f)) boxes fs /\
    extract_text8 rt (write_glyphs gs) datas bytes dict = Ok (spaced f6_r1 fs, spaced f6_r2 fs, text6 spell amb).
Proof. exact read8. Qed.
Print Assumptions C81_read_partial.
(** Whenever the tables are built, the text is that of the recognition with these
    tables. *)
Theorem C81_loaded_partial : forall rt gs junk z cx0 datas bytes img boxes nodes e, legal8 rt -> trainable6 gs -> is_std_sort Z.ltb z ->
  write_datas_file junk z cx0 (write_glyphs gs) = Ok (Some datas) -> load_all8 rt (write_glyphs gs) datas None = Ok (nodes, e) ->
  image_of_bytes bytes 128 = Ok img -> box_searchable img -> segment img = Ok boxes -> Forall (small_character img) boxes ->
  (Forall (can_read6 (recognise8 e) img) boxes -> exists out, extract_text8 rt (write_glyphs gs) datas bytes None = Ok out) /\
  forall out, extract_text8 rt (write_glyphs gs) datas bytes None = Ok out ->
    exists fs amb, line6 (recognise8 e) img 0 [] boxes fs amb /\
      Forall2 (fun b f => forall im, char_image img b im -> outcome8 (r6_zones (e8_rt e)) im (e8_cols e) (e8_words e) f) boxes fs /\
      out = (spaced f6_r1 fs, spaced f6_r2 fs, text6 (fun _ => None) amb).
Proof. exact read8_any. Qed.
Print Assumptions C81_loaded_partial.
(** Exactly: it has a result unless the recognition of a picture divides by zero. *)
Theorem C81_exact : forall rt gs junk z cx0 datas bytes img boxes nodes e, legal8 rt -> trainable6 gs -> is_std_sort Z.ltb z ->
  write_datas_file junk z cx0 (write_glyphs gs) = Ok (Some datas) -> load_all8 rt (write_glyphs gs) datas None = Ok (nodes, e) ->
  image_of_bytes bytes 128 = Ok img -> box_searchable img -> segment img = Ok boxes -> Forall (small_character img) boxes ->
  let bad im := undefined8 (r6_zones (e8_rt e)) im (e8_cols e) (e8_words e) in
  ((exists b im, In b boxes /\ char_image img b im /\ bad im) /\ extract_text8 rt (write_glyphs gs) datas bytes None = UB) \/
  (~ (exists b im, In b boxes /\ char_image img b im /\ bad im) /\
   exists fs amb, line6 (recognise8 e) img 0 [] boxes fs amb /\
     Forall2 (fun b f => forall im, char_image img b im -> outcome8 (r6_zones (e8_rt e)) im (e8_cols e) (e8_words e) f) boxes fs /\
     extract_text8 rt (write_glyphs gs) datas bytes None = Ok (spaced f6_r1 fs, spaced f6_r2 fs, text6 (fun _ => None) amb)).
Proof. exact read8_outcome. Qed.
Print Assumptions C81_exact.
Lemma ex_comparable8 im : im = ex_r \/ im = ex_l -> comparable_glyphs (isort Z.ltb) ex_oo im.
Proof.
  intros H g a b Hg Sa Tb. apply (ex_comparable im H (g6 "o" ex_o) a b (or_intror (or_intror (or_introl eq_refl))) Sa). destruct Hg as [<-|[<-|[]]]; exact Tb.
Qed.
Lemma ex_same8 : same8 (isort Z.ltb) ex_o (g6 "o" ex_o).
Proof.
  intros s v Hs (r & Er & Ev). exists r. split; [exact Er|]. cbn [g6 gl_img] in *. rewrite <- Ev. vm_compute in Er. injection Er as <-. clear - Hs.
  vm_compute in Hs. repeat (destruct Hs as [<-|Hs]; [vm_compute; reflexivity|]). destruct Hs.
Qed.
Example C81_nonvacuous : legal8 ex_rt8 /\ trainable6 ex_oo /\ image_of_bytes (picture ex_orl) 128 = Ok ex_orl /\ box_searchable ex_orl /\ segment ex_orl = Ok ex_orl_boxes /\
  Forall (readable8 (isort Z.ltb) ex_oo ex_orl) ex_orl_boxes /\ dict_spell (labels ex_oo) None (fun _ => None) /\
  read8_with ex_oo ex_orl = Ok (str "0 _ _ ", str "0 _ _ ", str "0??").
Proof.
  split; [exact ex_legal6|]. split; [exact ex_trainable_oo|]. split; [vm_compute; reflexivity|]. split; [repeat split; vm_compute; congruence|]. split; [vm_compute; reflexivity|].
  split; [|split; [left; split; reflexivity|vm_compute; reflexivity]]. destruct ex_recognisable6 as (R1 & R2 & R3).
  apply Forall_forall. intros b Hb im Him. destruct (ex_orl_pictures b im Hb Him) as [->|[->| ->]]; (split; [assumption|]).
  - right. exists (g6 "o" ex_o). split; [left; reflexivity|exact ex_same8].
  - left. apply ex_comparable8. now left.
  - left. apply ex_comparable8. now right.
Qed.
