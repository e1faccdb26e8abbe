(** Concrete tables and images for the recogniser. *)
From Verif Require Import Base BaseProofs SortModel SortProofs ImageModel ImageSpec StratModel ZoneModel DatasModel
  IndexModel IndexSpec FloatModel RecogModel RecogSpec RecogProofs.

Definition new_ctxs : ctxs := mkctxs (fun _ _ => (false, mktb 0 0)) (fun _ => (false, new_zone_ctx)).
(** The table of a list of images, as main/write_datas.cpp and
    main/ocr2_extract_text.cpp build it. *)
Definition build (imgs : list image) (glyphs : list (list oview)) : table :=
  let cols := match datas_load_all (fun _ => 0) (isort Z.ltb) all_strategies
                      (mkdatas (repeat [] (List.length all_strategies)) new_ctxs) imgs with
              | Ok d => d_cols d | _ => [] end in
  let c0 := nums_of (nth 0 cols []) in
  mktable all_strategies cols (indexes_ordered (isort (index_lt c0)) c0)
    (match indexes_by_words glyphs with Ok l => l | _ => [] end) glyphs
    (views_indexes_ordered (isort (ref_lt glyphs)) glyphs).

Definition typedb (s : strategy) (v : fval) : bool :=
  match st_algo s, v with
  | Alternations, VAlts l => Nat.eqb (List.length l) 7
  | Zone, VArr l => Nat.eqb (List.length l) 7
  | ProportionalityZone, VVec l => true
  | Alternations, _ | Zone, _ | ProportionalityZone, _ => false
  | _, VNum n => (0 <=? n) && (n <? 4294967296)
  | _, _ => false
  end.
Lemma typedb_ok s v : typedb s v = true -> typed s v.
Proof.
  unfold typedb, typed. destruct (st_algo s), v; try discriminate; intros H;
    try (eexists; split; [reflexivity|]; (lia || now apply Nat.eqb_eq)); eexists; reflexivity.
Qed.

Definition soundb (t : table) : bool :=
  Nat.eqb (List.length (t_cols t)) (List.length all_strategies) &&
  forallb (fun '(s, c) => (Z.of_nat (List.length c) =? rows t) && forallb (typedb s) c) (combine all_strategies (t_cols t)) &&
  forallb (fun g => match g with [] => false | _ => true end) (t_glyphs t) &&
  (rows t <? 4294967296) &&
  match indexes_by_words (t_glyphs t) with Ok _ => true | _ => false end.

Lemma build_sound imgs glyphs : soundb (build imgs glyphs) = true -> sound_table (build imgs glyphs).
Proof.
  set (t := build imgs glyphs). unfold soundb. rewrite !andb_true_iff. intros ((((H1 & H2) & H3) & H4) & H5).
  rewrite forallb_forall in H2, H3. constructor.
  - reflexivity.
  - now apply Nat.eqb_eq.
  - intros s c Hc. specialize (H2 _ Hc). cbn beta iota in H2. rewrite andb_true_iff, forallb_forall in H2.
    destruct H2 as (A & B). split; [now apply Z.eqb_eq|]. intros v Hv. now apply typedb_ok, B.
  - exists (isort (index_lt (first_column t))). split; [apply isort_is_sort|reflexivity].
  - intros g Hg. specialize (H3 g Hg). destruct g; [discriminate H3|discriminate].
  - lia.
  - change (t_glyphs t) with glyphs in *. change (t_by_words t) with (match indexes_by_words glyphs with Ok l => l | _ => [] end).
    destruct (indexes_by_words glyphs); try discriminate H5. reflexivity.
  - exists (isort (ref_lt glyphs)). split; [apply isort_is_sort|reflexivity].
Qed.

Definition to_input (img : image) : input :=
  mkin (fun _ => 7) (isort Z.ltb) img (match rotate90 img with Ok r => r | _ => img end).
Definition recognisableb (img : image) : bool :=
  (0 <=? iw img) && (0 <=? ih img) && (iw img * ih img <? 4294967296) && (Z.of_nat (List.length (idata img)) =? iw img * ih img) &&
  (1 <=? iw img) && (1 <=? ih img) &&
  (100 * (iw img * ih img * ih img) <? 2147483648) && (100 * (iw img * ih img * iw img) <? 2147483648).
Lemma recognisableb_ok img : recognisableb img = true -> recognisable img.
Proof.
  unfold recognisableb, recognisable, wf_image. rewrite !andb_true_iff. intros H.
  repeat match goal with H : _ /\ _ |- _ => destruct H end.
  assert (iw img <= iw img * ih img) by nia. assert (ih img <= iw img * ih img) by nia. lia.
Qed.
Lemma to_input_sound img : recognisableb img = true -> (match rotate90 img with Ok _ => true | _ => false end) = true ->
  sound_input (to_input img).
Proof.
  intros H H'. split; [now apply recognisableb_ok|]. split; [|apply isort_is_sort].
  unfold to_input. cbn [in_img in_img90]. destruct (rotate90 img); try discriminate H'. reflexivity.
Qed.

(** A column of pixels, given by runs. *)
Definition line (l : list (Z * Z)) : image :=
  let d := flat_map (fun '(c, n) => repeat c (Z.to_nat n)) l in mkimage 1 (Z.of_nat (List.length d)) d.
Definition recognise (t : table) (img : image) : res (list oview * ctxs) :=
  compute_image (fun ids => isort (lt_by_views ids)) (isort gt_prob) simple_strategies complex_strategies
    exclusive_strategies t (to_input img) dhalf new_ctxs.
