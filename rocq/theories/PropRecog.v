(** Properties C40-C42: the recognition of an image. *)
From Verif Require Import Base SortModel SortProofs ImageModel ImageSpec StratModel ZoneModel DatasModel DatasSpec
  IndexModel IndexSpec FloatModel FloatSpec FloatProofs RecogModel RecogSpec RankProofs RecogProofs RecogProofs2 RecogWitness.

(** C40: the rows kept by the simple features are the candidates, each once. *)
Theorem C40_candidates : forall inp t cx, sound_input inp -> sound_table t ->
  exists ps cx', compute_simple_universe inp t simple_strategies (ctx_reset cx) = Ok (ps, cx') /\
    NoDup (map pr_i ps) /\ Z.of_nat (List.length ps) <= rows t /\
    forall i, In i (map pr_i ps) <-> candidate inp t i.
Proof. exact candidates_exact. Qed.
Print Assumptions C40_candidates.

(** C41: whenever the recognition ends without dividing by zero its result is a
    ranking, for all legal sorts. *)
Theorem C41_ranking_partial : forall inp t, sound_input inp -> sound_table t -> forall sortv sortp,
  is_std_sort (lt_by_views (t_ids t)) (sortv (t_ids t)) -> is_std_sort gt_prob sortp ->
  forall cx labels cx',
    compute_image sortv sortp simple_strategies complex_strategies exclusive_strategies t inp dhalf cx = Ok (labels, cx') ->
    outcome inp t labels.
Proof. intros inp t HI HT sortv sortp Hv Hp cx. exact (proj1 (compute_image_outcome inp t HI HT sortv sortp Hv Hp cx)). Qed.
Print Assumptions C41_ranking_partial.

(** It ends so when a row has score 1, or when the zone proportions can be compared. *)
Theorem C41_defined_partial : forall inp t, sound_input inp -> sound_table t -> forall sortv sortp,
  is_std_sort (lt_by_views (t_ids t)) (sortv (t_ids t)) -> is_std_sort gt_prob sortp ->
  forall cx, comparable inp t \/ (exists i, certain inp t i) ->
  exists labels cx',
    compute_image sortv sortp simple_strategies complex_strategies exclusive_strategies t inp dhalf cx = Ok (labels, cx').
Proof. intros inp t HI HT sortv sortp Hv Hp cx. exact (proj2 (compute_image_outcome inp t HI HT sortv sortp Hv Hp cx)). Qed.
Print Assumptions C41_defined_partial.
(** For all sound inputs and tables: the recognition gives a ranking, or divides by zero
    exactly when a comparison of zone proportions that have zeros at the same place is
    reached. *)
Theorem C41_outcome : forall inp t, sound_input inp -> sound_table t -> forall sortv sortp,
  is_std_sort (lt_by_views (t_ids t)) (sortv (t_ids t)) -> is_std_sort gt_prob sortp ->
  forall cx, let m := compute_image sortv sortp simple_strategies complex_strategies exclusive_strategies t inp dhalf cx in
  (undefined inp t /\ m = UB) \/ (~ undefined inp t /\ exists labels cx', m = Ok (labels, cx') /\ outcome inp t labels).
Proof. exact compute_image_exact. Qed.
Print Assumptions C41_outcome.
(** Full statement: for all sound inputs and tables the recognition ends with a
    result, and it is a ranking.  It is refuted below. *)

(** Two rows of the same word, and an image one pixel longer: the comparison of
    the zone proportions divides by zero. *)
Definition ex_a : image := line [(45, 1); (120, 20); (45, 200); (120, 20)].
Definition ex_b : image := line [(45, 1); (120, 20); (45, 200); (120, 21)].
Definition ex_same : table := build [ex_a; ex_a] [[mkov 1 0]; [mkov 1 1]].
Definition ex_distinct : table := build [ex_a; ex_b; ex_a] [[mkov 1 0]; [mkov 2 0]; [mkov 3 1]].

Theorem C41_division_refuted : exists inp t sortv sortp cx,
  sound_input inp /\ sound_table t /\
  is_std_sort (lt_by_views (t_ids t)) (sortv (t_ids t)) /\ is_std_sort gt_prob sortp /\
  compute_image sortv sortp simple_strategies complex_strategies exclusive_strategies t inp dhalf cx = UB.
Proof.
  exists (to_input ex_b), ex_same, (fun ids => isort (lt_by_views ids)), (isort gt_prob), new_ctxs.
  split; [apply to_input_sound; vm_compute; reflexivity|].
  split; [apply build_sound; vm_compute; reflexivity|].
  split; [apply isort_is_sort|]. split; [apply isort_is_sort|]. vm_compute. reflexivity.
Qed.
Print Assumptions C41_division_refuted.

(** C42: an image whose simple features are those of a row is recognised, and the
    first label is one of a row of score 1. *)
Theorem C42_known : forall inp t, sound_input inp -> sound_table t -> forall sortv sortp,
  is_std_sort (lt_by_views (t_ids t)) (sortv (t_ids t)) -> is_std_sort gt_prob sortp ->
  forall i cx, known inp t i ->
  exists labels cx' p rest,
    compute_image sortv sortp simple_strategies complex_strategies exclusive_strategies t inp dhalf cx = Ok (labels, cx') /\
    certain inp t p /\ nth (Z.to_nat p) (t_glyphs t) [] <> [] /\ labels = nth (Z.to_nat p) (t_glyphs t) [] ++ rest.
Proof. exact known_recognised. Qed.
Print Assumptions C42_known.

Definition labels_or_none (m : res (list oview * ctxs)) : option (list oview) :=
  match m with Ok (l, _) => Some l | _ => None end.
(** The hypotheses hold for concrete tables: a known image, an unknown one near
    two rows, and one near none. *)
Example C41_nonvacuous :
  sound_input (to_input ex_b) /\ sound_table ex_distinct /\
  labels_or_none (recognise ex_distinct ex_a) = Some [mkov 1 0; mkov 3 1] /\
  labels_or_none (recognise ex_distinct ex_b) = Some [mkov 2 0] /\
  labels_or_none (recognise ex_distinct (line [(45, 1); (120, 19); (45, 200); (120, 21)])) <> None /\
  labels_or_none (recognise ex_distinct (line [(45, 10); (120, 1)])) = Some [].
Proof.
  split; [apply to_input_sound; vm_compute; reflexivity|].
  split; [apply build_sound; vm_compute; reflexivity|].
  split; [vm_compute; reflexivity|]. split; [vm_compute; reflexivity|]. split; [vm_compute; discriminate|vm_compute; reflexivity].
Qed.
(** Rows of the same word: [ex_row] has zeros at the same place as [ex_img], [ex_like] does
    not and is alike.  The order of the comparisons decides. *)
Definition ex_row : image := line [(45, 2); (120, 20); (45, 100); (120, 20)].
Definition ex_img : image := line [(45, 2); (120, 20); (45, 100); (120, 21)].
Definition ex_like : image := line [(45, 2); (120, 20); (45, 99); (120, 20)].
Definition one_word (l : list image) : table := build l (map (fun i => [mkov 1 i]) (zrange (Z.of_nat (List.length l)))).
Example C41_outcome_nonvacuous :
  sound_input (to_input ex_img) /\ sound_table (one_word [ex_like; ex_row; ex_like]) /\ sound_table (one_word [ex_row; ex_like; ex_like]) /\
  labels_or_none (recognise (one_word [ex_like; ex_row; ex_like]) ex_img) = Some [mkov 1 1] /\
  recognise (one_word [ex_row; ex_like; ex_like]) ex_img = UB /\ common_zero [0; 99] [0; 99] /\ ~ common_zero [1; 99] [0; 99].
Proof.
  split; [apply to_input_sound; vm_compute; reflexivity|].
  split; [apply build_sound; vm_compute; reflexivity|]. split; [apply build_sound; vm_compute; reflexivity|].
  split; [vm_compute; reflexivity|]. split; [vm_compute; reflexivity|]. split.
  - split; [reflexivity|]. exists 0, 0. split; [now left|reflexivity].
  - intros (_ & x & y & [E|[E|[]]] & H); injection E as <- <-; discriminate H.
Qed.
