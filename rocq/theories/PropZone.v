(** Properties C20-C23: zones of an image. *)
From Verif Require Import Base BaseProofs ImageModel ImageSpec StratModel StratSpec SortModel SortProofs ZoneModel ZoneSpec ZoneProofs2 ZoneProofs3.
From Coq Require Import Permutation Sorted.

(** A 5x4 image with a closed ring and a stroke cutting the right side:
    "xxx-x" / "x-x--" / "xxx-x" / "---x-". *)
Definition img54 : image := mkimage 5 4 (str "xxx-xx-x--xxx-x---x-").
Lemma img54_wf : wf_image img54.
Proof. repeat split; vm_compute; congruence. Qed.

(** C20. *)
Theorem C20_zone_labelling : forall junk img ctx,
  wf_image img -> 1 <= iw img -> 1 <= ih img -> iw img * ih img < 1073741824 ->
  exists k lab zc, count_zone_compute junk img ctx = Ok zc /\ zi_count (zc_zone zc) = k /\
    zone_numbering img k lab /\
    forall x y, 0 <= x < iw img -> 0 <= y < ih img -> rd (zc_buf zc) (y * iw img + x) = Ok (lab x y).
Proof. exact labelling_law. Qed.
Print Assumptions C20_zone_labelling.

(** The specification leaves no choice: neither the previous content of the
    buffers nor the fresh memory can show. *)
Theorem C20_numbering_unique : forall img k1 lab1 k2 lab2,
  zone_numbering img k1 lab1 -> zone_numbering img k2 lab2 -> 0 <= k1 -> 0 <= k2 ->
  k1 = k2 /\ forall x y, lab1 x y = lab2 x y.
Proof. exact numbering_unique. Qed.
Print Assumptions C20_numbering_unique.

(** Without the size bound: the buffer of an image of 2^31 - 1 pixels is empty. *)
Theorem C20_huge_image_refuted :
  exists img, wf_image img /\ 1 <= iw img /\ 1 <= ih img /\
    forall junk, count_zone_compute junk img new_zone_ctx = UB.
Proof. exact zone_buffer_wraps. Qed.
Print Assumptions C20_huge_image_refuted.

Example C20_nonvacuous : wf_image img54 /\
  (zc <- count_zone_compute (fun _ => 7) img54 new_zone_ctx ;;
   Ok (zi_count (zc_zone zc), firstn 20 (zc_buf zc))) =
    Ok (4, [0;0;0;1;0; 0;2;0;1;1; 0;0;0;1;0; 3;3;3;0;4]).
Proof. split; [exact img54_wf|]. vm_compute. reflexivity. Qed.

(** C21. *)
Theorem C21_zone_borders : forall junk img ctx,
  wf_image img -> 1 <= iw img -> 1 <= ih img -> iw img * ih img < 1073741824 ->
  exists k lab zc, count_zone_compute junk img ctx = Ok zc /\ zone_numbering img k lab /\
    (forall v, 1 <= v <= k ->
      zi_get (zc_zone zc) 0 (v - 1) = Ok (on_top img lab v) /\
      zi_get (zc_zone zc) 1 (v - 1) = Ok (on_right img lab v) /\
      zi_get (zc_zone zc) 2 (v - 1) = Ok (on_bottom img lab v) /\
      zi_get (zc_zone zc) 3 (v - 1) = Ok (on_left img lab v)) /\
    zone_value img (zc_zone zc) = Ok [if ink img 0 0 then 1 else 0; if ink img (iw img - 1) (ih img - 1) then 1 else 0;
      count_zones k (fun v => 0 <? on_top img lab v);
      count_zones k (fun v => 0 <? on_right img lab v);
      count_zones k (fun v => 0 <? on_bottom img lab v);
      count_zones k (fun v => 0 <? on_left img lab v);
      count_zones k (fun v => negb ((0 <? on_top img lab v) || (0 <? on_right img lab v) ||
                                    (0 <? on_bottom img lab v) || (0 <? on_left img lab v)))].
Proof. exact border_law. Qed.
Print Assumptions C21_zone_borders.

Example C21_nonvacuous : wf_image img54 /\
  (zc <- count_zone_compute (fun _ => 7) img54 new_zone_ctx ;; zone_value img54 (zc_zone zc)) = Ok [1; 0; 1; 2; 2; 1; 1].
Proof. split; [exact img54_wf|]. vm_compute. reflexivity. Qed.

(** C22. *)
Theorem C22_proportions : forall junk img ctx sort,
  wf_image img -> 1 <= iw img -> 1 <= ih img -> iw img * ih img < 42949672 -> is_std_sort Z.ltb sort ->
  exists k lab zc q, count_zone_compute junk img ctx = Ok zc /\ zone_numbering img k lab /\
    pz_load sort (zc_zone zc) = Ok q /\ StronglySorted Z.le q /\
    Permutation q (map (fun v => 100 * contact img lab v / contact_total img k lab) (border_zones img k lab)) /\
    (forall n, In n q -> 0 <= n <= 100) /\ fold_right Z.add 0 q <= 100.
Proof. exact proportions_law. Qed.
Print Assumptions C22_proportions.

Example C22_nonvacuous : wf_image img54 /\ is_std_sort Z.ltb (isort Z.ltb) /\
  (zc <- count_zone_compute (fun _ => 7) img54 new_zone_ctx ;; pz_load (isort Z.ltb) (zc_zone zc)) = Ok [20; 20; 60].
Proof. split; [exact img54_wf|]. split; [apply isort_is_sort|]. vm_compute. reflexivity. Qed.

(** C23.  Full statement: the same without the third hypothesis, which the
    refutation below shows to be false. *)
Theorem C23_comparing_proportions_partial : forall a b,
  (forall x, In x a -> 0 <= x <= 100) -> (forall y, In y b -> 0 <= y <= 100) ->
  (forall x y, In (x, y) (combine a b) -> 0 < x + y) ->
  100 * Z.of_nat (List.length a) < 4294967296 ->
  exists v, pz_compute a b = Ok v /\ 0 <= v <= 100 /\ (a = b -> v = 100) /\
    (List.length a <> List.length b -> v = 0) /\
    (forall d, pz_in_dist a b d = Ok (d <=? v)).
Proof. exact pz_compute_ok. Qed.
Print Assumptions C23_comparing_proportions_partial.

(** Every two lists of proportions. *)
Theorem C23_outcome : forall a b,
  (forall x, In x a -> 0 <= x <= 100) -> (forall y, In y b -> 0 <= y <= 100) -> 100 * Z.of_nat (List.length a) < 4294967296 ->
  (shared_zero a b -> pz_compute a b = UB) /\ (~ shared_zero a b -> pz_compute a b = Ok (likeness a b)).
Proof. exact pz_compute_outcome. Qed.
Print Assumptions C23_outcome.
Example C23_outcome_nonvacuous : shared_zero [0; 99] [0; 40] /\ pz_compute [0; 99] [0; 40] = UB /\ pz_compute [0; 99] [1; 40] = Ok 85 /\
  likeness [0; 99] [1; 40] = 85 /\ likeness [1; 40] [0; 99] = 86.
Proof. split; [split; [reflexivity|left; reflexivity]|]. repeat split; vm_compute; reflexivity. Qed.

(** A column of 203 pixels, one of paper, one of ink, 201 of paper, has the
    proportions 0 and 99; comparing them with themselves divides by zero. *)
Theorem C23_self_comparison_refuted :
  exists q, (zc <- count_zone_compute (fun _ => 7) long_line new_zone_ctx ;; pz_load (isort Z.ltb) (zc_zone zc)) = Ok q /\
    pz_compute q q = UB.
Proof. exact long_line_zero. Qed.
Print Assumptions C23_self_comparison_refuted.

Example C23_nonvacuous : pz_compute [20; 20; 60] [10; 30; 60] = Ok 98 /\ pz_compute [20; 20; 60] [20; 80] = Ok 0.
Proof. split; vm_compute; reflexivity. Qed.
