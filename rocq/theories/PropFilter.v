(** Properties C47-C49: the filters by font and by lines. *)
From Verif Require Import Base BoxModel TrieModel IndexModel GlyphsModel FilterModel FilterSpec FilterProofs LinesSpec LinesProofs LinesProofs2.

(** C47: filtering by font.  A list that is not referenced, or has at most one
    candidate, is unchanged; any other list is unchanged or reduced to one of its
    candidates (chosen). *)
Theorem C47_font_filter : forall st amb, valid st amb -> vsize amb < 4294967296 ->
  exists st' f, filter_by_font st amb = Ok (st', f) /\ vsize st' = vsize st /\
    (((forall g, singles st amb g = 0) /\ f = 4294967295 /\ st' = st) \/
     (elected st amb f /\
      ((decisive st amb f /\ forall r, 0 <= r -> (In r amb -> chosen f (list_at st r) (list_at st' r)) /\
          (~ In r amb -> list_at st' r = list_at st r)) \/
       (~ decisive st amb f /\ st' = st)))).
Proof. exact filter_by_font_ok. Qed.
Print Assumptions C47_font_filter.
Example C47_nonvacuous :
  let st := [[mkov 0 7]; [mkov 1 3; mkov 1 7]; [mkov 2 3; mkov 3 3]; []; [mkov 4 3]] in
  let amb := [0; 1; 0; 2; 1; 3; 4] in
  valid st amb /\ vsize amb < 4294967296 /\
  filter_by_font st amb = Ok ([[mkov 0 7]; [mkov 1 3; mkov 1 7]; [mkov 2 3; mkov 3 3]; []; [mkov 4 3]], 7) /\
  filter_by_font st [0; 1; 0; 2] = Ok ([[mkov 0 7]; [mkov 1 7]; [mkov 2 3]; []; [mkov 4 3]], 7).
Proof.
  cbv zeta. split; [intros r H; cbn in H; intuition (subst; vm_compute; intuition congruence)|]. repeat split; vm_compute; reflexivity.
Qed.

(** C48: filtering a list by a line, when the first word contradicts it or the
    second does not; the count is the number of words kept, less one if the first
    is kept. *)
Theorem C48_line_filter_partial : forall pred c, (forall v, pred v = Ok (c (ov_word v))) -> forall vec w1 w2,
  first_word vec = Some w1 -> second_word vec = Some w2 -> c w1 = true \/ c w2 = false ->
  filter_line pred vec = Ok (coherent c vec, if c w1 then kept_groups c None vec else kept_groups c None vec - 1).
Proof. exact filter_line_exact. Qed.
Print Assumptions C48_line_filter_partial.
(** Full statement: for all w1, w2.  It is false in all other cases: *)
Theorem C48_second_kept_refuted : forall pred c, (forall v, pred v = Ok (c (ov_word v))) -> forall vec w1 w2,
  first_word vec = Some w1 -> second_word vec = Some w2 -> c w1 = false -> c w2 = true ->
  exists l n, filter_line pred vec = Ok (l, n) /\ exists v, In v l /\ c (ov_word v) = true.
Proof. exact filter_line_wrong. Qed.
Print Assumptions C48_second_kept_refuted.
(** In all cases, candidates are only removed, and the list is not emptied when
    the caller reads its first element. *)
Theorem C48_only_removes : forall pred c, (forall v, pred v = Ok (c (ov_word v))) -> forall vec,
  exists l n, filter_line pred vec = Ok (l, n) /\ subsequence l vec /\ (n = 1 -> l <> []).
Proof. exact filter_line_sub. Qed.
Print Assumptions C48_only_removes.
Example C48_nonvacuous :
  let pred v := Ok (ov_word v mod 2 =? 1) in
  filter_line pred [mkov 2 0; mkov 2 1; mkov 4 0; mkov 3 0; mkov 6 0] = Ok ([mkov 2 0; mkov 2 1; mkov 4 0; mkov 6 0], 2) /\
  filter_line pred [mkov 3 0; mkov 5 1; mkov 4 0] = Ok ([mkov 4 0], 1) /\
  filter_line pred [mkov 2 0; mkov 5 1; mkov 3 0] = Ok ([mkov 2 0; mkov 5 1], 1) /\
  filter_line pred [mkov 3 0; mkov 5 1] = Ok ([], 0).
Proof. repeat split; vm_compute; reflexivity. Qed.

(** C49: the detection of the lines is defined when another box is at least as low
    as the first, and another starts at least as low. *)
Theorem C49_in_bounds_partial : forall infos st amb b boxes, valid st amb -> List.length (b :: boxes) = List.length amb ->
  small_boxes (b :: boxes) ->
  (exists x, In x boxes /\ box_bottom b <= box_bottom x) -> (exists x, In x boxes /\ box_top b <= box_top x) ->
  exists st', filter_by_lines infos st amb (b :: boxes) = Ok st' /\ below st st'.
Proof. exact lines_in_bounds. Qed.
Print Assumptions C49_in_bounds_partial.
(** Then the base line is the most common bottom, the highest one if there are several;
    the mean line is the most common top of the characters that tell it; and the lists
    are those of by_base and by_mean ([get] gives the lines of a word, see C46). *)
Theorem C49_lines_partial : forall infos get, (forall w, infos_get infos w = Ok (get w)) -> forall st amb b boxes,
  valid st amb -> List.length (b :: boxes) = List.length amb -> small_boxes (b :: boxes) -> vsize amb < 4294967296 ->
  (exists x, In x boxes /\ box_bottom b <= box_bottom x) -> (exists x, In x boxes /\ box_top b <= box_top x) ->
  exists st', filter_by_lines infos st amb (b :: boxes) = Ok st' /\ lines_filtered get st amb (b :: boxes) st'.
Proof. exact filter_by_lines_exact. Qed.
Print Assumptions C49_lines_partial.
(** Full statement: for all boxes.  The histogram of the baseline stays in bounds
    if and only if the first box is not too low: *)
Theorem C49_baseline_partial : forall b boxes, small_boxes (b :: boxes) -> boxes <> [] ->
  ((exists ys, count_bottoms (repeat 0 (Z.to_nat (buffer_len b boxes))) (least_bottom b boxes) (b :: boxes) = Ok ys) <->
   box_bottom b - least_bottom b boxes < buffer_len b boxes).
Proof. exact baseline_in_bounds. Qed.
Print Assumptions C49_baseline_partial.
Theorem C49_first_lowest_refuted : forall infos st amb b boxes, small_boxes (b :: boxes) ->
  buffer_len b boxes <= box_bottom b - least_bottom b boxes -> filter_by_lines infos st amb (b :: boxes) = UB.
Proof. exact lines_out_of_bounds. Qed.
Print Assumptions C49_first_lowest_refuted.
(** A single box: the buffer is empty or has about 2^32 elements. *)
Theorem C49_single_refuted : forall infos st amb b, box_top b = 1 -> box_bottom b = 1 -> filter_by_lines infos st amb [b] = UB.
Proof. exact single_box_ub. Qed.
Print Assumptions C49_single_refuted.
Theorem C49_single_huge_refuted : forall b, 2 <= box_bottom b < 4294967296 -> 4294967297 - box_bottom b <= buffer_len b [].
Proof. exact single_box_buffer. Qed.
Print Assumptions C49_single_huge_refuted.

(** What it does for any boxes: the exact result, or undefined behaviour exactly when a side
    is written outside of the buffer. *)
Theorem C49_outcome : forall infos get, (forall w, infos_get infos w = Ok (get w)) -> forall st amb boxes,
  valid st amb -> List.length boxes = List.length amb -> small_boxes boxes -> vsize amb < 2147483648 ->
  lines_outcome get st amb boxes (filter_by_lines infos st amb boxes).
Proof. exact filter_by_lines_outcome. Qed.
Print Assumptions C49_outcome.

(** "go" and "og": the g is two pixels lower than the o. *)
Definition box_o : box := mkbox 10 4 5 6.
Definition box_g : box := mkbox 3 4 5 8.
Definition box_i : box := mkbox 16 1 2 9.
Example C49_nonvacuous :
  buffer_len box_g [box_o] = 1 /\ box_bottom box_g - least_bottom box_g [box_o] = 2 /\
  filter_by_lines [] [[mkov 0 0]; [mkov 1 0]] [0; 1] [box_g; box_o] = UB /\
  filter_by_lines [] [[mkov 0 0]; [mkov 1 0]] [0; 1] [box_o; box_g] = Ok [[mkov 0 0]; [mkov 1 0]] /\
  filter_by_lines [mkwi 0 (mkwl 0 0 2 2); mkwi 1 (mkwl 0 0 2 2); mkwi 5 (mkwl 0 0 2 1); mkwi 6 (mkwl 0 0 1 2)]
     [[mkov 7 0; mkov 0 0]; [mkov 0 0; mkov 1 0]; [mkov 0 0; mkov 5 0; mkov 6 0]] [0; 1; 1; 2] [box_i; box_o; box_o; box_o] =
    Ok [[mkov 7 0; mkov 0 0]; [mkov 0 0; mkov 1 0]; [mkov 0 0; mkov 5 0]] /\
  filter_by_lines [] [[mkov 0 0]] [0] [mkbox 0 1 4 1] = UB.
Proof. repeat split; vm_compute; reflexivity. Qed.
Example C49_lines_nonvacuous : (forall infos, exists get, forall w, infos_get infos w = Ok (get w)) /\
  most_common [4; 2; 7; 2; 4] 2 /\ ~ most_common [4; 2; 7; 2; 4] 4 /\
  by_base (fun w => if w =? 1 then Some (mkwi 1 (mkwl 0 0 2 2)) else None) 10 [[mkov 1 0; mkov 2 0]; [mkov 3 0]] [0; 1] [box_o; box_g] = ([[mkov 1 0; mkov 2 0]; [mkov 3 0]], [4]).
Proof.
  split; [|split; [|split; [|reflexivity]]].
  - intros infos. exists (fun w => match infos_get infos w with Ok o => o | _ => None end). intros w. destruct (infos_get_total infos w) as (o & ->). reflexivity.
  - split; [cbn; tauto|]. intros y' [<-|[<-|[<-|[<-|[<-|[]]]]]]; cbn; lia.
  - intros (_ & H). destruct (H 2 ltac:(cbn; tauto)) as [H'|(_ & H')]; cbn in H'; lia.
Qed.
(** The bottom of the first box, lower than the others, becomes the mean line of the words
    "1" and they are dropped, unless the first box is one pixel less high; and a first box
    that begins lower than the others is written outside of the buffer. *)
Example C49_outcome_nonvacuous :
  let infos := [mkwi 1 (mkwl 0 0 2 2)] in
  let st := [[mkov 7 0]; [mkov 1 0; mkov 8 0]; [mkov 8 0; mkov 9 0; mkov 1 0]] in
  let low := mkbox 0 0 4 11 in let high := mkbox 0 0 4 10 in let x := mkbox 6 5 4 5 in
  leftover low [x; x] = [1] /\ leftover high [x; x] = [] /\ room low [x; x] = 6 /\ mean_found low [x; x] [5] 1 /\ base_found low [x; x] 9 /\
  filter_by_lines infos st [0; 1; 2] [low; x; x] = Ok [[mkov 7 0]; [mkov 8 0]; [mkov 8 0; mkov 9 0]] /\
  filter_by_lines infos st [0; 1; 2] [high; x; x] = Ok st /\
  filter_by_lines infos st [1; 0] [mkbox 0 9 4 1; x] = UB /\ room (mkbox 0 9 4 1) [x] = 1.
Proof.
  cbv zeta. split; [reflexivity|]. split; [reflexivity|]. split; [reflexivity|]. split; [|split; [|split; [|split; [|split]]]].
  - change (most_common [5; 1] 1). split; [cbn; tauto|]. intros y' [<-|[<-|[]]]; cbn; lia.
  - change (most_common [9; 9] 9). split; [cbn; tauto|]. intros y' [<-|[<-|[]]]; cbn; lia.
  - vm_compute; reflexivity.
  - vm_compute; reflexivity.
  - vm_compute; reflexivity.
  - reflexivity.
Qed.
