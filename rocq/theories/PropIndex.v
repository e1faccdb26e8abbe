(** Properties C37-C39: the indexes of the recogniser. *)
From Verif Require Import Base SortModel SortProofs IndexModel IndexSpec IndexProofs ViewClassProofs.
From Coq Require Import Permutation Sorted.

(** C37: for every legal std::sort, the rows given by a range query are those
    whose value is within d of x, each once. *)
Theorem C37_range_query : forall sort data x d,
  is_std_sort (index_lt data) sort ->
  (forall v, In v data -> 0 <= v) -> 0 <= x -> 0 <= d -> x + d < 4294967296 ->
  exists l, get_range data (indexes_ordered sort data) x d = Ok l /\ NoDup l /\
    forall i, In i l <-> within data x d i.
Proof. intros sort data x d Hs. exact (get_range_exact sort data Hs x d). Qed.
Print Assumptions C37_range_query.

Definition ex_column : list Z := [7; 3; 9; 3; 12; 0; 7].
Example C37_nonvacuous :
  is_std_sort (index_lt ex_column) (isort (index_lt ex_column)) /\
  get_range ex_column (indexes_ordered (isort (index_lt ex_column)) ex_column) 5 2 = Ok [1; 3; 0; 6] /\
  get_range ex_column (indexes_ordered (isort (index_lt ex_column)) ex_column) 30 2 = Ok [].
Proof. split; [apply isort_is_sort|]. split; vm_compute; reflexivity. Qed.

(** C38: the same-word list of each glyph. *)
Theorem C38_same_word_index : forall glyphs,
  Z.of_nat (List.length glyphs) < 4294967296 -> (forall g, In g glyphs -> g <> []) ->
  exists out, indexes_by_words glyphs = Ok out /\ List.length out = List.length glyphs /\
    forall i, 0 <= i < Z.of_nat (List.length glyphs) ->
      NoDup (nth (Z.to_nat i) out []) /\
      forall j, In j (nth (Z.to_nat i) out []) <-> same_word glyphs i j.
Proof. exact by_words_exact. Qed.
Print Assumptions C38_same_word_index.

(** And in which order: they are compared in this order (C41). *)
Theorem C38_order : forall glyphs, Z.of_nat (List.length glyphs) < 4294967296 -> (forall g, In g glyphs -> g <> []) ->
  exists out, indexes_by_words glyphs = Ok out /\ List.length out = List.length glyphs /\
    forall i, 0 <= i < Z.of_nat (List.length glyphs) -> nth (Z.to_nat i) out [] = scan_order glyphs i.
Proof. exact by_words_order. Qed.
Print Assumptions C38_order.
Example C38_order_nonvacuous : let gs := map (fun w => [mkov w 0]) [5; 4; 5; 5; 6; 5] in
  map (scan_order gs) [0; 1; 2; 5] = [[5; 2; 3]; []; [5; 0; 3]; [0; 2; 3]].
Proof. reflexivity. Qed.

Example C38_nonvacuous :
  indexes_by_words [[mkov 5 0]; [mkov 4 0]; [mkov 5 1; mkov 4 1]; [mkov 5 0]; [mkov 6 0]] =
  Ok [[3; 2]; []; [3; 0]; [0; 2]; []].
Proof. vm_compute. reflexivity. Qed.

(** A glyph without label: front() of an empty vector. *)
Theorem C38_unlabelled_refuted : forall a b, indexes_by_words (map (fun v => [v]) a ++ [] :: b) = UB.
Proof. exact by_words_unlabelled. Qed.
Print Assumptions C38_unlabelled_refuted.

(** C39: when the table is ordered by words, the class identifies the words. *)
Theorem C39_view_classes_partial : forall sort glyphs,
  is_std_sort (ref_lt glyphs) sort -> ordered_glyphs glyphs ->
  List.length (views_indexes_ordered sort glyphs) = List.length glyphs /\
  forall i j, 0 <= i < Z.of_nat (List.length glyphs) -> 0 <= j < Z.of_nat (List.length glyphs) ->
    (nth (Z.to_nat i) (views_indexes_ordered sort glyphs) 0 = nth (Z.to_nat j) (views_indexes_ordered sort glyphs) 0 <->
     words_of (nth (Z.to_nat i) glyphs []) = words_of (nth (Z.to_nat j) glyphs [])).
Proof. exact classes_ordered. Qed.
Print Assumptions C39_view_classes_partial.
(* The full statement is the same without the hypothesis [ordered_glyphs glyphs]. *)

(** In general it does not: in the table B, A, A the glyphs B and A share a class
    and the two glyphs A do not, whatever the sort. *)
Theorem C39_view_classes_refuted : forall sort, is_std_sort (ref_lt baa) sort ->
  let cls := views_indexes_ordered sort baa in
  nth 0 cls 0 = nth 1 cls 0 /\ words_of (nth 0 baa []) <> words_of (nth 1 baa []) /\
  nth 1 cls 0 <> nth 2 cls 0 /\ words_of (nth 1 baa []) = words_of (nth 2 baa []).
Proof. exact classes_by_rank_wrong. Qed.
Print Assumptions C39_view_classes_refuted.
(** What the classes are for every table: the class of a position is the index of a
    glyph that has the words of that rank in the table ordered by words. *)
Theorem C39_rank : forall sort glyphs ws,
  is_std_sort (ref_lt glyphs) sort -> Permutation (map words_of glyphs) ws -> StronglySorted (fun a b => ~ words_before b a) ws ->
  List.length (views_indexes_ordered sort glyphs) = List.length glyphs /\
  forall i j, 0 <= i < Z.of_nat (List.length glyphs) -> 0 <= j < Z.of_nat (List.length glyphs) ->
    words_of (nth (Z.to_nat (nth (Z.to_nat i) (views_indexes_ordered sort glyphs) 0)) glyphs []) = nth (Z.to_nat i) ws [] /\
    (nth (Z.to_nat i) (views_indexes_ordered sort glyphs) 0 = nth (Z.to_nat j) (views_indexes_ordered sort glyphs) 0 <->
     nth (Z.to_nat i) ws [] = nth (Z.to_nat j) ws []).
Proof. exact classes_by_rank. Qed.
Print Assumptions C39_rank.
Example C39_rank_nonvacuous :
  Permutation (map words_of baa) [[1]; [1]; [2]] /\ views_indexes_ordered (isort (ref_lt baa)) baa = [1; 1; 0].
Proof. split; [|vm_compute; reflexivity]. cbn. apply (Permutation_cons_append [[1]; [1]] [2]). Qed.

Definition ex_glyphs : list (list oview) := [[mkov 1 0]; [mkov 1 1]; [mkov 2 0]; [mkov 1 0; mkov 2 0]].
Example C39_nonvacuous : ordered_glyphs ex_glyphs /\
  views_indexes_ordered (isort (ref_lt ex_glyphs)) ex_glyphs = [0; 0; 2; 3].
Proof.
  split; [|vm_compute; reflexivity]. intros i j Hi Hj. change (Z.of_nat (List.length ex_glyphs)) with 4 in Hj.
  intros W. assert (L : lt_views (nth (Z.to_nat j) ex_glyphs []) (nth (Z.to_nat i) ex_glyphs []) = true)
    by now apply words_before_lex.
  assert (H : (i = 0 \/ i = 1 \/ i = 2) /\ (j = 1 \/ j = 2 \/ j = 3)) by lia.
  destruct H as [[->|[->| ->]] [->|[->| ->]]]; try lia; discriminate L.
Qed.
