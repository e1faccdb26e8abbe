(** Property C108: the ranges of utils/range_iterator.hpp. *)
From Verif Require Import Base SortModel SortProofs IndexModel IndexSpec RangeModel RangeSpec RangeProofs PropIndex.

(** C108: the values of a loop over a range are the proxies of the cells between its
    positions, in order. *)
Theorem C108_loop : forall (A B : Type) (r : @range A B), well_placed r -> exists l, between r l /\ (forall l', between r l' -> l' = l) /\ range_for r = Ok (map (rg_proxy r) l).
Proof.
  intros A B r H. destruct (placed_between r H) as (l & Hl). exists l. split; [exact Hl|]. split; [intros l' Hl'; exact (between_unique r l' l Hl' Hl)|exact (range_for_ok r l Hl)].
Qed.
Print Assumptions C108_loop.
(** Without this order, or out of the buffer, the loop is undefined. *)
Theorem C108_misplaced : forall (A B : Type) (r : @range A B), 0 <= rg_first r <= Z.of_nat (List.length (rg_mem r)) -> ~ well_placed r -> range_for r = UB.
Proof. exact @range_for_ub. Qed.
Print Assumptions C108_misplaced.
(** The other functions agree with the loop. *)
Theorem C108_access : forall (A B : Type) (r : @range A B) l, between r l ->
  range_size r = Z.of_nat (List.length l) /\ range_empty r = match l with [] => true | _ => false end /\
  (forall i a, 0 <= i -> nth_error l (Z.to_nat i) = Some a -> range_at r i = Ok (rg_proxy r a)) /\
  forall a l', l = a :: l' -> range_front r = Ok (rg_proxy r a) /\ range_back r = Ok (rg_proxy r (last l' a)).
Proof.
  intros A B r l H. split; [exact (proj2 (between_placed r l H))|]. destruct (range_ends r l H) as (E & F). split; [exact E|]. split.
  - intros i a Hi N. pose proof (range_at_ok r l i H Hi) as K. rewrite N in K. exact K.
  - intros a l' ->. exact F.
Qed.
Print Assumptions C108_access.
(** An iterator applies the proxy, but those that its operators ++ and + return do not. *)
Theorem C108_iterator : forall (A B : Type) (r : @range A B) l i a, between r l -> nth_error l i = Some a ->
  star r (rg_first r + Z.of_nat i) = Ok (rg_proxy r a) /\ star_post r (rg_first r + Z.of_nat i) = Ok (a, rg_first r + Z.of_nat (S i)) /\ star_plus r (rg_first r) (Z.of_nat i) = Ok a /\
  match nth_error l (S i) with Some b => star_pre r (rg_first r + Z.of_nat i) = Ok (b, rg_first r + Z.of_nat (S i)) | None => True end.
Proof. exact @moved_plain. Qed.
Print Assumptions C108_iterator.
(** The range that the ordered indexes give for any value and any distance is well
    placed, and the loop over it goes through the rows of C37. *)
Theorem C108_indexes : forall sort data x d, is_std_sort (index_lt data) sort ->
  exists r l, index_range data (indexes_ordered sort data) x d = Ok r /\ between r l /\ get_range data (indexes_ordered sort data) x d = Ok l /\ range_for r = Ok l /\ rg_proxy r = (fun i => i).
Proof. intros sort data x d H. exact (index_range_ok sort data H x d). Qed.
Print Assumptions C108_indexes.

Definition ex_range : @range Z Z := mkrg [5; 6; 7; 8] 1 3 (fun a => 10 * a).
Example C108_nonvacuous : well_placed ex_range /\ between ex_range [6; 7] /\ range_for ex_range = Ok [60; 70] /\ range_at ex_range 1 = Ok 70 /\ range_at ex_range 3 = UB /\
  range_front ex_range = Ok 60 /\ range_back ex_range = Ok 70 /\ range_size ex_range = 2 /\ star ex_range 1 = Ok 60 /\ star_post ex_range 1 = Ok (6, 2) /\ star_pre ex_range 1 = Ok (7, 2) /\
  range_for (mkrg [5; 6; 7; 8] 3 1 (fun a : Z => a)) = UB /\ range_for (mkrg [5; 6] 1 3 (fun a : Z => a)) = UB /\
  (r <- index_range ex_column (indexes_ordered (isort (index_lt ex_column)) ex_column) 5 2 ;; range_for r) = Ok [1; 3; 0; 6].
Proof.
  split; [unfold well_placed; vm_compute; intuition congruence|]. split; [exists [5], [8]; repeat split|]. repeat split; vm_compute; reflexivity.
Qed.
