(** std::sort, and the binary searches of <algorithm>. *)
From Verif Require Import Base.
From Coq Require Import Permutation Sorted.

(** [lt] is a strict weak order on the elements of [l], the requirement of the
    C++ standard on comparators. *)
Definition strict_weak {A} (lt : A -> A -> bool) (l : list A) : Prop :=
  (forall a, In a l -> lt a a = false) /\
  (forall a b c, In a l -> In b l -> In c l -> lt a b = true -> lt b c = true -> lt a c = true) /\
  (forall a b c, In a l -> In b l -> In c l -> lt a b = false -> lt b c = false -> lt a c = false).

(** A list sorted by [lt]: no element is less than an earlier one. *)
Definition sorted_by {A} (lt : A -> A -> bool) (l : list A) : Prop :=
  StronglySorted (fun a b => lt b a = false) l.

(** Any implementation of std::sort: nothing is assumed about the order of
    equivalent elements, nor about comparators that are not strict weak. *)
Definition is_std_sort {A} (lt : A -> A -> bool) (sort : list A -> list A) : Prop :=
  forall l, strict_weak lt l -> Permutation l (sort l) /\ sorted_by lt (sort l).

(** An implementation, used as a witness. *)
Fixpoint insert_by {A} (lt : A -> A -> bool) (a : A) (l : list A) : list A :=
  match l with
  | [] => [a]
  | b :: l' => if lt b a then b :: insert_by lt a l' else a :: l
  end.
Definition isort {A} (lt : A -> A -> bool) (l : list A) : list A :=
  fold_right (insert_by lt) [] l.

(** std::partition_point as libstdc++ runs it for std::lower_bound and
    std::upper_bound (bits/stl_algobase.h): the first index of [lo, lo+len)
    whose element does not satisfy [p], by halving. *)
Fixpoint halving (fuel : nat) (p : Z -> res bool) (lo len : Z) : res Z :=
  match fuel with
  | O => NoFuel
  | S f =>
    if len <=? 0 then Ok lo
    else
      let half := len / 2 in
      b <- p (lo + half) ;;
      if b : bool then halving f p (lo + half + 1) (len - half - 1)
      else halving f p lo half
  end.
Definition partition_point (p : Z -> res bool) (lo hi : Z) : res Z :=
  halving (S (Z.to_nat (hi - lo))) p lo (hi - lo).
