From Verif Require Import Base FloatModel NumberModel NumberSpec NumberProofs.
From Coq Require Import SpecFloat.

(** C87, in full: almost_equal x y ulp holds exactly when x and y are equal or differ
    by at most [ulp] units in the last place.  Finite numbers are almost equal to
    themselves and to their neighbours, and the relation does not depend on the order
    or on a change of both signs. *)
Theorem C87_same_partial : forall x ulp, finite_double x -> almost_equal x x ulp = true.
Proof. exact almost_refl. Qed.
Print Assumptions C87_same_partial.
Theorem C87_symmetric : forall x y ulp, almost_equal x y ulp = almost_equal y x ulp.
Proof. exact almost_sym. Qed.
Print Assumptions C87_symmetric.
Theorem C87_opposite : forall x y ulp, almost_equal (SFopp x) (SFopp y) ulp = almost_equal x y ulp.
Proof. exact almost_opp. Qed.
Print Assumptions C87_opposite.
Theorem C87_neighbours : forall x y, neighbours x y -> almost_equal x y 1 = true.
Proof. exact neighbours_almost. Qed.
Print Assumptions C87_neighbours.
(** Without a tolerance: exactly the numbers whose difference is subnormal, which are
    almost equal for every tolerance. *)
Theorem C87_exact : forall x y, format_double x -> format_double y ->
  (almost_equal x y 0 = true <-> Z.abs (units x - units y) < 2 ^ 52) /\
  (almost_equal x y 0 = true -> forall ulp, almost_equal x y ulp = true).
Proof. intros x y Hx Hy. split; [now apply almost_exact|intros H ulp; now apply almost_more]. Qed.
Print Assumptions C87_exact.
(** The sum of the two numbers may overflow: the greatest double and its half are
    almost equal.  Infinity is not almost equal to itself, and numbers that are 3
    units apart are accepted for 1 unit. *)
Theorem C87_refuted :
  almost_equal (S754_finite false 9007199254740991 971) (S754_finite false 9007199254740991 970) 1 = true /\
  (forall s ulp, almost_equal (S754_infinity s) (S754_infinity s) ulp = false) /\
  almost_equal (S754_finite false 9007199254740986 (-52)) (S754_finite false 9007199254740989 (-52)) 1 = true.
Proof. split; [vm_compute; reflexivity|]. split; [intros [|] ulp; reflexivity|vm_compute; reflexivity]. Qed.
Print Assumptions C87_refuted.
Example C87_nonvacuous :
  neighbours d1 (S754_finite false 4503599627370497 (-52)) /\ finite_double d1 /\ format_double d1 /\ units (S754_finite true 3 (-1074)) = -3 /\
  almost_equal d1 (S754_finite false 4503599627370499 (-52)) 1 = false /\ almost_equal d1 (S754_finite false 4503599627370499 (-52)) 2 = true /\
  almost_equal d1 (S754_finite true 4503599627370496 (-52)) 100 = false /\ almost_equal d1 d100 1000 = false /\
  almost_equal d0 (S754_finite false 1 (-1074)) 0 = true /\ almost_equal d1 (S754_finite false 4503599627370497 (-52)) (-1) = false.
Proof.
  split; [|split; [exact I|split; [cbn; lia|repeat split; vm_compute; reflexivity]]]. exists 4503599627370496%positive, (-52). repeat split; lia.
Qed.

(** C88, in full: an integer_iterator is ordered, moved and subtracted as its number.
    It is, except for <=, which is <, and for the distance to a greater iterator. *)
Theorem C88_order_partial : forall n m, (it_eq n m = true <-> n = m) /\ (it_ne n m = true <-> n <> m) /\ (it_lt n m = true <-> n < m) /\
  (it_le n m = (n <=? m) <-> n <> m).
Proof.
  intros n m. split; [apply Z.eqb_eq|]. split; [unfold it_ne; rewrite negb_true_iff; apply Z.eqb_neq|]. split; [apply Z.ltb_lt|apply it_le_exact].
Qed.
Print Assumptions C88_order_partial.
Theorem C88_distance_partial : forall n m, 0 <= n < 4294967296 -> 0 <= m < 4294967296 -> (it_minus n m = n - m <-> m <= n).
Proof. exact it_minus_exact. Qed.
Print Assumptions C88_distance_partial.
Theorem C88_moves : forall n d, 0 <= n < 4294967296 -> it_sub (it_add n d) d = n /\ it_add (it_sub n d) d = n.
Proof. exact it_add_sub. Qed.
Print Assumptions C88_moves.
Theorem C88_reached : forall n m, 0 <= n < 4294967296 -> 0 <= m < 4294967296 -> it_minus (it_add n m) n = m /\ it_add n (it_minus m n) = m.
Proof. exact it_add_minus. Qed.
Print Assumptions C88_reached.
(** The vector of a range has the numbers of the range, in order; the one of the
    reading programs is the indexes of the rows. *)
Theorem C88_range : forall a b, 0 <= a < 4294967296 -> 0 <= b < 4294967296 -> vector_of_range a b = Ok (from a (it_minus b a)).
Proof. exact it_range. Qed.
Print Assumptions C88_range.
Theorem C88_indexes : forall n, 0 <= n < 4294967296 -> vector_of_range 0 n = Ok (zrange n).
Proof. exact it_indexes. Qed.
Print Assumptions C88_indexes.
Theorem C88_refuted : it_le 5 5 = false /\ it_minus 0 1 = 4294967295.
Proof. split; reflexivity. Qed.
Print Assumptions C88_refuted.
Example C88_nonvacuous : vector_of_range 0 4 = Ok [0; 1; 2; 3] /\ vector_of_range 4294967294 1 = Ok [4294967294; 4294967295; 0] /\
  it_minus 7 4 = 3 /\ it_add 7 (-4) = 3 /\ it_sub 7 4 = 3 /\ vector_of_range 3 3 = Ok [].
Proof. repeat split; vm_compute; reflexivity. Qed.
