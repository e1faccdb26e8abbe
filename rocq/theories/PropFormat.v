(** Property C94: the numbers that are printed. *)
From Verif Require Import Base FloatModel FormatModel FormatSpec FormatProofs.
From Coq Require Import SpecFloat QArith Qabs.
Local Open Scope Z_scope.

(** C94: a finite number is printed as the nearest number with six digits, after its
    sign. *)
Theorem C94_printed : forall nan s m e, Z.pos m < 2 ^ 53 -> -1074 <= e <= 971 ->
  exists t, print_double nan (S754_finite s m e) = (if s then [45] else []) ++ t /\ number_text (binary (Z.pos m) e) t.
Proof. exact print_double_shown. Qed.
Print Assumptions C94_printed.
(** There is only one such text, and one such number. *)
Theorem C94_unique : forall x t t', number_text x t -> number_text x t' -> t = t'.
Proof. exact shown_unique. Qed.
Print Assumptions C94_unique.
Theorem C94_nearest_unique : forall x v v', nearest_six x v -> nearest_six x v' -> (v == v')%Q.
Proof. exact nearest_unique. Qed.
Print Assumptions C94_nearest_unique.
(** A number with six digits is printed as it is. *)
Theorem C94_exact : forall x v, six_digits x -> nearest_six x v -> (v == x)%Q.
Proof. exact nearest_exact. Qed.
Print Assumptions C94_exact.
(** The order of the numbers is kept. *)
Theorem C94_order : forall x x' v v', (x < x')%Q -> nearest_six x v -> nearest_six x' v' -> (v <= v')%Q.
Proof. exact nearest_mono. Qed.
Print Assumptions C94_order.
(** The error is at most a two hundred thousandth of the number. *)
Theorem C94_error : forall x v, (0 < x)%Q -> nearest_six x v -> (Qabs (v - x) <= x * (1 # 200000))%Q.
Proof. exact nearest_error. Qed.
Print Assumptions C94_error.
(** The other numbers. *)
Theorem C94_special : forall nan s, print_double nan (S754_zero s) = (if s then str "-0" else str "0") /\
  print_double nan (S754_infinity s) = (if s then str "-inf" else str "inf") /\ print_double nan S754_nan = nan.
Proof. exact print_double_special. Qed.
Print Assumptions C94_special.

(** The text of n / d, and of m . 2^e. *)
Definition ex_ratio (n d : Z) : list Z := print_double [] (ddiv (double_of n) (double_of d)).
Definition ex_binary (m : positive) (e : Z) : list Z := print_double [] (S754_finite false m e).
Example C94_nonvacuous :
  ex_ratio 1 1 = str "1" /\ ex_ratio 1 2 = str "0.5" /\ ex_ratio 1 3 = str "0.333333" /\ ex_ratio 2 3 = str "0.666667" /\
  ex_ratio 1 10 = str "0.1" /\ ex_ratio 100 1 = str "100" /\ ex_ratio 1 8192 = str "0.00012207" /\ ex_ratio 1 100000 = str "1e-05".
Proof. vm_compute. repeat split. Qed.
Example C94_round_nonvacuous :
  ex_ratio 1234565 1 = str "1.23456e+06" /\ ex_ratio 1234575 1 = str "1.23458e+06" /\ ex_ratio 1999999 2 = str "1e+06" /\
  ex_ratio 999999 1 = str "999999" /\ ex_ratio 999999 10000000000 = str "9.99999e-05" /\ ex_ratio 9999999 100000000000 = str "0.0001".
Proof. vm_compute. repeat split. Qed.
Example C94_range_nonvacuous :
  ex_binary 1 (-1074) = str "4.94066e-324" /\ ex_binary 9007199254740991 971 = str "1.79769e+308" /\
  print_double [] (S754_finite true 1 0) = str "-1".
Proof. vm_compute. repeat split. Qed.
Example C94_unique_nonvacuous : exists t, number_text (binary 1 (-1)) t /\ t = str "0.5".
Proof.
  destruct (print_double_shown [] false 1 (-1) ltac:(reflexivity) ltac:(lia)) as (t & E & H). exists t. split; [exact H|].
  change (t = [] ++ t) in E || idtac. symmetry in E. cbn [app] in E. rewrite E. vm_compute. reflexivity.
Qed.
