(** How a number is printed: the decimal number with six digits that is nearest to
    it, without useless zeros. *)
From Verif Require Import Base FloatModel.
From Coq Require Import SpecFloat QArith Qabs.
Local Open Scope Z_scope.

(** m . 10^k. *)
Definition decimal (m k : Z) : Q := (inject_Z m * (10 # 1) ^ k)%Q.
(** The positive numbers with at most six digits, and those whose sixth digit is
    even, the first not being 0. *)
Definition six_digits (v : Q) : Prop := exists a b, 0 < a < 1000000 /\ (v == decimal a b)%Q.
Definition sixth_even (v : Q) : Prop := exists a b, 100000 <= a < 1000000 /\ Z.even a = true /\ (v == decimal a b)%Q.
(** The one nearest to [x]; of two, the one whose sixth digit is even. *)
Definition nearest_six (x v : Q) : Prop :=
  six_digits v /\
  forall w, six_digits w -> ~ (w == v)%Q -> (Qabs (v - x) < Qabs (w - x))%Q \/ (Qabs (v - x) == Qabs (w - x))%Q /\ sixth_even v.

(** The texts of digits, and their values. *)
Definition digits (l : list Z) : Prop := Forall (fun c => 48 <= c <= 57) l.
Definition number (l : list Z) : Z := fold_left (fun a c => 10 * a + (c - 48)) l 0.
(** Without useless zero before it, and after it. *)
Definition whole_part (l : list Z) : Prop := digits l /\ exists c l', l = c :: l' /\ (c = 48 -> l' = []).
Definition decimals (l : list Z) : Prop := digits l /\ forall l', l <> l' ++ [48].
Definition with_point (whole fraction : list Z) : list Z := whole ++ match fraction with [] => [] | _ => [46] ++ fraction end.
(** An exponent, with two digits at least. *)
Definition exponent_text (x : Z) (t : list Z) : Prop :=
  exists ds, digits ds /\ number ds = Z.abs x /\ t = (if x <? 0 then str "e-" else str "e+") ++ ds /\
    (List.length ds = 2%nat \/ (2 < List.length ds)%nat /\ 10 ^ (Z.of_nat (List.length ds) - 1) <= Z.abs x).

(** The text of a positive number: from 0.0001 to a million, without exponent; the
    others, with one digit before the point and an exponent. *)
Inductive decimal_text (v : Q) : list Z -> Prop :=
| text_fixed w f : whole_part w -> decimals f -> (v == decimal (number (w ++ f)) (- Z.of_nat (List.length f)))%Q ->
    (decimal 1 (-4) <= v)%Q -> (v < decimal 1 6)%Q -> decimal_text v (with_point w f)
| text_exponent c f x t : 49 <= c <= 57 -> decimals f -> exponent_text x t -> (v == decimal (number (c :: f)) (x - Z.of_nat (List.length f)))%Q ->
    (v < decimal 1 (-4))%Q \/ (decimal 1 6 <= v)%Q -> decimal_text v (with_point [c] f ++ t).

(** The text of a number that is not negative. *)
Definition number_text (x : Q) (t : list Z) : Prop :=
  (x == 0)%Q /\ t = str "0" \/ (0 < x)%Q /\ exists v, nearest_six x v /\ decimal_text v t.
(** The number m . 2^e. *)
Definition binary (m e : Z) : Q := (inject_Z m * (2 # 1) ^ e)%Q.
