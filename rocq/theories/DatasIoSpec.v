(** What a feature file can hold. *)
From Verif Require Import Base StratModel DatasModel.

Definition is_u32 (n : Z) : Prop := 0 <= n < 4294967296.

(** The values of a feature: an unsigned integer, seven alternations, seven
    unsigned integers or any number of unsigned integers. *)
Definition value_of (a : algo) (v : fval) : Prop :=
  match v with
  | VNum n => is_u32 n /\ match a with Alternations | Zone | ProportionalityZone => False | _ => True end
  | VAlts l => a = Alternations /\ List.length l = 7%nat /\ Forall (fun x => is_u32 (alt_count x)) l
  | VArr l => a = Zone /\ List.length l = 7%nat /\ Forall is_u32 l
  | VVec l => a = ProportionalityZone /\ Z.of_nat (List.length l) < 18446744073709551616 /\ Forall is_u32 l
  end.

(** A table of [n] rows with the given features: one column of [n] values each. *)
Definition table (n : nat) (ss : list strategy) (cols : list (list fval)) : Prop :=
  Z.of_nat n < 18446744073709551616 /\
  Forall2 (fun s c => List.length c = n /\ Forall (value_of (st_algo s)) c) ss cols.

(** The number of complete lines of a text. *)
Definition text_lines (text : list Z) : nat := count_occ Z.eq_dec text 10.
