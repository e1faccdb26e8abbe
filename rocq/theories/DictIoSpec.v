(** What a dictionary file can hold, and its records. *)
From Verif Require Import Base DictIoModel.

(** The fields are unsigned integers. *)
Definition storable_node (n : fnode) : Prop :=
  0 <= fn_char n < 4294967296 /\ 0 <= fn_pos n < 4294967296 /\ 0 <= fn_count n < 4294967296.

(** The number of complete lines of a text. *)
Definition lines (text : list Z) : nat := count_occ Z.eq_dec text 10.

(** Every link of the table points to nodes of the table. *)
Definition links_inside (ns : list fnode) : Prop :=
  forall i n, nth_error ns i = Some n -> fn_count n <> 0 ->
    Z.of_nat i + fn_pos n + fn_count n <= Z.of_nat (List.length ns).
