(** What a dictionary file must look like to be accepted. *)
From Verif Require Import Base StreamModel DictIoModel.

(** A sign, possibly none, and digits. *)
Definition signed (sign ds : list Z) : Prop :=
  (sign = [] \/ sign = [43] \/ sign = [45]) /\ forall c, In c ds -> is_digit c = true.
(** A number below [m]; a minus sign gives the opposite modulo [m]. *)
Definition number_text (m v : Z) (t : list Z) : Prop :=
  exists sign ds, t = sign ++ ds /\ signed sign ds /\ ds <> [] /\ digits_value ds < m /\
    v = match sign with [45] => (- digits_value ds) mod m | _ => digits_value ds end.
(** 0 or 1, not -1. *)
Definition flag_text (b : bool) (t : list Z) : Prop :=
  exists sign ds, t = sign ++ ds /\ signed sign ds /\ ds <> [] /\
    (digits_value ds = 0 /\ b = false \/ digits_value ds = 1 /\ sign <> [45] /\ b = true).
Definition record_text (n : fnode) (t : list Z) : Prop :=
  exists a b c d, t = a ++ [32] ++ b ++ [32] ++ c ++ [32] ++ d ++ [10] /\
    number_text 4294967296 (fn_char n) a /\ number_text 4294967296 (fn_pos n) b /\ number_text 4294967296 (fn_count n) c /\ flag_text (fn_term n) d.
(** The beginning of a record, cut before its last separator: at most three numbers
    followed by any separators, and a last number without its end. *)
Definition unfinished (t : list Z) : Prop :=
  exists fields sign ds, (List.length fields <= 3)%nat /\
    Forall (fun '(f, e) => is_digit e = false /\ exists v, number_text 4294967296 v f) fields /\ signed sign ds /\
    t = flat_map (fun '(f, e) => f ++ [e]) fields ++ sign ++ ds.
