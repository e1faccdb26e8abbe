(** The feature table found in a file of any bytes. *)
From Verif Require Import Base StreamModel RefuseSpec GlyphFileSpec StratModel DatasModel.

(** The text is made of blanks, a sign or none, digits and [r], each as long as possible. *)
Definition cut_at (t sign ds r : list Z) : Prop :=
  exists p, blank p /\ signed sign ds /\ t = p ++ sign ++ ds ++ r /\
    match r with
    | c :: _ => is_digit c = false /\ (sign = [] -> ds = [] -> is_space c = false /\ c <> 43 /\ c <> 45)
    | [] => True
    end.
(** A number below [m], or what is stored when there is none. *)
Definition reads_uint (m : Z) (t : list Z) (v : Z) (r : list Z) : Prop :=
  exists sign ds, cut_at t sign ds r /\ ds <> [] /\ digits_value ds < m /\
    v = match sign with [45] => (- digits_value ds) mod m | _ => digits_value ds end.
Definition stops_uint (m : Z) (t : list Z) (v : Z) (b : bool) : Prop :=
  exists sign ds r, cut_at t sign ds r /\ (ds = [] /\ v = 0 \/ ds <> [] /\ m <= digits_value ds /\ v = m - 1) /\ (b = true <-> r = []).
(** 0, 1 or +1, or what is stored when there is none. *)
Definition is_flag (sign ds : list Z) : Prop := digits_value ds = 0 \/ digits_value ds = 1 /\ sign <> [45].
Definition reads_flag (t : list Z) (v : bool) (r : list Z) : Prop :=
  exists sign ds, cut_at t sign ds r /\ ds <> [] /\ is_flag sign ds /\ (v = true <-> digits_value ds = 1).
Definition stops_flag (t : list Z) (v : bool) (b : bool) : Prop :=
  exists sign ds r, cut_at t sign ds r /\ (ds = [] /\ v = false \/ ds <> [] /\ ~ is_flag sign ds /\ v = true) /\ (b = true <-> r = []).

(** [k] values one after the other; those that are missing are [zero]. *)
Section Row.
  Context {A : Type} (reads : list Z -> A -> list Z -> Prop) (stops : list Z -> A -> bool -> Prop) (zero : A).
  Inductive row_reads : nat -> list Z -> list A -> list Z -> Prop :=
  | rr_none t : row_reads 0 t [] t
  | rr_one k t v r l r' : reads t v r -> row_reads k r l r' -> row_reads (S k) t (v :: l) r'.
  Inductive row_stops : nat -> list Z -> list A -> bool -> Prop :=
  | rs_now k t v b : stops t v b -> row_stops (S k) t (v :: repeat zero k) b
  | rs_later k t v r l b : reads t v r -> row_stops k r l b -> row_stops (S k) t (v :: l) b.
End Row.

Notation u32_reads := (reads_uint 4294967296).
Notation u32_stops := (stops_uint 4294967296).
Definition alt_reads (t : list Z) (x : alternation) (r : list Z) : Prop :=
  exists r1, reads_flag t (alt_start x) r1 /\ u32_reads r1 (alt_count x) r.
Definition alt_stops (t : list Z) (x : alternation) (b : bool) : Prop :=
  (stops_flag t (alt_start x) b /\ alt_count x = 0) \/ (exists r1, reads_flag t (alt_start x) r1 /\ u32_stops r1 (alt_count x) b).
(** The value of a feature. *)
Definition value_reads (a : algo) (t : list Z) (v : fval) (r : list Z) : Prop :=
  match a with
  | Alternations => exists l, v = VAlts l /\ row_reads alt_reads 7 t l r
  | Zone => exists l, v = VArr l /\ row_reads u32_reads 7 t l r
  | ProportionalityZone => exists n r1 l, v = VVec l /\ reads_uint 18446744073709551616 t n r1 /\ row_reads u32_reads (Z.to_nat n) r1 l r
  | _ => exists n, v = VNum n /\ u32_reads t n r
  end.
Definition value_stops (a : algo) (t : list Z) (v : fval) (b : bool) : Prop :=
  match a with
  | Alternations => exists l, v = VAlts l /\ row_stops alt_reads alt_stops (mkalt false 0) 7 t l b
  | Zone => exists l, v = VArr l /\ row_stops u32_reads u32_stops 0 7 t l b
  | ProportionalityZone =>
    (exists n, v = VVec [] /\ stops_uint 18446744073709551616 t n b) \/
    (exists n r1 l, v = VVec l /\ reads_uint 18446744073709551616 t n r1 /\ row_stops u32_reads u32_stops 0 (Z.to_nat n) r1 l b)
  | _ => exists n, v = VNum n /\ u32_stops t n b
  end.
Definition no_value (a : algo) : fval :=
  match a with
  | Alternations => VAlts (repeat (mkalt false 0) 7)
  | Zone => VArr (repeat 0 7)
  | ProportionalityZone => VVec []
  | _ => VNum 0
  end.

(** The columns: the one in which the reading stops is filled with zeros, those after it
    are empty.  After the last one only blanks may follow. *)
Inductive columns_text (n : nat) : list strategy -> list Z -> list (list fval) -> bool -> Prop :=
| ct_end t b : (b = true <-> blank t) -> columns_text n [] t [] b
| ct_stop s ss t c b : row_stops (value_reads (st_algo s)) (value_stops (st_algo s)) (no_value (st_algo s)) n t c b ->
    columns_text n (s :: ss) t (c :: repeat [] (List.length ss)) b
| ct_more s ss t c r cs b : row_reads (value_reads (st_algo s)) n t c r -> columns_text n ss r cs b ->
    columns_text n (s :: ss) t (c :: cs) b.
Inductive table_text (ss : list strategy) : list Z -> list (list fval) -> bool -> Prop :=
| tt_size t n r cols b : reads_uint 18446744073709551616 t n r -> columns_text (Z.to_nat n) ss r cols b -> table_text ss t cols b
| tt_none t n b : ~ blank t -> stops_uint 18446744073709551616 t n b -> table_text ss t (repeat [] (List.length ss)) b.
(** All the rows that the file announces are in it, with nothing else. *)
Inductive whole_columns (n : nat) : list strategy -> list Z -> list (list fval) -> Prop :=
| wc_end t : blank t -> whole_columns n [] t []
| wc_more s ss t c r cs : row_reads (value_reads (st_algo s)) n t c r -> whole_columns n ss r cs -> whole_columns n (s :: ss) t (c :: cs).
Definition whole_table (ss : list strategy) (t : list Z) (cols : list (list fval)) : Prop :=
  exists n r, reads_uint 18446744073709551616 t n r /\ whole_columns (Z.to_nat n) ss r cols.
