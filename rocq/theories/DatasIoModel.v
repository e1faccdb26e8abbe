(** Model of the stream operators of feature tables: defined_loader.hpp 156-266
    and strategies/alternations.cpp 78-84. *)
From Verif Require Import Base ImageModel StratModel ZoneModel DatasModel StreamModel.

(** strategies/*.hpp: the value type of each feature, as the value with which
    vector::resize fills new cells (zeros). *)
Definition zero_of (a : algo) : fval :=
  match a with
  | Alternations => VAlts (repeat (mkalt false 0) 7)
  | Zone => VArr (repeat 0 7)
  | ProportionalityZone => VVec []
  | _ => VNum 0
  end.

(** alternations.cpp 78-80. *)
Definition write_alt (x : alternation) : list Z :=
  print_bool (alt_start x) ++ [32] ++ print_uint (alt_count x).
(** defined_loader.hpp 174-193: WriteApplyData::write. *)
Definition write_fval (v : fval) : list Z :=
  match v with
  | VNum n => print_uint n ++ [32]
  | VAlts l => flat_map (fun x => write_alt x ++ [32]) l
  | VArr l => flat_map (fun x => print_uint x ++ [32]) l
  | VVec l => print_uint (Z.of_nat (List.length l)) ++ [32] ++ flat_map (fun x => print_uint x ++ [32]) l
  end.
(** defined_loader.hpp 160-171: WriteApplyData, to a stream that does not fail. *)
Definition write_column (c : list fval) : list Z := flat_map write_fval c ++ [10].
(** defined_loader.hpp 246-251 and datas_loader.hpp 207-209: Datas::size is the
    size of the first column. *)
Definition datas_size (cols : list (list fval)) : Z :=
  match cols with c :: _ => Z.of_nat (List.length c) | [] => 0 end.
Definition write_datas (cols : list (list fval)) : list Z :=
  print_uint (datas_size cols) ++ [10] ++ flat_map write_column cols.

(** Reading the cells of a container one after the other. *)
Fixpoint read_cells {A} (read : A -> istream -> A * istream) (l : list A) (s : istream) : list A * istream :=
  match l with
  | x :: l' =>
    let '(y, s) := read x s in
    let '(l', s) := read_cells read l' s in
    (y :: l', s)
  | [] => ([], s)
  end.

(** alternations.cpp 82-84. *)
Definition read_alt (x : alternation) (s : istream) : alternation * istream :=
  let '(b, s) := get_bool (alt_start x) s in
  let '(n, s) := get_unsigned (alt_count x) s in
  (mkalt b n, s).
(** defined_loader.hpp 220-242: ReadApplyData::read.  The allocation failures of
    resize are not modelled. *)
Definition read_fval (v : fval) (s : istream) : fval * istream :=
  match v with
  | VNum n => let '(n, s) := get_unsigned n s in (VNum n, s)
  | VAlts l => let '(l, s) := read_cells read_alt l s in (VAlts l, s)
  | VArr l => let '(l, s) := read_cells get_unsigned l s in (VArr l, s)
  | VVec l =>
    let '(n, s) := get_size 0 s in
    if is_ok s then
      let '(l, s) := read_cells get_unsigned
        (firstn (Z.to_nat n) l ++ repeat 0 (Z.to_nat n - List.length l)) s in
      (VVec l, s)
    else (VVec l, s)
  end.
(** defined_loader.hpp 198-217: ReadApplyData. *)
Fixpoint read_columns (n : Z) (ss : list strategy) (s : istream) : list (list fval) * istream :=
  match ss with
  | st :: ss' =>
    let '(c, s) :=
      if is_ok s then read_cells read_fval (repeat (zero_of (st_algo st)) (Z.to_nat n)) s
      else ([], s) in
    let '(cs, s) := read_columns n ss' s in
    (c :: cs, s)
  | [] => ([], if is_ok s then snd (sentry false s) else s)
  end.
(** defined_loader.hpp 253-263: operator>>(istream, Datas): the columns.  The size
    is copied even if nothing was there to assign it. *)
Definition read_datas (ss : list strategy) (s : istream) : res (list (list fval) * istream) :=
  if fst (sentry false s) then
    let '(n, s) := get_size 0 s in
    Ok (read_columns n ss s)
  else UB.
