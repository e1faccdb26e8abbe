(** Model of the stream operators of dictionaries: spell/dictionary.cpp 58-100. *)
From Verif Require Import Base StreamModel.

(** container/trie.hpp 146-188: flat_trie::node_type. *)
Record fnode := mkfn { fn_char : Z; fn_pos : Z; fn_count : Z; fn_term : bool }.

(** dictionary.cpp 58-69: operator<<. *)
Definition write_node (n : fnode) : list Z :=
  print_uint (fn_char n) ++ [32] ++ print_uint (fn_pos n) ++ [32] ++
  print_uint (fn_count n) ++ [32] ++ print_bool (fn_term n) ++ [10].
Definition write_dict (ns : list fnode) : list Z := flat_map write_node ns.

(** dictionary.cpp 90: is >> c >> e1 >> pos >> e2 >> sz >> e3 >> terminal >> e4;
    the values, or [None] when the stream fails. *)
Definition read_record (s : istream) : option (fnode * (Z * Z * Z * Z)) * istream :=
  let '(c, s) := get_unsigned 0 s in
  let '(e1, s) := get_char 0 s in
  let '(pos, s) := get_unsigned 0 s in
  let '(e2, s) := get_char 0 s in
  let '(sz, s) := get_unsigned 0 s in
  let '(e3, s) := get_char 0 s in
  let '(t, s) := get_bool false s in
  let '(e4, s) := get_char 0 s in
  (if is_ok s then Some (mkfn c pos sz t, (e1, e2, e3, e4)) else None, s).

(** dictionary.cpp 71-100: operator>>. *)
Definition read_dict (s : istream) : res (list fnode * istream) :=
  let flags := is_skipws s in
  '(ns, s) <-
    loop (S (S (List.length (is_rest s))))
      (fun st : list fnode * istream =>
        let '(ns, s) := st in
        let '(r, s) := read_record s in
        match r with
        | Some (n, (e1, e2, e3, e4)) =>
          if negb (e1 =? 32) || negb (e2 =? 32) || negb (e3 =? 32) || negb (e4 =? 10)
          then Throw ExBadFormat
          else Ok (inl (ns ++ [n], s))
        | None => Ok (inr (ns, s))
        end)
      ([], set_skipws false s) ;;
  Ok (ns, set_skipws flags s).
