(** Model of the std::istream and std::ostream operations used by /repo, as
    libstdc++ implements them (bits/istream.tcc, bits/locale_facets.tcc), with the
    default locale and the decimal base.  The bad bit is not modelled: a stream
    is a finite sequence of bytes and reading it does not fail otherwise than by
    reaching its end. *)
From Verif Require Import Base.

(** The characters not yet read, eofbit, failbit, and the flag skipws. *)
Record istream := mkis { is_rest : list Z; is_eof : bool; is_fail : bool; is_skipws : bool }.

(** A std::ifstream or std::istringstream just opened. *)
Definition open_stream (bytes : list Z) : istream := mkis bytes false false true.

(** std::ios::operator bool. *)
Definition is_ok (s : istream) : bool := negb (is_fail s).
(** ios::setstate. *)
Definition set_state (eof fail : bool) (s : istream) : istream :=
  mkis (is_rest s) (is_eof s || eof) (is_fail s || fail) (is_skipws s).
Definition set_rest (l : list Z) (s : istream) : istream :=
  mkis l (is_eof s) (is_fail s) (is_skipws s).
(** ios::setf(skipws), ios::unsetf(skipws), ios::flags. *)
Definition set_skipws (b : bool) (s : istream) : istream :=
  mkis (is_rest s) (is_eof s) (is_fail s) b.

(** std::isspace in the default locale. *)
Definition is_space (c : Z) : bool := (c =? 32) || ((9 <=? c) && (c <=? 13)).
Definition is_digit (c : Z) : bool := (48 <=? c) && (c <=? 57).

Definition null {A} (l : list A) : bool := match l with [] => true | _ => false end.

Fixpoint drop_spaces (l : list Z) : list Z :=
  match l with
  | c :: l' => if is_space c then drop_spaces l' else l
  | [] => []
  end.

(** std::istream::sentry. *)
Definition sentry (noskip : bool) (s : istream) : bool * istream :=
  if is_eof s || is_fail s then (false, set_state false true s)
  else if negb noskip && is_skipws s then
    let l := drop_spaces (is_rest s) in
    let s' := set_rest l s in
    if null l then (false, set_state true true s') else (true, s')
  else (true, s).

(** The longest prefix of digits, and what follows. *)
Fixpoint span_digits (l : list Z) : list Z * list Z :=
  match l with
  | c :: l' => if is_digit c then let '(ds, r) := span_digits l' in (c :: ds, r) else ([], l)
  | [] => ([], [])
  end.
Definition digits_value (ds : list Z) : Z := fold_left (fun a d => a * 10 + (d - 48)) ds 0.

(** num_get::_M_extract_int: the sign, the digits and the rest of the text. *)
Definition span_int (l : list Z) : bool * list Z * list Z :=
  match l with
  | c :: l' =>
    if (c =? 45) || (c =? 43) then let '(ds, r) := span_digits l' in (c =? 45, ds, r)
    else let '(ds, r) := span_digits l in (false, ds, r)
  | [] => (false, [], [])
  end.

(** operator>> to an unsigned type whose values are those below [m]; [old] is
    the value of the variable before. *)
Definition get_uint (m old : Z) (s : istream) : Z * istream :=
  let '(ok, s) := sentry false s in
  if ok : bool then
    let '(neg, ds, r) := span_int (is_rest s) in
    let s := set_state (null r) false (set_rest r s) in
    if null ds then (0, set_state false true s)
    else if m <=? digits_value ds then (m - 1, set_state false true s)
    else (if neg : bool then (- digits_value ds) mod m else digits_value ds, s)
  else (old, s).
Definition get_unsigned := get_uint 4294967296.
Definition get_size := get_uint 18446744073709551616.

(** operator>> to bool without boolalpha (num_get::do_get(bool&)). *)
Definition get_bool (old : bool) (s : istream) : bool * istream :=
  let '(ok, s) := sentry false s in
  if ok : bool then
    let '(neg, ds, r) := span_int (is_rest s) in
    let s := set_state (null r) false (set_rest r s) in
    if null ds then (false, set_state false true s)
    else if digits_value ds =? 0 then (false, s)
    else if (digits_value ds =? 1) && negb neg then (true, s)
    else (true, set_state false true s)
  else (old, s).

(** operator>> to char. *)
Definition get_char (old : Z) (s : istream) : Z * istream :=
  let '(ok, s) := sentry false s in
  if ok : bool then
    match is_rest s with
    | c :: r => (c, set_rest r s)
    | [] => (old, set_state true true s)
    end
  else (old, s).

(** The longest prefix without white space, and what follows. *)
Fixpoint span_word (l : list Z) : list Z * list Z :=
  match l with
  | c :: l' => if is_space c then ([], l) else let '(w, r) := span_word l' in (c :: w, r)
  | [] => ([], [])
  end.

(** operator>> to std::string. *)
Definition get_word (old : list Z) (s : istream) : list Z * istream :=
  let '(ok, s) := sentry false s in
  if ok : bool then
    let '(w, r) := span_word (is_rest s) in
    (w, set_state (null r) (null w) (set_rest r s))
  else (old, s).

(** streambuf::snextc: skips one character, whatever the state. *)
Definition skip_char (s : istream) : istream :=
  match is_rest s with _ :: r => set_rest r s | [] => s end.

(** istream::read of [n] bytes to a fresh block: the bytes written and the
    stream.  (The block is longer when the stream ends early.) *)
Fixpoint split_at (n : Z) (l : list Z) : list Z * list Z :=
  match l with
  | c :: l' => if n <=? 0 then ([], l) else let '(a, b) := split_at (n - 1) l' in (c :: a, b)
  | [] => ([], [])
  end.
Definition read_bytes (n : Z) (s : istream) : list Z * istream :=
  let '(ok, s) := sentry true s in
  if ok : bool then
    let '(a, b) := split_at n (is_rest s) in
    let short := Z.of_nat (List.length a) <? n in
    (a, set_state short short (set_rest b s))
  else ([], s).

(** istream::ignore(max, '\n'). *)
Fixpoint after_newline (l : list Z) : option (list Z) :=
  match l with
  | c :: l' => if c =? 10 then Some l' else after_newline l'
  | [] => None
  end.
Definition ignore_line (s : istream) : istream :=
  let '(ok, s) := sentry true s in
  if ok : bool then
    match after_newline (is_rest s) with
    | Some r => set_rest r s
    | None => set_state true false (set_rest [] s)
    end
  else s.

(** operator<< of an unsigned integer below 10^20. *)
Fixpoint print_digits (f : nat) (n : Z) : list Z :=
  match f with
  | O => []
  | S f' => if n <? 10 then [48 + n] else print_digits f' (n / 10) ++ [48 + n mod 10]
  end.
Definition print_uint (n : Z) : list Z := print_digits 20 n.
Definition print_bool (b : bool) : list Z := [if b then 49 else 48].

(** utils/read_file.hpp 28-42: check_read_file of a file that can be opened;
    the error message is not modelled. *)
Definition load_file {A} (read : istream -> res (A * istream)) (bytes : list Z) : res A :=
  '(x, s) <- read (open_stream bytes) ;;
  if is_eof s then Ok x else Throw ExReadFile.
