(** Conventions shared by all the model files: outcomes of C++ computations,
    32-bit arithmetic, bounds-checked memory, fuelled loops.  No proof here. *)
From Coq Require Export ZArith List Bool Lia String Ascii.
Export ListNotations.
Open Scope Z_scope.

(** Exceptions thrown by the code (std::runtime_error and friends); the text of
    the message is kept only as a tag. *)
Inductive exn : Set :=
| ExInvalidPnm      (* image_from_file.cpp: "invalid ... header" *)
| ExUnsupported     (* image_from_file.cpp: unsupported pnm type *)
| ExBadLength       (* image_from_file.cpp: invalid data length *)
| ExBadData         (* image_from_file.cpp: invalid ascii data *)
| ExTooLarge        (* image_from_file.cpp: image too large / empty *)
| ExBadFormat       (* dictionary.cpp: "bad format" *)
| ExReadFile        (* utils/read_file.hpp *)
| ExIo.             (* a failing system call *)

(** Outcome of a C++ computation.  [UB] is undefined behaviour (out-of-bounds
    access, division by zero, read of uninitialised memory, ...); [NoFuel] is
    "the loop has not finished within the fuel". *)
Inductive res (A : Type) : Type :=
| Ok (a : A)
| Throw (e : exn)
| UB
| NoFuel.
Arguments Ok {A} a.
Arguments Throw {A} e.
Arguments UB {A}.
Arguments NoFuel {A}.

Definition bind {A B} (m : res A) (k : A -> res B) : res B :=
  match m with
  | Ok a => k a
  | Throw e => Throw e
  | UB => UB
  | NoFuel => NoFuel
  end.

Declare Scope res_scope.
Delimit Scope res_scope with res.
Notation "x <- m ;; k" := (bind m (fun x => k))
  (at level 61, m at next level, right associativity) : res_scope.
Notation "' p <- m ;; k" := (bind m (fun p => k))
  (at level 61, p pattern, m at next level, right associativity) : res_scope.
Open Scope res_scope.

(** [unsigned] is 32 bits wide, [size_t] 64 bits wide (x86-64). *)
Definition u32 (z : Z) : Z := z mod 4294967296.
Definition u64 (z : Z) : Z := z mod 18446744073709551616.

(** Integer division: division by zero is undefined behaviour. *)
Definition divu (a b : Z) : res Z := if b =? 0 then UB else Ok (a / b).

(** Bounds-checked read of cell [i] of an array. *)
Definition rd {A} (l : list A) (i : Z) : res A :=
  if i <? 0 then UB
  else match nth_error l (Z.to_nat i) with
       | Some a => Ok a
       | None => UB
       end.

(** Replacement of cell [n] of a list. *)
Fixpoint upd {A} (l : list A) (n : nat) (v : A) : list A :=
  match l, n with
  | [], _ => []
  | _ :: t, O => v :: t
  | a :: t, S m => a :: upd t m v
  end.

(** Bounds-checked write of cell [i] of an array. *)
Definition wr {A} (l : list A) (i : Z) (v : A) : res (list A) :=
  if (i <? 0) || (Z.of_nat (List.length l) <=? i) then UB
  else Ok (upd l (Z.to_nat i) v).

(** Sequential writes "*out++ = v" into a fresh block of [cap] cells: the cells
    written so far are [out]; writing past the block is UB. *)
Definition emit {A} (cap : Z) (out : list A) (v : A) : res (list A) :=
  if Z.of_nat (List.length out) <? cap then Ok (out ++ [v]) else UB.

(** A loop: [body] returns [inl] to go on with a new state, [inr] to stop. *)
Fixpoint loop {St R : Type} (fuel : nat) (body : St -> res (St + R)) (s : St)
  : res R :=
  match fuel with
  | O => NoFuel
  | S f =>
    match body s with
    | Ok (inl s') => loop f body s'
    | Ok (inr r) => Ok r
    | Throw e => Throw e
    | UB => UB
    | NoFuel => NoFuel
    end
  end.

(** for (i = i0; [n] times; ++i) s = body i s. *)
Fixpoint for_up {St : Type} (n : nat) (i : Z) (body : Z -> St -> res St) (s : St)
  : res St :=
  match n with
  | O => Ok s
  | S m => s' <- body i s ;; for_up m (i + 1) body s'
  end.

(** Character codes of a string literal. *)
Fixpoint str (s : string) : list Z :=
  match s with
  | EmptyString => []
  | String c t => Z.of_N (N_of_ascii c) :: str t
  end.

(** The integers 0, 1, ..., n-1. *)
Definition zrange (n : Z) : list Z := List.map Z.of_nat (seq 0 (Z.to_nat n)).
