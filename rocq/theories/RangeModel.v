(** Model of utils/range_iterator.hpp.  A pointer is a position in a buffer; the
    position just after its last cell is allowed, any other one is undefined. *)
From Verif Require Import Base IndexModel.

Section Range.
Context {A B : Type}.
(** range_iterator.hpp 113-131: class range_iterator, with the buffer of its pointers. *)
Record range := mkrg { rg_mem : list A; rg_first : Z; rg_last : Z; rg_proxy : A -> B }.
(** Pointer arithmetic. *)
Definition move (r : range) (p n : Z) : res Z :=
  if (0 <=? p + n) && (p + n <=? Z.of_nat (List.length (rg_mem r))) then Ok (p + n) else UB.

(** 103-104: proxy_iterator::operator*. *)
Definition star (r : range) (p : Z) : res B := a <- rd (rg_mem r) p ;; Ok (rg_proxy r a).
(** 109-110: proxy_iterator::operator[]. *)
Definition it_at (r : range) (p i : Z) : res B := q <- move r p i ;; a <- rd (rg_mem r) q ;; Ok (rg_proxy r a).
(** 50-51: the operators ++ are those of pointer_iterator, whose operator* (53-54)
    has no proxy: the expressions * ++it and *it++, with the new position. *)
Definition star_pre (r : range) (p : Z) : res (A * Z) := q <- move r p 1 ;; a <- rd (rg_mem r) q ;; Ok (a, q).
Definition star_post (r : range) (p : Z) : res (A * Z) := q <- move r p 1 ;; a <- rd (rg_mem r) p ;; Ok (a, q).
(** 59: *(it + n), of a pointer_iterator too. *)
Definition star_plus (r : range) (p n : Z) : res A := q <- move r p n ;; rd (rg_mem r) q.

(** 133-134, 50 and 66: for (auto x : range), with the values of x. *)
Definition range_for (r : range) : res (list B) :=
  loop (S (S (List.length (rg_mem r))))
    (fun '(p, out) =>
       if p =? rg_last r then Ok (inr out)
       else x <- star r p ;; q <- move r p 1 ;; Ok (inl (q, out ++ [x])))
    (rg_first r, []).
(** 136-137. *)
Definition range_at (r : range) (i : Z) : res B := it_at r (rg_first r) i.
(** 139-140. *)
Definition range_front (r : range) : res B := star r (rg_first r).
(** 142-143. *)
Definition range_back (r : range) : res B := q <- move r (rg_last r) (-1) ;; star r q.
(** 145-146. *)
Definition range_size (r : range) : Z := rg_last r - rg_first r.
(** 148. *)
Definition range_empty (r : range) : bool := rg_first r =? rg_last r.
End Range.

(** indexes_ordered.hpp 56-75 and data_indexes_ordered.hpp 42-50: the range that
    get_range makes, with the proxy by default (range_iterator.hpp 30-35). *)
Definition index_range (data indexes : list Z) (x d : Z) : res (@range Z Z) :=
  '(first, last) <- range_bounds data indexes (if d <? x then x - d else 0) (u32 (x + d)) ;;
  Ok (mkrg indexes first last (fun i => i)).
