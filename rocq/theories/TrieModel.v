(** Model of container/trie.hpp and of the construction of a dictionary
    (spell/dictionary.cpp). *)
From Verif Require Import Base SortModel DatasModel UtfModel DictIoModel.

(** trie.hpp 33-65: trie<uint32_t>::node_type; a trie is its vector of nodes. *)
Inductive tnode := TN (value : Z) (terminal : bool) (nodes : list tnode).
Definition tvalue (n : tnode) : Z := let 'TN v _ _ := n in v.
Definition tterm (n : tnode) : bool := let 'TN _ b _ := n in b.
Definition tkids (n : tnode) : list tnode := let 'TN _ _ l := n in l.

Definition vsize {A} (l : list A) : Z := Z.of_nat (List.length l).

(** 80-98: insert_after on the words [first, last) of the vector, [nodes] being
    the nodes already there.  The depth is an unsigned int; the recursion on
    [trie_back_()] fills the new last node. *)
Fixpoint insert_after (fuel : nat) (words : list (list Z)) (first last depth : Z)
    (nodes : list tnode) : res (list tnode) :=
  match fuel with
  | O => NoFuel
  | S fuel' =>
    if first =? last then Ok nodes
    else
      w <- rd words first ;;
      c <- rd w depth ;;
      middle <- partition_point
        (fun i =>
          s <- rd words i ;;
          if depth <? vsize s then x <- rd s depth ;; Ok (negb (c <? x)) else Ok true)
        first last ;;
      let first' := if vsize w =? u32 (depth + 1) then first + 1 else first in
      sub <- insert_after fuel' words first' middle (u32 (depth + 1)) [] ;;
      insert_after fuel' words middle last depth
        (nodes ++ [TN c (u32 (depth + 1) =? vsize w) sub])
  end.

(** 76-78: the constructor. *)
Definition make_trie (words : list (list Z)) : res (list tnode) :=
  insert_after (S (List.length words + List.length (List.concat words))) words 0 (vsize words) 0 [].

(** 151-155: a flat node before its position is known. *)
Definition flat_node (n : tnode) : fnode :=
  mkfn (tvalue n) 0 (u32 (vsize (tkids n))) (tterm n).
Definition set_pos (e : fnode) (pos : Z) : fnode :=
  mkfn (fn_char e) pos (fn_count e) (fn_term e).

(** 231-239: the tries of one level. *)
Fixpoint flatten_level (level : list (list tnode)) (pos : Z) (elems : list fnode)
    (next : list (list tnode)) : res (Z * list fnode * list (list tnode)) :=
  match level with
  | [] => Ok (pos, elems, next)
  | t :: level' =>
    let sz := vsize elems in
    e <- rd elems pos ;;
    elems1 <- wr elems pos (set_pos e (u32 (sz - pos))) ;;
    let '(elems2, next2) :=
      match t with
      | [] => (elems1, next)
      | _ :: _ => (elems1 ++ map flat_node t, next ++ map tkids t)
      end in
    flatten_level level' (pos + 1) elems2 next2
  end.

(** 230-243: while (!ptries1.empty()). *)
Fixpoint flatten_levels (fuel : nat) (level : list (list tnode)) (pos : Z)
    (elems : list fnode) : res (list fnode) :=
  match level with
  | [] => Ok elems
  | _ :: _ =>
    match fuel with
    | O => NoFuel
    | S fuel' =>
      '(pos', elems', next) <- flatten_level level pos elems [] ;;
      flatten_levels fuel' next pos' elems'
    end
  end.

(** A bound on the number of levels. *)
Fixpoint height (n : tnode) : nat :=
  let 'TN _ _ l := n in S (fold_right (fun k m => Nat.max (height k) m) 0%nat l).
Definition heights (t : list tnode) : nat := fold_right (fun k m => Nat.max (height k) m) 0%nat t.

(** 222-246: flat_trie(trie const &). *)
Definition flatten (t : list tnode) : res (list fnode) :=
  flatten_levels (heights t) (map tkids t) 0 (map flat_node t).

(** std::unique followed by erase, on vectors of codes. *)
Fixpoint list_eqb (a b : list Z) : bool :=
  match a, b with
  | [], [] => true
  | x :: a', y :: b' => (x =? y) && list_eqb a' b'
  | _, _ => false
  end.
Fixpoint uniq (l : list (list Z)) : list (list Z) :=
  match l with
  | [] => []
  | a :: l' =>
    match uniq l' with
    | b :: r => if list_eqb a b then a :: r else a :: b :: r
    | [] => [a]
    end
  end.

Fixpoint map_res {A B} (f : A -> res B) (l : list A) : res (list B) :=
  match l with
  | [] => Ok []
  | a :: l' => b <- f a ;; bs <- map_res f l' ;; Ok (b :: bs)
  end.

(** dictionary.cpp 36-51. *)
Definition make_dictionary (sort : list (list Z) -> list (list Z)) (words : list (list Z))
    : res (list fnode) :=
  uwords <- map_res utf8_codes words ;;
  t <- make_trie (uniq (sort uwords)) ;;
  flatten t.

(** trie.hpp 118-141: range::lower_bound. *)
Definition range_lower_bound (nodes : list fnode) (lo hi c : Z) : res Z :=
  partition_point (fun i => e <- rd nodes i ;; Ok (fn_char e <? c)) lo hi.
(** trie.hpp 163-165: the children of the node at index [i]. *)
Definition child_range (i : Z) (e : fnode) : Z * Z := (i + fn_pos e, i + fn_pos e + fn_count e).
(** trie.hpp 249-255: the children of the root. *)
Definition root_range (nodes : list fnode) : res (Z * Z) :=
  match nodes with
  | [] => UB  (* &elems_[0] *)
  | e :: _ => Ok (0, fn_pos e)
  end.
