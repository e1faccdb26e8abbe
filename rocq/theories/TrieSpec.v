(** What a trie and a flat trie mean. *)
From Verif Require Import Base SortModel DatasModel UtfModel DictIoModel TrieModel.
From Coq Require Import Sorted.

(** The words a trie spells: paths from the root to a terminal node. *)
Inductive spells : list tnode -> list Z -> Prop :=
| spells_end t c kids : In (TN c true kids) t -> spells t [c]
| spells_step t c b kids w : In (TN c b kids) t -> spells kids w -> spells t (c :: w).

(** Siblings increase strictly, at every level. *)
Inductive well_ordered : list tnode -> Prop :=
| wo t : StronglySorted Z.lt (map tvalue t) -> (forall n, In n t -> well_ordered (tkids n)) -> well_ordered t.

(** Lexicographic order. *)
Inductive lex_lt : list Z -> list Z -> Prop :=
| lex_nil y b : lex_lt [] (y :: b)
| lex_head x y a b : x < y -> lex_lt (x :: a) (y :: b)
| lex_tail x a b : lex_lt a b -> lex_lt (x :: a) (x :: b).

(** The words of the array, following the links between nodes. *)
Inductive flat_spells (nodes : list fnode) : Z -> Z -> list Z -> Prop :=
| fs_end lo hi i e : lo <= i < hi -> rd nodes i = Ok e -> fn_term e = true ->
    flat_spells nodes lo hi [fn_char e]
| fs_step lo hi i e w : lo <= i < hi -> rd nodes i = Ok e ->
    flat_spells nodes (i + fn_pos e) (i + fn_pos e + fn_count e) w ->
    flat_spells nodes lo hi (fn_char e :: w).

(** Looking a word up with the searches of the ranges (trie.hpp 131-136). *)
Fixpoint lookup (nodes : list fnode) (lo hi : Z) (w : list Z) : res bool :=
  match w with
  | [] => Ok false
  | c :: w' =>
    i <- range_lower_bound nodes lo hi c ;;
    if i =? hi then Ok false
    else
      e <- rd nodes i ;;
      if fn_char e =? c then
        match w' with
        | [] => Ok (fn_term e)
        | _ :: _ => let '(lo', hi') := child_range i e in lookup nodes lo' hi' w'
        end
      else Ok false
  end.
Definition contains (nodes : list fnode) (w : list Z) : res bool :=
  match nodes with
  | [] => Ok false
  | _ :: _ => '(lo, hi) <- root_range nodes ;; lookup nodes lo hi w
  end.

(** Number of nodes of a trie. *)
Fixpoint node_count (n : tnode) : Z :=
  let 'TN _ _ l := n in 1 + fold_right (fun k s => node_count k + s) 0 l.
Definition trie_count (t : list tnode) : Z := fold_right (fun k s => node_count k + s) 0 t.

(** Total number of characters. *)
Definition letters (words : list (list Z)) : Z := vsize (List.concat words).
