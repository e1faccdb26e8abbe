(** Spelling with candidates. *)
From Verif Require Import Base SortModel DatasModel UtfSpec TrieModel SpellModel.

(** Every text made of one candidate per position, the first positions varying
    last. *)
Fixpoint choices (positions : list (list (list Z))) : list (list Z) :=
  match positions with
  | [] => [[]]
  | cands :: rest => flat_map (fun s => map (fun w => s ++ w) (choices rest)) cands
  end.

(** The first choice that is one of the words. *)
Definition first_word (words : list (list Z)) (positions : list (list (list Z))) : option (list Z) :=
  find (fun w => existsb (list_eqb w) words) (choices positions).

(** A candidate of one character. *)
Definition one_char (s : list Z) : Prop := exists c, is_char c /\ s = encode c.

(** What is read of the candidates, given as lists of characters: empty ones
    are never used, and only the first character of those of the last position
    is looked at. *)
Definition nonempty {A} (s : list A) : bool := match s with [] => false | _ :: _ => true end.
Fixpoint readable (ps : list (list (list Z))) : list (list (list Z)) :=
  match ps with
  | [] => []
  | [cands] => [map (firstn 1) (filter nonempty cands)]
  | cands :: rest => filter nonempty cands :: readable rest
  end.
Definition texts (ps : list (list (list Z))) : list (list (list Z)) := map (map text_of) ps.

(** The answer expected of the disambiguation: the text is appended. *)
Definition verdict (out : list Z) (o : option (list Z)) : bool * list Z :=
  match o with Some w => (true, out ++ w) | None => (false, out) end.

(** Building a dictionary and using it once. *)
Definition run (words : list (list Z)) (positions : list (list (list Z))) (out : list Z) : res (bool * list Z) :=
  nodes <- make_dictionary (isort (list_ltb Z.ltb)) words ;; disambiguous nodes positions out.
