(** Model of ocr2/replacement.hpp and ocr2/replacement.cpp. *)
From Verif Require Import Base StreamModel TrieModel.

(** replacement.hpp 30-33: pattern and replace. *)
Notation replacement := (list Z * list Z)%type (only parsing).

Fixpoint starts_with (pat s : list Z) : bool :=
  match pat, s with
  | [], _ => true
  | c :: pat', d :: s' => (c =? d) && starts_with pat' s'
  | _, [] => false
  end.
(** The position, counted from [i], of the first occurrence in [s]. *)
Fixpoint find_sub (pat s : list Z) (i : Z) : option Z :=
  if starts_with pat s then Some i
  else match s with [] => None | _ :: s' => find_sub pat s' (i + 1) end.
(** std::string::find. *)
Definition string_find (s pat : list Z) (pos : Z) : option Z :=
  if vsize s <? pos then None else find_sub pat (skipn (Z.to_nat pos) s) pos.
(** std::string::replace, pos being a position of the string.  (The length_error
    for strings longer than max_size is not modelled.) *)
Definition string_replace (s : list Z) (pos n : Z) (r : list Z) : list Z :=
  firstn (Z.to_nat pos) s ++ r ++ skipn (Z.to_nat (pos + n)) s.

(** replacement.hpp 41-44: a rule. *)
Definition replace_rule (fuel : nat) (rule : replacement) (result : list Z) : res (list Z) :=
  loop fuel
    (fun '(result, pos) =>
       match string_find result (fst rule) pos with
       | Some pos => Ok (inl (string_replace result pos (vsize (fst rule)) (snd rule), pos))
       | None => Ok (inr result)
       end)
    (result, 0).
(** replacement.hpp 39-46. *)
Fixpoint replace_words (fuel : nat) (result : list Z) (replacements : list replacement) : res (list Z) :=
  match replacements with
  | [] => Ok result
  | rule :: rules => result <- replace_rule fuel rule result ;; replace_words fuel result rules
  end.

(** replacement.cpp 23-42: operator>>(istream, Replacements) to no rules. *)
Definition read_replacements (s : istream) : res (list replacement * istream) :=
  loop (S (S (List.length (is_rest s))))
    (fun '(rep, rules, s) =>
       if is_ok s then
         let '(pattern, s) := get_word (fst rep) s in
         let '(replace, s) :=
           match is_rest s with
           | [] => (snd rep, s)
           | c :: _ => if c =? 10 then ([], s) else get_word (snd rep) s
           end in
         Ok (inl ((pattern, replace), if is_ok s then rules ++ [(pattern, replace)] else rules, s))
       else Ok (inr (rules, s)))
    (([], []), [], s).
