(** What the reader of replacement rules makes of a file of any bytes. *)
From Verif Require Import Base StreamModel GlyphIoSpec GlyphFileSpec.

Definition starts_blank (l : list Z) : Prop := match l with c :: _ => is_space c = true | [] => True end.
(** The rules of a text; [before] is the replacement of the rule before. *)
Inductive rules_in (before : list Z) : list Z -> list (list Z * list Z) -> Prop :=
| ri_end t : blank t -> rules_in before t []
  (* the end of the file follows the pattern *)
| ri_last p w : blank p -> plain_text w -> rules_in before (p ++ w) [(w, before)]
  (* the end of the line *)
| ri_alone p w r l : blank p -> plain_text w -> rules_in [] (10 :: r) l -> rules_in before (p ++ w ++ 10 :: r) ((w, []) :: l)
  (* another blank: the next word, even on a later line *)
| ri_rule p w c q w' r l : blank p -> plain_text w -> is_space c = true -> c <> 10 -> blank q -> plain_text w' -> starts_blank r ->
    rules_in w' r l -> rules_in before (p ++ w ++ c :: q ++ w' ++ r) ((w, w') :: l)
| ri_lost p w c q : blank p -> plain_text w -> is_space c = true -> c <> 10 -> blank q -> rules_in before (p ++ w ++ c :: q) [].
