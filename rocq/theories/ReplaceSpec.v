(** Replacing texts. *)
From Verif Require Import Base GlyphIoSpec.
From Coq Require Import Relation_Operators.

Definition occurs (pat s : list Z) : Prop := exists u v, s = u ++ pat ++ v.
(** One replacement somewhere. *)
Definition rewrites (pat rep : list Z) (a b : list Z) : Prop := exists u v, a = u ++ pat ++ v /\ b = u ++ rep ++ v.
(** No end of the pattern can be completed to the pattern by the replacement. *)
Definition no_overlap (pat rep : list Z) : Prop :=
  forall a b, pat = a ++ b -> a <> [] -> b <> [] -> (forall c, rep <> b ++ c) /\ (forall c, b <> rep ++ c).

(** A file of rules, one a line: the pattern, and the replacement if any. *)
Definition rule_text (r : list Z * list Z) : list Z :=
  fst r ++ (match snd r with [] => [] | w => [32] ++ w end) ++ [10].
Definition rules_text (rules : list (list Z * list Z)) : list Z := flat_map rule_text rules.
Definition good_rule (r : list Z * list Z) : Prop := plain_text (fst r) /\ (snd r = [] \/ plain_text (snd r)).
