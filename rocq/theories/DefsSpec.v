(** Ordered definitions. *)
From Verif Require Import Base SortModel ImageModel ImageSpec TrieSpec DefsModel.
From Coq Require Import Sorted.

(** By character, then by font, then by picture. *)
Definition def_before {D} (a b : definition D) : Prop :=
  lex_lt (def_c a) (def_c b) \/
  (def_c a = def_c b /\ (lex_lt (def_font a) (def_font b) \/ (def_font a = def_font b /\ picture_before (def_img a) (def_img b)))).
(** Two definitions of the same picture as the same character of the same font. *)
Definition def_alike {D} (a b : definition D) : Prop :=
  def_c a = def_c b /\ def_font a = def_font b /\ def_img a = def_img b.
Definition increasing_defs {D} (l : list (definition D)) : Prop := StronglySorted def_before l.
Definition wf_def {D} (d : definition D) : Prop := full_image (def_img d).
