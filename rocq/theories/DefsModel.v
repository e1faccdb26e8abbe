(** Model of utils/unique_sort_definition.cpp.  The header of Definition is not in
    the repository; the members that are used are modelled, the features being of
    any type [D]. *)
From Verif Require Import Base SortModel ImageModel DatasModel TrieModel.

(** The members used at unique_sort_definition.cpp 35, 45, 54 and the features. *)
Record definition (D : Type) := mkdef { def_c : list Z; def_font : list Z; def_img : image; def_datas : D }.
Arguments mkdef {D}.
Arguments def_c {D}.
Arguments def_font {D}.
Arguments def_img {D}.
Arguments def_datas {D}.

(** unique_sort_definition.cpp 33-55: the comparison given to std::sort, on images
    whose pixels it may read (C04). *)
Definition def_less {D} (a b : definition D) : bool :=
  if list_ltb Z.ltb (def_c a) (def_c b) then true
  else if list_ltb Z.ltb (def_c b) (def_c a) then false
  else if list_ltb Z.ltb (def_font a) (def_font b) then true
  else if list_ltb Z.ltb (def_font b) (def_font a) then false
  else match image_compare (def_img a) (def_img b) with Ok c => c <? 0 | _ => false end.

(** unique_sort_definition.cpp 57-59: the equality given to std::unique. *)
Definition def_same {D} (a b : definition D) : res bool :=
  if negb (list_eqb (def_c a) (def_c b)) then Ok false
  else if negb (list_eqb (def_font a) (def_font b)) then Ok false
  else image_eq (def_img a) (def_img b).

(** std::unique followed by erase (57-59): [kept] is the last element kept. *)
Fixpoint unique_defs {D} (kept : definition D) (l : list (definition D)) : res (list (definition D)) :=
  match l with
  | [] => Ok [kept]
  | d :: l' =>
    e <- def_same kept d ;;
    if e : bool then unique_defs kept l' else r <- unique_defs d l' ;; Ok (kept :: r)
  end.

(** unique_sort_definition.cpp 27-60. *)
Definition unique_sort_definitions {D} (sort : list (definition D) -> list (definition D)) (defs : list (definition D)) : res (list (definition D)) :=
  match defs with
  | [] => Ok []
  | _ => match sort defs with [] => Ok [] | d :: l => unique_defs d l end
  end.
