(** Dictionaries that have more or fewer words. *)
From Verif Require Import Base SortModel DatasModel UtfSpec DictIoModel TrieModel TrieSpec SpellModel SpellSpec.

(** A dictionary file of some words, or no file and no word. *)
Definition dictionary_file (file : option (list Z)) (words : list (list Z)) : Prop :=
  (file = None /\ words = []) \/
  exists sort nodes, file = Some (write_dict nodes) /\ is_std_sort (list_ltb Z.ltb) sort /\ Forall well_formed words /\ ~ In [] words /\
    letters words < 4294967296 /\ make_dictionary sort words = Ok nodes.
(** Texts that can be written with some labels, side by side. *)
Definition written (labels : list (list Z)) (w : list Z) : Prop := exists l, Forall (fun s => In s labels) l /\ w = List.concat l.
(** What a program can read: the labels, the sign of the unknown and the space. *)
Definition signs (labels : list (list Z)) : list (list Z) := str "_" :: str " " :: labels.
(** The dictionaries have the same words among those that can be written. *)
Definition agree_on (labels words words' : list (list Z)) : Prop := forall w, written labels w -> (In w words <-> In w words').
