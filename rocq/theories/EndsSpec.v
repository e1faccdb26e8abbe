(** What "the run ends" means, and the disks whose files are files. *)
From Verif Require Import Base ImageModel TrieModel.

(** The computation comes to an end: with a result, an exception, or undefined
    behaviour; no loop goes on beyond what the model foresees. *)
Definition ends {A} (m : res A) : Prop := m <> NoFuel.

(** The files of a disk are bytes, less than 2^32 of them. *)
Definition plain_disk (disk : list Z -> option (list Z)) : Prop :=
  forall name bytes, disk name = Some bytes -> Forall (fun b => 0 <= b < 256) bytes /\ vsize bytes < 4294967296.

(** Bounds of 32 bits, and no more pixels than the area. *)
Definition sane (img : image) : Prop := 0 <= iw img < 4294967296 /\ 0 <= ih img < 4294967296 /\ vsize (idata img) <= area img.
