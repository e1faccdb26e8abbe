(** Properties C91 and C92: the zones of a balance, enumerations in streams. *)
From Verif Require Import Base ImageModel StratModel StreamModel StreamProofs GlyphIoModel MiscModel MiscSpec MiscProofs.

(** C91: the zone of a balance depends on how far apart the two sums are: 3 up to a
    quarter of the height, then 4 or 2 up to the height, then 5 or 1. *)
Theorem C91_zone : forall img t b, 0 <= t < 4294967296 -> 0 <= b < 4294967296 -> 0 <= ih img ->
  horizontal_zone img (mktb t b) = zone_of (ih img) t b.
Proof. exact horizontal_zone_ok. Qed.
Print Assumptions C91_zone.
(** It is from 1 to 5, turned over with the two sums, and increasing. *)
Theorem C91_laws : forall h t b, 0 <= h -> 1 <= zone_of h t b <= 5 /\ zone_of h t b + zone_of h b t = 6 /\
  (zone_of h t b = 3 <-> Z.abs (t - b) <= h / 4) /\
  forall t' b', t - b <= t' - b' -> zone_of h t b <= zone_of h t' b'.
Proof. exact zone_of_law. Qed.
Print Assumptions C91_laws.
Example C91_nonvacuous :
  map (fun p => horizontal_zone (mkimage 1 8 (repeat 45 8)) (mktb (fst p) (snd p))) [(0, 9); (0, 8); (0, 3); (0, 2); (5, 5); (2, 0); (3, 0); (8, 0); (9, 0)] =
    [1; 2; 2; 3; 3; 3; 4; 4; 5].
Proof. vm_compute. reflexivity. Qed.

(** C92: a value that is written is read back. *)
Theorem C92_read_back : forall e blank r, spaces blank -> 0 <= e < 4294967296 -> stops is_digit r ->
  read_enum (open_stream (blank ++ write_enum e ++ r)) = Ok (e, mkis r (null r) false true).
Proof. exact read_enum_written. Qed.
Print Assumptions C92_read_back.
(** The full statement says that reading is always defined.  It is exactly when the
    stream is in a good state and there is something to read. *)
Theorem C92_defined_partial : forall s, is_skipws s = true -> (read_enum s = UB <-> ~ something_left s).
Proof. exact read_enum_defined. Qed.
Print Assumptions C92_defined_partial.
Theorem C92_range : forall s e s', read_enum s = Ok (e, s') -> 0 <= e < 4294967296.
Proof. exact read_enum_range. Qed.
Print Assumptions C92_range.
(** Reading the value after the last one reads a variable without value. *)
Theorem C92_end_refuted : exists s, read_enum (open_stream (write_enum 7)) = Ok (7, s) /\ read_enum s = UB.
Proof. eexists. split; [vm_compute; reflexivity|]. vm_compute. reflexivity. Qed.
Print Assumptions C92_end_refuted.
Example C92_nonvacuous : something_left (open_stream (str " 7")) /\ read_enum (open_stream (str " 7 8")) = Ok (7, mkis (str " 8") false false true) /\
  read_enum (open_stream (str "x")) = Ok (0, mkis (str "x") false true true).
Proof.
  split; [|split; vm_compute; reflexivity]. split; [reflexivity|]. split; [reflexivity|]. exists 55. split; [right; left; reflexivity|reflexivity].
Qed.
