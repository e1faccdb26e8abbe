(** The search of any text in the block of words of a glyph table. *)
From Verif Require Import Base TrieModel TrieSpec GlyphsSpec.
From Coq Require Import Sorted.

(** The words of a file, once each and in order. *)
Definition ordered_words (gs : list fglyph) (ws : list (list Z)) : Prop :=
  StronglySorted lex_lt ws /\ forall w, In w ws <-> In w (words_of gs).

Definition in_order (ls : list (list Z * list Z)) (ws : list (list Z)) : Prop :=
  StronglySorted lex_lt ws /\ forall w, In w ws <-> In w (map fst ls).

(** What follows the size of a word in the block: its characters, a zero and bytes
    never written up to a multiple of 4, nothing if there is no room. *)
Definition padding (w : list Z) : list (option Z) :=
  match Z.to_nat (vsize w mod 4) with
  | 0%nat => []
  | 1%nat => [Some 0; None; None]
  | 2%nat => [Some 0; None]
  | _ => [Some 0]
  end.
(** The size of a word, least byte first. *)
Definition size_bytes (w : list Z) : list (option Z) :=
  let n := vsize w in [Some (n mod 256); Some (n / 256 mod 256); Some (n / 65536 mod 256); Some (n / 16777216 mod 256)].
Fixpoint stored (ws : list (list Z)) : list (option Z) :=
  match ws with
  | [] => []
  | w :: ws' => size_bytes w ++ map Some w ++ padding w ++ stored ws'
  end.

(** A text against bytes: nothing when a byte that is needed was never written or
    is outside. *)
Fixpoint against (s : list Z) (bytes : list (option Z)) : option comparison :=
  match s, bytes with
  | [], _ => Some Eq
  | c :: s', Some x :: bytes' => match Z.compare c x with Eq => against s' bytes' | r => Some r end
  | _ :: _, _ => None
  end.

(** The first word that is not before the text, its bytes and those of the words
    after it being compared with the text. *)
Inductive finding := Found (w : list Z) | Absent | Unreadable.
Fixpoint scan_words (s : list Z) (ws : list (list Z)) : finding :=
  match ws with
  | [] => Absent
  | w :: ws' =>
    match against s (map Some w ++ padding w ++ stored ws') with
    | None => Unreadable
    | Some Eq => Found w
    | Some Lt => Absent
    | Some Gt => scan_words s ws'
    end
  end.
