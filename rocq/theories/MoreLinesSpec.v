(** What a file of lines of words tells about the words of the glyphs. *)
From Verif Require Import Base TrieModel GlyphsModel GlyphsSpec.

(** The values of a line are kept modulo 8 (bit fields of three bits). *)
Definition values (l : fline) : Z * Z * Z * Z := (fn_a l mod 8, fn_c l mod 8, fn_m l mod 8, fn_b l mod 8).

(** The words told by the lines, in order, with their values.  A line is skipped when its
    text has more than 8 bytes, or when no word starts with it; otherwise it is about the
    least word that starts with its text. *)
Inductive told (ws : list (list Z)) : list fline -> list (list Z * (Z * Z * Z * Z)) -> Prop :=
| told_none : told ws [] []
| told_long l ls es : 8 < vsize (fn_word l) -> told ws ls es -> told ws (l :: ls) es
| told_nobody l ls es : (forall w, In w ws -> ~ starts_with (fn_word l) w) -> told ws ls es -> told ws (l :: ls) es
| told_word l ls es w : vsize (fn_word l) <= 8 -> designates ws (fn_word l) w -> told ws ls es -> told ws (l :: ls) ((w, values l) :: es).

(** Two files tell the same: the same words in the same order, or each word once and the
    same words in any order. *)
Definition same_words (es es' : list (list Z * (Z * Z * Z * Z))) : Prop :=
  es = es' \/ (NoDup (map fst es) /\ Permutation.Permutation es es').
