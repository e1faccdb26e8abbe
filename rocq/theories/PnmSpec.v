(** What a PNM file is, for the statements about the loader. *)
From Verif Require Import Base.

Notation NL := 10 (only parsing).
Notation SP := 32 (only parsing).

(** [ds] is a decimal numeral (ASCII digits) of value [n] < 2^32. *)
Definition digit (c : Z) : Prop := 48 <= c <= 57.
Definition numeral_value (ds : list Z) : Z :=
  fold_left (fun acc c => acc * 10 + (c - 48)) ds 0.
Definition numeral (ds : list Z) (n : Z) : Prop :=
  ds <> [] /\ Forall digit ds /\ numeral_value ds = n /\ n < 4294967296.

(** Comment lines: '#', then anything but a newline, then a newline. *)
Inductive comments : list Z -> Prop :=
| comments_nil : comments []
| comments_cons : forall body rest, ~ In NL body -> comments rest ->
    comments ((35 :: body) ++ NL :: rest).

(** The text of a header of type [t] ('1'..'6'), size w*h. *)
Inductive header_text (t w h : Z) : list Z -> Prop :=
| header_text_max : forall cs ws hs ms m,
    49 <= t <= 54 -> t <> 49 -> t <> 52 ->
    comments cs -> numeral ws w -> numeral hs h -> numeral ms m ->
    header_text t w h ([80; t; NL] ++ cs ++ ws ++ [SP] ++ hs ++ [NL] ++ ms ++ [NL])
| header_text_nomax : forall cs ws hs,
    t = 49 \/ t = 52 ->
    comments cs -> numeral ws w -> numeral hs h ->
    header_text t w h ([80; t; NL] ++ cs ++ ws ++ [SP] ++ hs ++ [NL]).

(** Bytes of a file. *)
Definition bytes (l : list Z) : Prop := Forall (fun c => 0 <= c < 256) l.

(** Weighted luminance of a colour. *)
Definition luminance_of (r g b : Z) : Z :=
  (511 * r + 511) / 1024 + (396 * g + 511) / 1024 + (117 * b + 511) / 1024.

(** ASCII bitmaps: digits '0' (background) and '1' (ink), blanks ' ' and newline. *)
Definition ascii_digit (c : Z) : bool := (c =? 48) || (c =? 49).
Definition ascii_blank (c : Z) : bool := (c =? 32) || (c =? 10).
Definition ascii_pixel (c : Z) : Z := if c =? 48 then 45 else 120.
