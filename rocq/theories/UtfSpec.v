(** UTF-8 (RFC 3629). *)
From Verif Require Import Base.

(** The scalar values other than NUL. *)
Definition is_char (c : Z) : Prop := 1 <= c <= 1114111 /\ ~ (55296 <= c <= 57343).

(** The encoding of a scalar value. *)
Definition encode (c : Z) : list Z :=
  if c <? 128 then [c]
  else if c <? 2048 then [192 + c / 64; 128 + c mod 64]
  else if c <? 65536 then [224 + c / 4096; 128 + (c / 64) mod 64; 128 + c mod 64]
  else [240 + c / 262144; 128 + (c / 4096) mod 64; 128 + (c / 64) mod 64; 128 + c mod 64].

(** A well formed text and the characters it spells. *)
Definition text_of (cs : list Z) : list Z := flat_map encode cs.
Definition well_formed (s : list Z) : Prop := exists cs, Forall is_char cs /\ s = text_of cs.

(** The bytes of an encoding as one big-endian number. *)
Definition packed (c : Z) : Z := fold_left (fun a b => a * 256 + b) (encode c) 0.
