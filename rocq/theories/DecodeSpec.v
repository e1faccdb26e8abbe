(** Reading any bytes as characters: what the packed decoder makes of texts that
    need not be UTF-8. *)
From Verif Require Import Base.

(** Bytes. *)
Definition octets (s : list Z) : Prop := Forall (fun c => 0 <= c < 256) s.

(** A byte at which reading stops: a zero or a continuation byte. *)
Definition stopper (b : Z) : Prop := b = 0 \/ 128 <= b < 192.

(** How many bytes a character takes, from its first byte. *)
Definition takes (b : Z) : nat := if b <? 192 then 1 else if b <? 224 then 2 else if b <? 240 then 3 else 4.

(** One character: a first byte and whatever bytes follow it. *)
Definition whole (g : list Z) : Prop := exists b t, g = b :: t /\ ~ stopper b /\ List.length g = takes b.

(** The characters of a text: they end at its end or at a stopper. *)
Definition characters (s : list Z) (gs : list (list Z)) : Prop :=
  Forall whole gs /\ exists r, s = List.concat gs ++ r /\ (r = [] \/ exists b t, r = b :: t /\ stopper b).

(** A text that ends inside a character. *)
Definition cut (s : list Z) : Prop :=
  exists gs b t, s = List.concat gs ++ b :: t /\ Forall whole gs /\ ~ stopper b /\ (List.length (b :: t) < takes b)%nat.

(** The value of a character: its bytes, in base 256. *)
Definition value (g : list Z) : Z := fold_left (fun v b => 256 * v + b) g 0.
Definition values (gs : list (list Z)) : list Z := map value gs.

(** A word that cannot be put in a dictionary: it is cut or has no character. *)
Definition unusable (w : list Z) : Prop := cut w \/ characters w [].
