(** What the loader of pictures makes of a file of any bytes: the picture that is
    written in it, or the exception. *)
From Verif Require Import Base ImageModel ImageSpec PnmSpec.

(** [buf] is a header of type [t], width [w] and height [h], then [payload]. *)
Definition headed (buf : list Z) (t w h : Z) (payload : list Z) : Prop :=
  9 <= Z.of_nat (List.length buf) /\ exists hdr, header_text t w h hdr /\ buf = hdr ++ payload.

(** The pixels of a map of colours: the one at (x,y) is that of the three bytes. *)
Definition colour_map (lum : Z) (payload : list Z) (img : image) : Prop :=
  forall x y, 0 <= x < iw img -> 0 <= y < ih img -> exists r g b,
    nth_error payload (Z.to_nat (3 * (y * iw img + x))) = Some r /\
    nth_error payload (Z.to_nat (3 * (y * iw img + x) + 1)) = Some g /\
    nth_error payload (Z.to_nat (3 * (y * iw img + x) + 2)) = Some b /\
    pix img x y = Some (if luminance_of r g b <? lum then 45 else 120).
(** Those of a map of bits: each row is a whole number of bytes, the first pixel in the
    high bit. *)
Definition bit_map (payload : list Z) (img : image) : Prop :=
  forall x y, 0 <= x < iw img -> 0 <= y < ih img -> exists c,
    nth_error payload (Z.to_nat (y * ((iw img + 7) / 8) + x / 8)) = Some c /\
    pix img x y = Some (if Z.testbit c (7 - x mod 8) then 45 else 120).

Definition written (c : Z) : Prop := ascii_digit c = true \/ ascii_blank c = true.
(** The number of digits 0 and 1. *)
Definition digits_in (l : list Z) : Z := Z.of_nat (List.length (filter ascii_digit l)).

Inductive picture_text (lum : Z) (buf : list Z) : res image -> Prop :=
| pt_no_header : ~ (exists t w h payload, headed buf t w h payload) -> picture_text lum buf (Throw ExInvalidPnm)
| pt_size : forall t w h payload, headed buf t w h payload -> w * h = 0 \/ 4294967296 <= w * h -> picture_text lum buf (Throw ExTooLarge)
| pt_colours : forall w h payload img, headed buf 54 w h payload -> 0 < w * h < 4294967296 -> Z.of_nat (List.length payload) = 3 * (w * h) ->
    wf_image img -> iw img = w -> ih img = h -> colour_map lum payload img -> picture_text lum buf (Ok img)
| pt_colours_length : forall w h payload, headed buf 54 w h payload -> 0 < w * h < 4294967296 -> Z.of_nat (List.length payload) <> 3 * (w * h) ->
    picture_text lum buf (Throw ExBadLength)
| pt_bits : forall w h payload img, headed buf 52 w h payload -> 0 < w * h < 4294967296 -> w < 2147483648 ->
    Z.of_nat (List.length payload) = (w + 7) / 8 * h -> wf_image img -> iw img = w -> ih img = h -> bit_map payload img -> picture_text lum buf (Ok img)
| pt_bits_length : forall w h payload, headed buf 52 w h payload -> 0 < w * h < 4294967296 -> w < 2147483648 ->
    Z.of_nat (List.length payload) <> (w + 7) / 8 * h -> picture_text lum buf (Throw ExBadLength)
  (* a row of 2^31 pixels: the length is computed modulo 2^32 *)
| pt_row : forall w payload, headed buf 52 w 1 payload -> 2147483648 <= w -> Z.of_nat (List.length payload) = (w + 7) mod 4294967296 / 8 ->
    picture_text lum buf UB
| pt_row_length : forall w payload, headed buf 52 w 1 payload -> 2147483648 <= w -> Z.of_nat (List.length payload) <> (w + 7) mod 4294967296 / 8 ->
    picture_text lum buf (Throw ExBadLength)
  (* digits: some are missing, and the pixels after the last are not set *)
| pt_digits : forall t w h payload, t = 49 \/ t = 51 -> headed buf t w h payload -> 0 < w * h < 4294967296 -> Forall written payload ->
    digits_in payload < w * h -> picture_text lum buf (Ok (mkimage w h (map ascii_pixel (filter ascii_digit payload))))
  (* the last digit is found *)
| pt_digits_all : forall t w h before c after, t = 49 \/ t = 51 -> headed buf t w h (before ++ c :: after) -> 0 < w * h < 4294967296 ->
    Forall written before -> ascii_digit c = true -> digits_in before + 1 = w * h -> picture_text lum buf (Throw ExBadLength)
  (* something else is found before it *)
| pt_digits_other : forall t w h before c after, t = 49 \/ t = 51 -> headed buf t w h (before ++ c :: after) -> 0 < w * h < 4294967296 ->
    Forall written before -> ~ written c -> digits_in before < w * h -> picture_text lum buf (Throw ExBadData)
| pt_other : forall t w h payload, t = 50 \/ t = 53 -> headed buf t w h payload -> 0 < w * h < 4294967296 -> picture_text lum buf (Throw ExUnsupported).
