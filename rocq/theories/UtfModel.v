(** Model of utils/utf.hpp and of the character output of
    spell/word_disambiguouser.hpp. *)
From Verif Require Import Base.

(** The memory of a std::string or of a NUL terminated text: its bytes and the
    terminator. *)
Definition c_str (s : list Z) : list Z := s ++ [0].

(** utf.hpp 96-122: UTF8Iterator::operator++ at offset [pos]: the code and the
    new offset.  Bytes are uint8_t; the shifts stay below 2^32. *)
Definition utf8_next (mem : list Z) (pos : Z) : res (Z * Z) :=
  b <- rd mem pos ;;
  let h := Z.shiftr b 4 in
  if h <? 8 then Ok (b, pos + 1)
  else if (h =? 12) || (h =? 13) then
    s0 <- rd mem (pos + 1) ;;
    Ok (Z.lor (Z.shiftl b 8) s0, pos + 2)
  else if h =? 14 then
    s0 <- rd mem (pos + 1) ;;
    s1 <- rd mem (pos + 2) ;;
    Ok (Z.lor (Z.lor (Z.shiftl b 16) (Z.shiftl s0 8)) s1, pos + 3)
  else if h =? 15 then
    s0 <- rd mem (pos + 1) ;;
    s1 <- rd mem (pos + 2) ;;
    s2 <- rd mem (pos + 3) ;;
    Ok (Z.lor (Z.lor (Z.lor (Z.shiftl b 24) (Z.shiftl s0 16)) (Z.shiftl s1 8)) s2, pos + 4)
  else Ok (0, pos + 1).

(** utf.hpp 40-67: UTF8toUnicodeIterator::operator++. *)
Definition unicode_next (mem : list Z) (pos : Z) : res (Z * Z) :=
  b <- rd mem pos ;;
  let h := Z.shiftr b 4 in
  if h <? 8 then Ok (b, pos + 1)
  else if (h =? 12) || (h =? 13) then
    s0 <- rd mem (pos + 1) ;;
    Ok (Z.lor (Z.shiftl (Z.land b 31) 6) (Z.land s0 63), pos + 2)
  else if h =? 14 then
    s0 <- rd mem (pos + 1) ;;
    s1 <- rd mem (pos + 2) ;;
    Ok (Z.lor (Z.lor (Z.shiftl (Z.land b 15) 12) (Z.shiftl (Z.land s0 63) 6)) (Z.land s1 63), pos + 3)
  else if h =? 15 then
    s0 <- rd mem (pos + 1) ;;
    s1 <- rd mem (pos + 2) ;;
    s2 <- rd mem (pos + 3) ;;
    Ok (Z.lor (Z.lor (Z.lor (Z.shiftl (Z.land b 7) 18) (Z.shiftl (Z.land s0 63) 12))
      (Z.shiftl (Z.land s1 63) 6)) (Z.land s2 63), pos + 4)
  else Ok (0, pos + 1).

(** The loop of spell/dictionary.cpp 41-45: it(data); for (c; (c = *it); ++it). *)
Definition codes_with (next : list Z -> Z -> res (Z * Z)) (mem : list Z) : res (list Z) :=
  '(c0, p0) <- next mem 0 ;;
  loop (S (S (List.length mem)))
    (fun st : Z * Z * list Z =>
      let '(c, p, out) := st in
      if c =? 0 then Ok (inr out)
      else '(c', p') <- next mem p ;; Ok (inl (c', p', out ++ [c])))
    (c0, p0, []).
Definition utf8_codes (s : list Z) : res (list Z) := codes_with utf8_next (c_str s).
Definition unicode_codes (s : list Z) : res (list Z) := codes_with unicode_next (c_str s).

(** The text of a C string. *)
Fixpoint c_text (mem : list Z) : list Z :=
  match mem with
  | c :: l => if c =? 0 then [] else c :: c_text l
  | [] => []
  end.

(** word_disambiguouser.hpp 86-95: set_c. *)
Definition set_c (s : list Z) (code : Z) : list Z :=
  s ++ c_text [Z.land code 255; Z.shiftr (Z.land code 65280) 8;
               Z.shiftr (Z.land code 16711680) 16; Z.shiftr (Z.land code 4278190080) 24; 0].
