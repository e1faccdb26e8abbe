(** Model of image/image_from_file.cpp: the PNM loader. *)
From Verif Require Import Base ImageModel.

(** image_from_file.cpp 111-117: struct PnmHeader ([h_end] is the offset of
    end_ptr in the buffer). *)
Record pnm_header := mkhdr {
  h_type : Z; h_width : Z; h_height : Z; h_max : Z; h_end : Z }.

Definition is_digit (c : Z) : bool := (48 <=? c) && (c <=? 57).

(** std::from_chars on [p,end) for an unsigned in base 10: the longest run of
    digits; fails without digit or when the value does not fit in 32 bits.
    Returns the value and the number of characters consumed. *)
Fixpoint scan_digits (l : list Z) (acc : Z) (n : Z) : Z * Z :=
  match l with
  | c :: t => if is_digit c then scan_digits t (acc * 10 + (c - 48)) (n + 1) else (acc, n)
  | [] => (acc, n)
  end.
Definition from_chars (l : list Z) : option (Z * Z) :=
  let '(v, n) := scan_digits l 0 0 in
  if n =? 0 then None
  else if v <? 4294967296 then Some (v, n) else None.

(** image_from_file.cpp 159-173: the lambda consume_uint; [Ok None] is the
    result false. *)
Definition consume_uint (buf : list Z) (p : Z) (next_ch : Z) : res (option (Z * Z)) :=
  match from_chars (skipn (Z.to_nat p) buf) with
  | None => Ok None
  | Some (v, n) =>
    let p := p + n in
    if p =? Z.of_nat (List.length buf) then Ok None
    else
      c <- rd buf p ;;
      if c =? next_ch then Ok (Some (v, p + 1)) else Ok None
  end.

(** image_from_file.cpp 143-153: the inner loop skipping one comment. *)
Definition skip_comment (buf : list Z) (p : Z) : res Z :=
  let len := Z.of_nat (List.length buf) in
  loop (S (List.length buf))
    (fun p =>
       let p := p + 1 in
       if p =? len then Ok (inr p)
       else
         c <- rd buf p ;;
         if c =? 10 then Ok (inr (p + 1)) else Ok (inl p))
    p.

(** image_from_file.cpp 142-154: skip comments. *)
Definition skip_comments (buf : list Z) (p : Z) : res Z :=
  let len := Z.of_nat (List.length buf) in
  loop (S (List.length buf))
    (fun p =>
       if p <? len then
         c <- rd buf p ;;
         if c =? 35 then
           p' <- skip_comment buf p ;;
           Ok (inl p')
         else Ok (inr p)
       else Ok (inr p))
    p.

(** image_from_file.cpp 119-190: PnmHeader::parse; [Ok None] is the result
    false. *)
Definition parse_header (buf : list Z) : res (option pnm_header) :=
  let len := Z.of_nat (List.length buf) in
  if len <? 9 then Ok None
  else
    type <- rd buf 1 ;;
    c0 <- rd buf 0 ;;
    c2 <- rd buf 2 ;;
    if negb (c0 =? 80) || ((type <? 49) || (54 <? type)) || negb (c2 =? 10) then Ok None
    else
      p <- skip_comments buf 3 ;;
      ow <- consume_uint buf p 32 ;;
      match ow with
      | None => Ok None
      | Some (w, p) =>
        oh <- consume_uint buf p 10 ;;
        match oh with
        | None => Ok None
        | Some (h, p) =>
          if negb (type =? 49) && negb (type =? 52) then
            om <- consume_uint buf p 10 ;;
            match om with
            | None => Ok None
            | Some (m, p) => Ok (Some (mkhdr type w h m p))
            end
          else Ok (Some (mkhdr type w h 0 p))
        end
      end.

(** image_from_file.cpp 233-237: luminance of a byte triple ([unsigned char c])
    and the pixel chosen. *)
Definition luma (r g b : Z) : Z :=
  ((511 * r + 511) / 1024 + (396 * g + 511) / 1024 + (117 * b + 511) / 1024) mod 256.
Definition threshold (c luminance : Z) : pixel := if c <? luminance then 45 else 120.

(** image_from_file.cpp 232-238: the P6 loop, for (; p < end; p += 3). *)
Definition decode_p6 (buf : list Z) (luminance img_size p : Z) : res (list pixel) :=
  let len := Z.of_nat (List.length buf) in
  loop (S (List.length buf))
    (fun '(p, out) =>
       if p <? len then
         r <- rd buf p ;;
         g <- rd buf (p + 1) ;;
         b <- rd buf (p + 2) ;;
         out' <- emit img_size out (threshold (luma r g b) luminance) ;;
         Ok (inl (p + 3, out'))
       else Ok (inr out))
    (p, []).

(** image_from_file.cpp 249-256: one row of P4.  [c] is an unsigned, [i] an int
    whose overflow is undefined. *)
Definition decode_p4_row (buf : list Z) (img_size width : Z) (p : Z) (out : list pixel)
  : res (Z * list pixel) :=
  '(p, c, i, out) <-
    for_up (Z.to_nat width) 0
      (fun _ '(p, c, i, out) =>
         '(c, p) <- (if Z.rem i 8 =? 0 then (v <- rd buf p ;; Ok (v, p + 1)) else Ok (c, p)) ;;
         out' <- emit img_size out (if Z.testbit c 7 then 45 else 120) ;;
         if i =? 2147483647 then UB
         else Ok (p, u32 (c * 2), i + 1, out'))
      (p, 0, 0, out) ;;
  Ok (p, out).

(** image_from_file.cpp 246-257: the P4 rows. *)
Definition decode_p4 (buf : list Z) (img_size width height p : Z) : res (list pixel) :=
  '(_, out) <-
    for_up (Z.to_nat height) 0
      (fun _ '(p, out) => decode_p4_row buf img_size width p out) (p, []) ;;
  Ok out.

(** image_from_file.cpp 261-284: the ASCII loop; returns the position where it
    stopped and the pixels written. *)
Definition decode_ascii (buf : list Z) (img_size p : Z) : res (Z * list pixel) :=
  let len := Z.of_nat (List.length buf) in
  loop (S (List.length buf))
    (fun '(p, counter, out) =>
       if p <? len then
         c <- rd buf p ;;
         if c =? 32 then Ok (inl (p + 1, counter, out))
         else if c =? 48 then
           out' <- emit img_size out 45 ;;
           (if u64 (counter + 1) =? img_size then Ok (inr (p, out'))
            else Ok (inl (p + 1, u64 (counter + 1), out')))
         else if c =? 49 then
           out' <- emit img_size out 120 ;;
           (if u64 (counter + 1) =? img_size then Ok (inr (p, out'))
            else Ok (inl (p + 1, u64 (counter + 1), out')))
         else if c =? 10 then Ok (inl (p + 1, counter, out))
         else Throw ExBadData
       else Ok (inr (p, out)))
    (p, 0, []).

(** image_from_file.cpp 286-288: skip blank. *)
Definition skip_blank (buf : list Z) (p : Z) : res Z :=
  let len := Z.of_nat (List.length buf) in
  loop (S (List.length buf))
    (fun p =>
       if p <? len then
         c <- rd buf p ;;
         if (c =? 32) || (c =? 10) then Ok (inl (p + 1)) else Ok (inr p)
       else Ok (inr p))
    p.

(** image_from_file.cpp 196-299: image_from_file after read_all, on the file
    contents [buf].  The block of img_size pixels is uninitialised beyond the
    pixels written. *)
Definition image_of_bytes (buf : list Z) (luminance : Z) : res image :=
  let len := Z.of_nat (List.length buf) in
  oh <- parse_header buf ;;
  match oh with
  | None => Throw ExInvalidPnm
  | Some h =>
    let w := h_width h in
    let hh := h_height h in
    let img_size := u64 (w * hh) in
    if img_size =? 0 then Throw ExTooLarge
    else if negb (img_size =? u32 img_size) then Throw ExTooLarge
    else
      let p := h_end h in
      let done data := Ok (mkimage w hh data) in
      if h_type h =? 54 then
        if negb (len - p =? u64 (img_size * 3)) then Throw ExBadLength
        else (d <- decode_p6 buf luminance img_size p ;; done d)
      else if h_type h =? 52 then
        if negb (len - p =? u32 (u32 (w + 7) / 8 * hh)) then Throw ExBadLength
        else (d <- decode_p4 buf img_size w hh p ;; done d)
      else if (h_type h =? 51) || (h_type h =? 49) then
        '(p, d) <- decode_ascii buf img_size p ;;
        p <- skip_blank buf p ;;
        if negb (p =? len) then Throw ExBadLength else done d
      else Throw ExUnsupported
  end.

(** image_from_file.cpp 93-108: read_all.  [f] is what the descriptor delivers,
    [size] the st_size reported, [chunks] the counts the kernel chooses for the
    successive read() calls (each at least 1 as long as bytes are left; an
    exhausted list stands for "as much as possible", a negative count for an
    error).  The result is the initialised prefix of the buffer. *)
Definition read_all (f : list Z) (size : Z) (chunks : list Z) : res (list Z) :=
  loop (S (List.length f))
    (fun '(rest, chunks, remaining, buf) =>
       let avail := Z.min remaining (Z.of_nat (List.length rest)) in
       let want := match chunks with c :: _ => c | [] => avail end in
       if want <? 0 then Throw ExIo
       else
         let n := Z.min avail (Z.max 1 want) in
         if n =? 0 then Ok (inr buf)
         else
           buf' <- (if Z.of_nat (List.length buf) + n <=? size
                    then Ok (buf ++ firstn (Z.to_nat n) rest) else UB) ;;
           Ok (inl (skipn (Z.to_nat n) rest, tl chunks, remaining - n, buf')))
    (f, chunks, size, []).
