(** Model of main/show_glyphs.cpp, of the arguments of main/write_glyphs.cpp, and of
    the stream operators of image/image.cpp, image/coordinate.cpp and box_char/box.cpp. *)
From Verif Require Import Base ImageModel PnmModel BoxModel StreamModel GlyphIoModel LearnModel TrieModel.

(** os.width(n), then os << s: the text after enough filling characters (the
    alignment is to the right by default, and width is then 0 again). *)
Definition put_right (fill n : Z) (s : list Z) : list Z := repeat fill (Z.to_nat (n - vsize s)) ++ s.
(** os.write(p, n) of the characters of [data] from [p] on. *)
Definition put_bytes (data : list Z) (p n : Z) : res (list Z) :=
  for_up (Z.to_nat n) 0 (fun i out => c <- rd data (p + i) ;; Ok (out ++ [c])) [].
(** image.cpp 83-98: operator<<(ostream, Image); 58 is ':' and 10 the end of line. *)
Definition show_image (img : image) : res (list Z) :=
  let out := put_right 58 (u32 (iw img + 3)) [58; 10] in
  '(out, _) <- for_up (Z.to_nat (ih img)) 0 (fun _ '(out, p) =>
      row <- put_bytes (idata img) p (iw img) ;; Ok (out ++ [58] ++ row ++ [58; 10], p + iw img)) (out, 0) ;;
  Ok (out ++ put_right 58 (u32 (iw img + 3)) [58; 10]).

(** show_glyphs.cpp 31-43: load_file, after the loading of the image (32). *)
Definition show_characters (img : image) : res (list Z) :=
  loop (S (Z.to_nat (iw img)))
    (fun '(x, out) =>
       cbox <- make_box_character img x 0 (iw img) (ih img) ;;
       if box_bool cbox then
         im <- section img (bx cbox) (by_ cbox) (bw cbox) (bh cbox) ;;
         t <- show_image im ;;
         Ok (inl (u32 (bx cbox + bw cbox), out ++ t ++ [10]))
       else Ok (inr out))
    (0, []).

(** std::strtoul(s, &p, 10) of a C string: None when there is no number (p = s);
    otherwise the value, the text at p, and whether errno is set to ERANGE. *)
Definition strtoul (s : list Z) : option (Z * list Z * bool) :=
  let '(neg, ds, r) := span_int (drop_spaces s) in
  if null ds then None
  else if 18446744073709551616 <=? digits_value ds then Some (18446744073709551615, r, true)
  else Some (u64 (if neg : bool then - digits_value ds else digits_value ds), r, false).

(** show_glyphs.cpp 48-59, write_glyphs.cpp 100-111: the option -l; [av] are the
    arguments, av[0] being the name of the program.  None is the return of 2; the
    result is i_ac and the luminance.  errno is 0 when the program starts. *)
Definition luminance_option (av : list (list Z)) : res (option (Z * Z)) :=
  if 3 <? vsize av then
    a <- rd av 1 ;;
    if list_eqb a (str "-l") then
      b <- rd av 2 ;;
      Ok (match strtoul b with
          | Some (v, r, range) => if null r && negb range then Some (2, u32 v) else None
          | None => None
          end)
    else Ok (Some (0, 128))
  else Ok (Some (0, 128)).

(** How a program ends: the result of main, an exception that leaves main (with
    std::terminate), or one of the two exceptions of write_glyphs.  What a program
    prints is what it has given to std::cout, flushed or not. *)
Inductive ended := Exits (code : Z) | Aborts (e : exn) | Unmatched (e : learn_end).

(** image_from_file of a file of the disk; None is a file that cannot be opened. *)
Definition load_image (file : option (list Z)) (luminance : Z) : res image :=
  match file with Some bytes => image_of_bytes bytes luminance | None => Throw ExIo end.

(** show_glyphs.cpp 65-67; [disk] gives the files. *)
Fixpoint show_files (disk : list Z -> option (list Z)) (luminance : Z) (names : list (list Z)) (out : list Z)
    : res (list Z * ended) :=
  match names with
  | [] => Ok (out, Exits 0)
  | n :: names' =>
    match load_image (disk n) luminance with
    | Ok img => t <- show_characters img ;; show_files disk luminance names' (out ++ t)
    | Throw e => Ok (out, Aborts e)
    | UB => UB
    | NoFuel => NoFuel
    end
  end.
(** show_glyphs.cpp 46-68: main. *)
Definition show_glyphs (disk : list Z -> option (list Z)) (av : list (list Z)) : res (list Z * ended) :=
  o <- luminance_option av ;;
  match o with
  | None => Ok ([], Exits 2)
  | Some (i_ac, luminance) =>
    if vsize av - i_ac <? 2 then Ok ([], Exits 1)
    else show_files disk luminance (skipn (Z.to_nat (i_ac + 1)) av) []
  end.

(** write_glyphs.cpp 117-119; the text file is opened first (59-64). *)
Fixpoint learn_files (disk : list Z -> option (list Z)) (luminance : Z) (names : list (list Z)) (out : list Z)
    : res (list Z * ended) :=
  match names with
  | image :: text :: font :: names' =>
    match disk text with
    | None => Ok (out, Aborts ExIo)
    | Some t =>
      match load_image (disk image) luminance with
      | Ok img =>
        '(o, e) <- learn_image img t font ;;
        match e with
        | Learnt => learn_files disk luminance names' (out ++ o)
        | _ => Ok (out ++ o, Unmatched e)
        end
      | Throw e => Ok (out, Aborts e)
      | UB => UB
      | NoFuel => NoFuel
      end
    end
  | _ => Ok (out, Exits 0)
  end.
(** write_glyphs.cpp 98-120: main. *)
Definition write_glyphs_main (disk : list Z -> option (list Z)) (av : list (list Z)) : res (list Z * ended) :=
  o <- luminance_option av ;;
  match o with
  | None => Ok ([], Exits 2)
  | Some (i_ac, luminance) =>
    if (vsize av - i_ac <? 4) || negb ((vsize av - i_ac - 1) mod 3 =? 0) then Ok ([], Exits 1)
    else learn_files disk luminance (skipn (Z.to_nat (i_ac + 1)) av) []
  end.

(** coordinate.cpp 26-32: operator<< of Index and Bounds; box.cpp 25-27: of Box. *)
Definition write_pair (p : Z * Z) : list Z := print_uint (fst p) ++ [32] ++ print_uint (snd p).
Definition write_box (b : box) : list Z := write_pair (bx b, by_ b) ++ [32] ++ write_pair (bw b, bh b).
(** coordinate.cpp 34-48: operator>> of Index and Bounds, to a variable that holds [old]. *)
Definition read_pair (old : Z * Z) (s : istream) : (Z * Z) * istream :=
  let '(x, s) := get_unsigned 0 s in
  let '(y, s) := get_unsigned 0 s in
  (if is_ok s then (x, y) else old, s).
(** coordinate.hpp 41-44, 72-75: operator== of Index and Bounds. *)
Definition pair_eqb (p q : Z * Z) : bool := (fst p =? fst q) && (snd p =? snd q).
(** coordinate.hpp 67-70: Bounds::contains. *)
Definition bounds_contains (b idx : Z * Z) : bool := (fst idx <? fst b) && (snd idx <? snd b).
