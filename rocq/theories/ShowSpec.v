(** What show_glyphs and the printing of coordinates must give. *)
From Verif Require Import Base ImageModel ImageSpec BoxModel StreamModel ExtractSpec LearnModel LearnSpec ShowModel.

(** The first rows of a picture of width [w], as texts. *)
Fixpoint text_rows (h w : nat) (data : list Z) : list (list Z) :=
  match h with
  | O => []
  | S h' => firstn w data :: text_rows h' w (skipn w data)
  end.
Definition frame_line (w : Z) : list Z := repeat 58 (Z.to_nat (w + 2)) ++ [10].
(** A picture in a frame of ':'. *)
Definition framed (img : image) : list Z :=
  frame_line (iw img) ++
  flat_map (fun row => [58] ++ row ++ [58; 10]) (text_rows (Z.to_nat (ih img)) (Z.to_nat (iw img)) (idata img)) ++
  frame_line (iw img).
(** The frames of several pictures, one empty line after each. *)
Definition frames (imgs : list image) : list Z := flat_map (fun im => framed im ++ [10]) imgs.
(** A picture with at least one column whose pixels are not ':'. *)
Definition drawable (img : image) : Prop := wf_image img /\ 1 <= iw img /\ ~ In 58 (idata img).

(** The picture of a file of the disk, decoded with a luminance. *)
Definition picture_of (disk : list Z -> option (list Z)) (luminance : Z) (name : list Z) (img : image) : Prop :=
  exists bytes, disk name = Some bytes /\ PnmModel.image_of_bytes bytes luminance = Ok img.
(** A file that gives no picture: it cannot be opened or its contents are refused. *)
Definition no_picture (disk : list Z -> option (list Z)) (luminance : Z) (name : list Z) (e : exn) : Prop :=
  disk name = None /\ e = ExIo \/ exists bytes, disk name = Some bytes /\ PnmModel.image_of_bytes bytes luminance = Throw e.
(** The pictures of the files are the characters of their lines. *)
Definition file_characters (disk : list Z -> option (list Z)) (luminance : Z) (name : list Z) (ims : list image) : Prop :=
  exists img boxes, picture_of disk luminance name img /\ BoxSpec.box_searchable img /\ segment img = Ok boxes /\ Forall2 (char_image img) boxes ims.

(** A text that is a number for strtoul, with its value: blanks, a sign, digits. *)
Definition number_text (t : list Z) (v : Z) : Prop :=
  exists p sign ds, t = p ++ sign ++ ds /\ blanks p /\ ds <> [] /\ Forall (fun c => is_digit c = true) ds /\
    ((sign = [] \/ sign = [43]) /\ v = digits_value ds \/ sign = [45] /\ v = - digits_value ds).
(** The arguments of write_glyphs. *)
Definition triples (l : list (list Z * list Z * list Z)) : list (list Z) := flat_map (fun '(i, t, f) => [i; t; f]) l.
(** The arguments without option: the first one is not -l, or there are too few of
    them for the option. *)
Definition no_option (names : list (list Z)) : Prop := (List.length names <= 2)%nat \/ nth 0 names [] <> str "-l".
(** What write_glyphs must print for one image, text and font of the disk. *)
Definition file_glyphs (disk : list Z -> option (list Z)) (luminance : Z) (t : list Z * list Z * list Z) (gs : list GlyphIoModel.glyph) : Prop :=
  let '(image, text, font) := t in
  exists img tx boxes ws, disk text = Some tx /\ picture_of disk luminance image img /\ BoxSpec.box_searchable img /\
    segment img = Ok boxes /\ text_words tx ws /\ List.length boxes = List.length ws /\ glyphs_for img font boxes ws gs.
