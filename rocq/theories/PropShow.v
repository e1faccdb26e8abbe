(** Properties C82-C86: show_glyphs, the arguments of the programs that read
    pictures, the printing and the comparison of coordinates. *)
From Verif Require Import Base ImageModel ImageSpec PnmModel BoxModel BoxSpec StreamModel StreamProofs GlyphIoModel ExtractSpec LearnModel LearnSpec
  TrieModel ShowModel ShowSpec ShowProofs.

(** C82: the characters of a line are shown in order, each in its frame. *)
Theorem C82_line : forall img boxes, box_searchable img -> segment img = Ok boxes ->
  exists ims, Forall2 (char_image img) boxes ims /\ show_characters img = Ok (frames ims).
Proof. exact show_characters_ok. Qed.
Print Assumptions C82_line.
(** A picture is shown in full whatever its size, and what is shown determines
    the pictures: nothing is hidden by the frames. *)
Theorem C82_picture : forall img, wf_image img -> iw img + 3 < 4294967296 -> show_image img = Ok (framed img).
Proof. exact show_image_ok. Qed.
Print Assumptions C82_picture.
Theorem C82_readable : forall l1 l2, Forall drawable l1 -> Forall drawable l2 -> frames l1 = frames l2 -> l1 = l2.
Proof. exact frames_inj. Qed.
Print Assumptions C82_readable.
Theorem C82_drawable : forall buf lum img b im, image_of_bytes buf lum = Ok img -> char_image img b im -> nonempty_box b -> drawable im.
Proof. exact char_drawable. Qed.
Print Assumptions C82_drawable.
(** The program shows the characters of its files; it stops at the first file that
    cannot be read, after what it has shown for the ones before. *)
Theorem C82_program : forall disk prog names imss, no_option names -> names <> [] -> Forall2 (file_characters disk 128) names imss ->
  show_glyphs disk (prog :: names) = Ok (frames (List.concat imss), Exits 0).
Proof. exact show_glyphs_ok. Qed.
Print Assumptions C82_program.
Theorem C82_unreadable : forall disk prog names imss n rest e, no_option (names ++ n :: rest) -> Forall2 (file_characters disk 128) names imss ->
  no_picture disk 128 n e -> show_glyphs disk (prog :: names ++ n :: rest) = Ok (frames (List.concat imss), Aborts e).
Proof. exact show_glyphs_abort. Qed.
Print Assumptions C82_unreadable.

(** A bitmap of 4 columns and 3 rows: one character of 2 columns and 2 rows. *)
Definition ex_bitmap : list Z := str "P4" ++ [10] ++ str "4 3" ++ [10] ++ [112; 176; 240].
Definition ex_disk (n : list Z) : option (list Z) := if list_eqb n (str "a") then Some ex_bitmap else None.
Definition ex_shown : list Z :=
  str "::::" ++ [10] ++ str ":x-:" ++ [10] ++ str ":-x:" ++ [10] ++ str "::::" ++ [10; 10].
Example C82_nonvacuous :
  file_characters ex_disk 128 (str "a") [mkimage 2 2 (str "x--x")] /\
  show_glyphs ex_disk [str "show"; str "a"] = Ok (ex_shown, Exits 0) /\
  show_glyphs ex_disk [str "show"; str "a"; str "b"; str "a"] = Ok (ex_shown, Aborts ExIo) /\
  show_glyphs ex_disk [str "show"] = Ok ([], Exits 1) /\
  drawable (mkimage 2 2 (str "x--x")) /\ framed (mkimage 2 2 (str "x--x")) ++ [10] = ex_shown /\
  framed (mkimage 2 2 (str "x--x")) <> framed (mkimage 2 2 (str "xx-x")).
Proof.
  split.
  { exists (mkimage 4 3 (str "x----x------")), [mkbox 0 0 2 2]. split; [exists ex_bitmap; split; vm_compute; reflexivity|]. split; [repeat split; cbn; lia|]. split; [vm_compute; reflexivity|].
    constructor; [|constructor]. split; [repeat split; cbn; lia|]. split; [reflexivity|]. split; [reflexivity|]. intros i j Hi Hj. cbn in Hi, Hj.
    assert (Ei : i = 0 \/ i = 1) by lia. assert (Ej : j = 0 \/ j = 1) by lia. destruct Ei as [-> | ->], Ej as [-> | ->]; reflexivity. }
  repeat split; try (vm_compute; reflexivity); try (cbn; lia). vm_compute. discriminate.
Qed.

(** C83, in full: the option -l takes a number as luminance, whatever it is, and
    any other text is refused.  The exact set of texts that are accepted, and what
    is done with them: the value is reduced modulo 2^32. *)
Theorem C83_option_partial : forall prog t n rest l, luminance_option (prog :: str "-l" :: t :: n :: rest) = Ok (Some (2, l)) <->
  exists v, number_text t v /\ Z.abs v < 18446744073709551616 /\ l = u32 v.
Proof. exact option_exact. Qed.
Print Assumptions C83_option_partial.
Theorem C83_total : forall prog t n rest, exists o, luminance_option (prog :: str "-l" :: t :: n :: rest) = Ok o /\
  (o = None \/ exists l, o = Some (2, l)).
Proof. exact option_total. Qed.
Print Assumptions C83_total.
Theorem C83_default : forall prog names, no_option names -> luminance_option (prog :: names) = Ok (Some (0, 128)).
Proof. exact option_none. Qed.
Print Assumptions C83_default.
Theorem C83_used : forall disk prog t v names imss, number_text t v -> Z.abs v < 18446744073709551616 -> names <> [] ->
  Forall2 (file_characters disk (u32 v)) names imss ->
  show_glyphs disk (prog :: str "-l" :: t :: names) = Ok (frames (List.concat imss), Exits 0).
Proof. exact show_glyphs_option. Qed.
Print Assumptions C83_used.
(** A number of 2^32 is taken as 0 and -1 as 2^32-1: the picture is not the one
    that was asked for. *)
Theorem C83_wraps_refuted :
  (exists t, number_text t 4294967296 /\ forall prog n rest, luminance_option (prog :: str "-l" :: t :: n :: rest) = Ok (Some (2, 0))) /\
  (exists t, number_text t (-1) /\ forall prog n rest, luminance_option (prog :: str "-l" :: t :: n :: rest) = Ok (Some (2, 4294967295))).
Proof.
  split.
  - assert (N : number_text (str "4294967296") 4294967296).
    { exists [], [], (str "4294967296"). split; [reflexivity|]. split; [intros ? []|]. split; [discriminate|]. split; [repeat constructor|]. left. split; [left|]; reflexivity. }
    exists (str "4294967296"). split; [exact N|]. intros. apply C83_option_partial. exists 4294967296. split; [exact N|]. split; [lia|reflexivity].
  - assert (N : number_text (str "-1") (-1)).
    { exists [], [45], [49]. split; [reflexivity|]. split; [intros ? []|]. split; [discriminate|]. split; [repeat constructor|]. right. split; reflexivity. }
    exists (str "-1"). split; [exact N|]. intros. apply C83_option_partial. exists (-1). split; [exact N|]. split; [lia|reflexivity].
Qed.
Print Assumptions C83_wraps_refuted.
(** Without any file, the option is not seen: the program reads a file named -l. *)
Theorem C83_no_file_refuted : forall disk prog t bytes img boxes, disk (str "-l") = Some bytes -> image_of_bytes bytes 128 = Ok img ->
  box_searchable img -> segment img = Ok boxes -> disk t = None ->
  exists ims, Forall2 (char_image img) boxes ims /\ show_glyphs disk [prog; str "-l"; t] = Ok (frames ims, Aborts ExIo).
Proof.
  intros disk prog t bytes img boxes Ed Ei Hs Eb Et. destruct (C82_line img boxes Hs Eb) as (ims & F & _). exists ims. split; [exact F|].
  rewrite <- (app_nil_r ims) at 1. change (ims ++ []) with (List.concat [ims]).
  apply (C82_unreadable disk prog [str "-l"] [ims] t [] ExIo).
  - left. cbn. lia.
  - constructor; [|constructor]. exists img, boxes. split; [exists bytes|]; auto.
  - left. auto.
Qed.
Print Assumptions C83_no_file_refuted.
(** A white, a grey and two black pixels: the luminance decides for the grey one. *)
Definition ex_disk3 (n : list Z) : option (list Z) :=
  Some (str "P6" ++ [10] ++ str "4 1" ++ [10] ++ str "255" ++ [10] ++ [255; 255; 255; 200; 200; 200; 0; 0; 0; 0; 0; 0]).
Example C83_nonvacuous :
  number_text (str " +100") 100 /\ luminance_option [[]; str "-l"; str " +100"; str "a"] = Ok (Some (2, 100)) /\
  luminance_option [[]; str "-l"; str "1x"; str "a"] = Ok None /\ luminance_option [[]; str "-l"; str "-"; str "a"] = Ok None /\
  luminance_option [[]; str "-l"; str "18446744073709551616"; str "a"] = Ok None /\
  luminance_option [[]; str "-m"; str "100"; str "a"] = Ok (Some (0, 128)) /\
  show_glyphs ex_disk [[]; str "-l"; str "100"; str "a"] = Ok (ex_shown, Exits 0) /\
  show_glyphs ex_disk3 [[]; str "a"] = Ok (str "::::" ++ [10] ++ str ":xx:" ++ [10] ++ str "::::" ++ [10; 10], Exits 0) /\
  show_glyphs ex_disk3 [[]; str "-l"; str "201"; str "a"] = Ok (str ":::" ++ [10] ++ str ":x:" ++ [10] ++ str ":::" ++ [10; 10], Exits 0).
Proof.
  split.
  { exists [32], [43], (str "100"). split; [reflexivity|]. split; [intros ? [<-|[]]; reflexivity|]. split; [discriminate|]. split; [repeat constructor|].
    left. split; [right|]; reflexivity. }
  repeat split; vm_compute; reflexivity.
Qed.

(** C84: write_glyphs learns all the images of its arguments, with the luminance of
    its option; a wrong number of arguments is refused. *)
Theorem C84_learnt : forall disk prog l gss, l <> [] -> fst (fst (nth 0 l ([], [], []))) <> str "-l" -> Forall2 (file_glyphs disk 128) l gss ->
  write_glyphs_main disk (prog :: triples l) = Ok (write_glyphs (List.concat gss), Exits 0).
Proof. exact write_main_ok. Qed.
Print Assumptions C84_learnt.
Theorem C84_option : forall disk prog t v l gss, number_text t v -> Z.abs v < 18446744073709551616 -> l <> [] ->
  Forall2 (file_glyphs disk (u32 v)) l gss ->
  write_glyphs_main disk (prog :: str "-l" :: t :: triples l) = Ok (write_glyphs (List.concat gss), Exits 0).
Proof. exact write_main_option. Qed.
Print Assumptions C84_option.
Theorem C84_usage : forall disk prog names, no_option names -> (List.length names = 0%nat \/ ((List.length names mod 3)%nat <> 0%nat)) ->
  write_glyphs_main disk (prog :: names) = Ok ([], Exits 1).
Proof. exact write_main_usage. Qed.
Print Assumptions C84_usage.
Definition ex_disk2 (n : list Z) : option (list Z) :=
  if list_eqb n (str "a") then Some ex_bitmap else if list_eqb n (str "t") then Some (str "v") else None.
Example C84_nonvacuous :
  file_glyphs ex_disk2 128 (str "a", str "t", str "f") [mkglyph (mkimage 2 2 (str "x--x")) [mkview (str "v") (str "f") 4294967295]] /\
  write_glyphs_main ex_disk2 [[]; str "a"; str "t"; str "f"] =
    Ok (str "2 2 x--x" ++ [10] ++ str "1" ++ [10] ++ str "v f 4294967295" ++ [10], Exits 0) /\
  write_glyphs_main ex_disk2 [[]; str "a"; str "t"; str "f"; str "a"] = Ok ([], Exits 1) /\
  write_glyphs_main ex_disk2 [[]; str "a"; str "u"; str "f"] = Ok ([], Aborts ExIo) /\
  write_glyphs_main ex_disk2 [[]; str "t"; str "t"; str "f"] = Ok ([], Aborts ExInvalidPnm).
Proof.
  split.
  { exists (mkimage 4 3 (str "x----x------")), (str "v"), [mkbox 0 0 2 2], [str "v"]. split; [reflexivity|]. split; [exists ex_bitmap; split; vm_compute; reflexivity|].
    split; [repeat split; cbn; lia|]. split; [vm_compute; reflexivity|]. split.
    { apply (tw_last [] (str "v")); [intros ? []|]. split; [discriminate|]. intros c [<-|[]]. cbn. lia. }
    split; [reflexivity|]. constructor; [|constructor]. split; [|reflexivity]. split; [repeat split; cbn; lia|]. split; [reflexivity|]. split; [reflexivity|].
    intros i j Hi Hj. cbn in Hi, Hj.
    assert (Ei : i = 0 \/ i = 1) by lia. assert (Ej : j = 0 \/ j = 1) by lia. destruct Ei as [-> | ->], Ej as [-> | ->]; reflexivity. }
  repeat split; vm_compute; reflexivity.
Qed.

(** C85: coordinates and boxes that are printed are read back, with what follows
    left in the stream; a failed reading leaves the variable as it was. *)
Theorem C85_pair : forall old p blank r, word32 (fst p) -> word32 (snd p) -> spaces blank -> stops is_digit r ->
  read_pair old (open_stream (blank ++ write_pair p ++ r)) = (p, mkis r (null r) false true).
Proof. exact read_pair_written. Qed.
Print Assumptions C85_pair.
Theorem C85_box : forall oi ob b r, word32 (bx b) -> word32 (by_ b) -> word32 (bw b) -> word32 (bh b) -> stops is_digit r ->
  exists s, read_pair oi (open_stream (write_box b ++ r)) = ((bx b, by_ b), s) /\
    read_pair ob s = ((bw b, bh b), mkis r (null r) false true).
Proof. exact box_written. Qed.
Print Assumptions C85_box.
Theorem C85_failed : forall old s p s', read_pair old s = (p, s') -> is_ok s' = false -> p = old.
Proof. exact read_pair_failed. Qed.
Print Assumptions C85_failed.
Example C85_nonvacuous :
  write_box (mkbox 1 20 3 4) = str "1 20 3 4" /\
  read_pair (7, 8) (open_stream (str " 1 20 3")) = ((1, 20), mkis (str " 3") false false true) /\
  fst (read_pair (7, 8) (open_stream (str "1 x"))) = (7, 8) /\ is_ok (snd (read_pair (7, 8) (open_stream (str "1 x")))) = false /\
  fst (read_pair (7, 8) (open_stream (str "1 4294967296"))) = (7, 8).
Proof. repeat split; vm_compute; reflexivity. Qed.

(** C86, in full: coordinates and boxes are equal when they are the same.  It holds
    for Index and Bounds; two boxes are equal as soon as they have the same size. *)
Theorem C86_pairs : forall p q, pair_eqb p q = true <-> p = q.
Proof. exact pair_eqb_iff. Qed.
Print Assumptions C86_pairs.
Theorem C86_boxes_partial : forall a b, box_eq a b = true <-> bw a = bw b /\ bh a = bh b.
Proof. exact box_eq_iff. Qed.
Print Assumptions C86_boxes_partial.
(** Two different characters of one line are equal boxes. *)
Theorem C86_boxes_refuted : exists img boxes a b, box_searchable img /\ segment img = Ok boxes /\ boxes = [a; b] /\ a <> b /\ box_eq a b = true /\
  exists x y, in_box a x y /\ ~ in_box b x y.
Proof.
  exists (mkimage 4 1 (str "x-x-")), [mkbox 0 0 1 1; mkbox 2 0 1 1], (mkbox 0 0 1 1), (mkbox 2 0 1 1).
  split; [repeat split; cbn; lia|]. split; [vm_compute; reflexivity|]. split; [reflexivity|]. split; [discriminate|]. split; [reflexivity|].
  exists 0, 0. unfold in_box. cbn. lia.
Qed.
Print Assumptions C86_boxes_refuted.
Example C86_nonvacuous : pair_eqb (1, 2) (1, 2) = true /\ pair_eqb (1, 2) (1, 3) = false /\ pair_eqb (1, 2) (0, 2) = false /\
  box_eq (mkbox 1 2 3 4) (mkbox 1 2 3 5) = false.
Proof. repeat split; reflexivity. Qed.
