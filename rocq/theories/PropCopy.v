(** Property C115: the files that show an image. *)
From Verif Require Import Base ImageModel ImageSpec PnmModel PnmSpec PictureTextSpec ShowModel LearnModel PipelineModel PrintModel Ocr6Model Ocr8Model OcrOutModel CopySpec CopyProofs.

(** C115, full statement: a file in any of the formats (numbers or bytes; bits, grey or
    colours) that shows an image is read as this image, and the programs print the same
    for all the files that show the same image.  A file is read as a whole image exactly
    if it is a map of colours or of bits that shows the image. *)
Theorem C115_loaded_partial : forall lum img buf, bytes buf -> wf_image img -> 0 < iw img * ih img -> (image_of_bytes buf lum = Ok img <-> copy lum img buf).
Proof. exact copy_loaded. Qed.
Print Assumptions C115_loaded_partial.
(** Every image is shown by such files. *)
Theorem C115_exist : forall lum img, wf_image img -> 0 < iw img * ih img -> Forall (fun p => p = 45 \/ p = 120) (idata img) -> 0 < lum <= 255 ->
  (exists buf, bytes buf /\ colour_copy lum img buf) /\ (iw img < 2147483648 -> exists buf, bytes buf /\ bit_copy img buf).
Proof. exact copies_exist. Qed.
Print Assumptions C115_exist.
(** show_glyphs and write_glyphs print the same when pictures are replaced by others that
    show the same. *)
Theorem C115_shown : forall lum disk disk' names out, Forall (fun n => copied lum (disk n) (disk' n)) names -> show_files disk' lum names out = show_files disk lum names out.
Proof. exact shown_copies. Qed.
Print Assumptions C115_shown.
Theorem C115_learnt : forall lum disk disk' names out, same_lessons lum disk disk' names -> learn_files disk' lum names out = learn_files disk lum names out.
Proof. exact learnt_copies. Qed.
Print Assumptions C115_learnt.
(** So do the three programs that read a line. *)
Theorem C115_read : forall disk prog glyphs datas i i' options, copied 128 (disk i) (disk i') ->
  (forall rt nan cx, ocr2_main rt nan cx disk (prog :: glyphs :: datas :: i' :: options) = ocr2_main rt nan cx disk (prog :: glyphs :: datas :: i :: options)) /\
  (forall rt nan, main6 rt nan disk (prog :: glyphs :: datas :: i' :: options) = main6 rt nan disk (prog :: glyphs :: datas :: i :: options)) /\
  (forall rt nan, main8 rt nan disk (prog :: glyphs :: datas :: i' :: options) = main8 rt nan disk (prog :: glyphs :: datas :: i :: options)).
Proof. exact read_copies. Qed.
Print Assumptions C115_read.

(** The same image in colours and in bits. *)
Definition ex_image : image := mkimage 10 2 (str "x-x-x-x--xxx--------").
Definition ex_colours : list Z := str "P6" ++ [10] ++ str "10 2" ++ [10] ++ str "255" ++ [10] ++
  flat_map (fun p => if p =? 120 then [255; 0; 10] else [40; 200; 30]) (idata ex_image).
Definition ex_bits : list Z := str "P4" ++ [10] ++ str "10 2" ++ [10; 85; 128; 63; 255].
Example C115_nonvacuous : wf_image ex_image /\ bytes ex_colours /\ bytes ex_bits /\ copy 128 ex_image ex_colours /\ copy 128 ex_image ex_bits /\ ex_colours <> ex_bits.
Proof.
  assert (W : wf_image ex_image) by (repeat split; vm_compute; congruence).
  assert (B1 : bytes ex_colours) by (unfold bytes; apply Forall_forall; intros c Hc; vm_compute in Hc; repeat (destruct Hc as [<-|Hc]; [lia|]); contradiction).
  assert (B2 : bytes ex_bits) by (unfold bytes; apply Forall_forall; intros c Hc; vm_compute in Hc; repeat (destruct Hc as [<-|Hc]; [lia|]); contradiction).
  split; [exact W|]. split; [exact B1|]. split; [exact B2|].
  split; [apply (C115_loaded_partial 128 ex_image ex_colours B1 W); vm_compute; reflexivity|].
  split; [apply (C115_loaded_partial 128 ex_image ex_bits B2 W); vm_compute; reflexivity|]. intros H. vm_compute in H. discriminate H.
Qed.

(** An image in digits is always refused, whatever follows its last digit. *)
Theorem C115_digits_refuted : forall lum buf t w h payload, bytes buf -> t = 49 \/ t = 51 -> headed buf t w h payload -> 0 < w * h < 4294967296 ->
  Forall written payload -> w * h <= digits_in payload -> image_of_bytes buf lum = Throw ExBadLength.
Proof. exact digits_refused. Qed.
Print Assumptions C115_digits_refuted.
(** So are the maps of greys. *)
Theorem C115_greys_refuted : forall lum buf t w h payload, bytes buf -> t = 50 \/ t = 53 -> headed buf t w h payload -> 0 < w * h < 4294967296 ->
  image_of_bytes buf lum = Throw ExUnsupported.
Proof. exact greys_refused. Qed.
Print Assumptions C115_greys_refuted.
(** The bits are not the digits: the ink is 0 in a map of bits and 1 in digits (of which
    the last is missing here). *)
Theorem C115_ink_refuted : image_of_bytes (str "P4" ++ [10] ++ str "3 1" ++ [10; 160; 10]) 128 = Throw ExBadLength /\
  image_of_bytes (str "P4" ++ [10] ++ str "3 2" ++ [10; 160; 0]) 128 = Ok (mkimage 3 2 (str "-x-xxx")) /\
  image_of_bytes (str "P1" ++ [10] ++ str "3 2" ++ [10] ++ str "10100") 128 = Ok (mkimage 3 2 (str "x-x--")).
Proof. split; [vm_compute; reflexivity|split; [vm_compute; reflexivity|vm_compute; reflexivity]]. Qed.
Print Assumptions C115_ink_refuted.
(** An image of one short row in bits is refused, unless there is a comment. *)
Theorem C115_short_refuted : image_of_bytes (str "P4" ++ [10] ++ str "3 1" ++ [10; 160]) 128 = Throw ExInvalidPnm /\
  image_of_bytes (str "P4" ++ [10; 35; 10] ++ str "3 1" ++ [10; 160]) 128 = Ok (mkimage 3 1 (str "-x-")).
Proof. split; [vm_compute; reflexivity|vm_compute; reflexivity]. Qed.
Print Assumptions C115_short_refuted.
