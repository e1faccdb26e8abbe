(** Property C101: the picture of a file of any bytes. *)
From Verif Require Import Base ImageModel ImageSpec PnmModel PnmSpec PictureTextSpec PictureTextProofs.

(** Whatever its bytes, the file says exactly one thing, which is what the loader gives. *)
Theorem C101_outcome : forall lum buf, bytes buf ->
  picture_text lum buf (image_of_bytes buf lum) /\ forall r, picture_text lum buf r -> r = image_of_bytes buf lum.
Proof. exact picture_outcome. Qed.
Print Assumptions C101_outcome.

(** The type, the size and the data of a file are unique. *)
Theorem C101_header : forall buf t w h payload t' w' h' payload', headed buf t w h payload -> headed buf t' w' h' payload' ->
  t = t' /\ w = w' /\ h = h' /\ payload = payload'.
Proof. exact headed_unique. Qed.
Print Assumptions C101_header.

(** The luminance matters only for maps of colours. *)
Theorem C101_luminance : forall buf l1 l2, bytes buf -> ~ (exists w h payload, headed buf 54 w h payload) -> image_of_bytes buf l1 = image_of_bytes buf l2.
Proof. exact luminance_unused. Qed.
Print Assumptions C101_luminance.

(** With a greater luminance there is less ink. *)
Theorem C101_ink : forall buf l1 l2 img1 img2, bytes buf -> l1 <= l2 -> image_of_bytes buf l1 = Ok img1 -> image_of_bytes buf l2 = Ok img2 ->
  iw img1 = iw img2 /\ ih img1 = ih img2 /\ forall x y, pix img2 x y = Some 120 -> pix img1 x y = Some 120.
Proof. exact luminance_ink. Qed.
Print Assumptions C101_ink.

(** A luminance of 0 is all ink, and one of 256 none. *)
Theorem C101_extremes : forall buf w h payload lum, bytes buf -> headed buf 54 w h payload -> 0 < w * h < 4294967296 ->
  Z.of_nat (List.length payload) = 3 * (w * h) ->
  (lum <= 0 -> image_of_bytes buf lum = Ok (mkimage w h (repeat 120 (Z.to_nat (w * h))))) /\
  (256 <= lum -> image_of_bytes buf lum = Ok (mkimage w h (repeat 45 (Z.to_nat (w * h))))).
Proof. exact luminance_extremes. Qed.
Print Assumptions C101_extremes.

Example C101_nonvacuous :
  image_of_bytes (str "P4" ++ [10] ++ str "#a 1" ++ [10] ++ str "3 2" ++ [10; 160; 64]) 128 = Ok (mkimage 3 2 (str "-x-x-x")) /\
  image_of_bytes (str "P6" ++ [10] ++ str "2 1" ++ [10] ++ str "255" ++ [10; 128; 128; 128; 127; 127; 127]) 128 = Ok (mkimage 2 1 (str "x-")) /\
  image_of_bytes (str "P1" ++ [10] ++ str "2 2" ++ [10] ++ str "0 1 1 ") 128 = Ok (mkimage 2 2 (str "-xx")) /\
  image_of_bytes (str "P3" ++ [10] ++ str "2 1" ++ [10] ++ str "1" ++ [10] ++ str "0 1x") 128 = Throw ExBadLength /\
  image_of_bytes (str "P3" ++ [10] ++ str "2 1" ++ [10] ++ str "1" ++ [10] ++ str "0x1") 128 = Throw ExBadData /\
  image_of_bytes (str "P5" ++ [10] ++ str "2 1" ++ [10] ++ str "255" ++ [10; 1; 2]) 128 = Throw ExUnsupported /\
  image_of_bytes (str "P4" ++ [10] ++ str "0 2" ++ [10; 160; 64]) 128 = Throw ExTooLarge /\
  image_of_bytes (str "P4" ++ [10] ++ str "9 2" ++ [10; 160; 64]) 128 = Throw ExBadLength /\
  image_of_bytes (str "P4 9 2" ++ [10; 160; 64]) 128 = Throw ExInvalidPnm /\
  headed (str "P4" ++ [10] ++ str "3 2" ++ [10; 160; 64]) 52 3 2 [160; 64].
Proof.
  repeat (split; [vm_compute; reflexivity|]). split; [cbn; lia|]. exists (str "P4" ++ [10] ++ str "3 2" ++ [10]). split; [|reflexivity].
  apply (header_text_nomax 52 3 2 [] (str "3") (str "2")); [now right|constructor| |]; (split; [discriminate|]; split; [repeat constructor; unfold digit; cbn; lia|split; [reflexivity|lia]]).
Qed.
