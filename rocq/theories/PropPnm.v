(** Properties C05-C08 and C56: the picture loader. *)
From Verif Require Import Base ImageModel ImageSpec PnmModel PnmSpec PnmProofs PnmProofs2.

(** C05: binary colour pictures. *)
Theorem C05_p6_decoding : forall w h hdr payload lum,
  header_text 54 w h hdr -> bytes payload -> 0 < w * h < 4294967296 ->
  (Z.of_nat (List.length payload) = 3 * (w * h) ->
   exists img, image_of_bytes (hdr ++ payload) lum = Ok img /\ wf_image img /\
     iw img = w /\ ih img = h /\
     forall x y r g b, 0 <= x < w -> 0 <= y < h ->
       nth_error payload (Z.to_nat (3 * (y * w + x))) = Some r ->
       nth_error payload (Z.to_nat (3 * (y * w + x) + 1)) = Some g ->
       nth_error payload (Z.to_nat (3 * (y * w + x) + 2)) = Some b ->
       pix img x y = Some (if luminance_of r g b <? lum then 45 else 120)) /\
  (Z.of_nat (List.length payload) <> 3 * (w * h) ->
   exists e, image_of_bytes (hdr ++ payload) lum = Throw e).
Proof. exact p6_law. Qed.
Print Assumptions C05_p6_decoding.

Definition p6_hdr : list Z := str "P6" ++ [10] ++ str "# hi" ++ [10] ++ str "2 1" ++ [10] ++ str "255" ++ [10].
Example C05_nonvacuous :
  header_text 54 2 1 p6_hdr /\
  image_of_bytes (p6_hdr ++ [255; 255; 255; 10; 10; 10]) 128 = Ok (mkimage 2 1 (str "x-")).
Proof.
  split; [|vm_compute; reflexivity].
  apply (header_text_max 54 2 1 (str "# hi" ++ [10]) (str "2") (str "1") (str "255") 255); try lia.
  - apply (comments_cons (str " hi") []); [simpl; intuition lia|constructor].
  - repeat split; try discriminate. repeat constructor; unfold digit; simpl; lia.
  - repeat split; try discriminate. repeat constructor; unfold digit; simpl; lia.
  - repeat split; try discriminate. repeat constructor; unfold digit; simpl; lia.
Qed.

(** C06: binary bitmaps.  The file must have at least 9 bytes (see
    [C06_tiny_refuted]) and a width below 2^31 (see C07). *)
Theorem C06_p4_decoding : forall w h hdr payload lum,
  header_text 52 w h hdr -> bytes (hdr ++ payload) -> 0 < w * h < 4294967296 ->
  w < 2147483648 ->
  (9 <= Z.of_nat (List.length (hdr ++ payload)) ->
   Z.of_nat (List.length payload) = (w + 7) / 8 * h ->
   exists img, image_of_bytes (hdr ++ payload) lum = Ok img /\ wf_image img /\
     iw img = w /\ ih img = h /\
     forall x y c, 0 <= x < w -> 0 <= y < h ->
       nth_error payload (Z.to_nat (y * ((w + 7) / 8) + x / 8)) = Some c ->
       pix img x y = Some (if Z.testbit c (7 - x mod 8) then 45 else 120)) /\
  (Z.of_nat (List.length payload) <> (w + 7) / 8 * h ->
   exists e, image_of_bytes (hdr ++ payload) lum = Throw e).
Proof. exact p4_law. Qed.
Print Assumptions C06_p4_decoding.

Definition p4_hdr (w h : string) : list Z := str "P4" ++ [10] ++ str w ++ [32] ++ str h ++ [10].
Lemma p4_hdr_10_1 : header_text 52 10 1 (p4_hdr "10" "1").
Proof.
  apply (header_text_nomax 52 10 1 [] (str "10") (str "1")); auto.
  - constructor.
  - repeat split; try discriminate. repeat constructor; unfold digit; simpl; lia.
  - repeat split; try discriminate. repeat constructor; unfold digit; simpl; lia.
Qed.
Example C06_nonvacuous :
  header_text 52 10 1 (p4_hdr "10" "1") /\
  image_of_bytes (p4_hdr "10" "1" ++ [7; 64]) 0 = Ok (mkimage 10 1 (str "xxxxx---x-")).
Proof. split; [exact p4_hdr_10_1|vm_compute; reflexivity]. Qed.

(** A well formed bitmap of 8 bytes is rejected as "badly formed header". *)
Theorem C06_tiny_refuted : exists w h hdr payload,
  header_text 52 w h hdr /\ 0 < w * h /\
  Z.of_nat (List.length payload) = (w + 7) / 8 * h /\
  forall lum, image_of_bytes (hdr ++ payload) lum = Throw ExInvalidPnm.
Proof.
  exists 1, 1, (p4_hdr "1" "1"), [0]. split; [|split; [lia|split; [reflexivity|reflexivity]]].
  apply (header_text_nomax 52 1 1 [] (str "1") (str "1")); auto.
  - constructor.
  - repeat split; try discriminate. repeat constructor; unfold digit; simpl; lia.
  - repeat split; try discriminate. repeat constructor; unfold digit; simpl; lia.
Qed.
Print Assumptions C06_tiny_refuted.
(** These are the only complete bitmaps that are refused for their length. *)
Theorem C06_tiny : forall w h hdr payload lum,
  header_text 52 w h hdr -> 0 < w * h -> Z.of_nat (List.length payload) = (w + 7) / 8 * h ->
  Z.of_nat (List.length (hdr ++ payload)) < 9 ->
  image_of_bytes (hdr ++ payload) lum = Throw ExInvalidPnm /\ 1 <= w <= 8 /\ h = 1 /\ hdr = [80; 52; 10; 48 + w; 32; 49; 10].
Proof. exact p4_tiny. Qed.
Print Assumptions C06_tiny.

(** C07, full statement: for every byte string, [image_of_bytes buf lum] is [Ok]
    or [Throw].  Proved for the files that are not bitmaps of width >= 2^31;
    refuted beyond. *)
Theorem C07_loader_memory_safe_partial : forall buf lum,
  bytes buf ->
  (forall hdr payload w h, buf = hdr ++ payload -> header_text 52 w h hdr -> w < 2147483648) ->
  (exists img, image_of_bytes buf lum = Ok img) \/ (exists e, image_of_bytes buf lum = Throw e).
Proof. exact no_ub. Qed.
Print Assumptions C07_loader_memory_safe_partial.

Example C07_nonvacuous : bytes (str "GIF89a") /\
  (forall hdr payload w h, str "GIF89a" = hdr ++ payload -> header_text 52 w h hdr -> w < 2147483648).
Proof.
  split; [repeat constructor; simpl; lia|].
  intros hdr payload w h E H. exfalso. inversion H; subst; simpl in E; discriminate.
Qed.

(** The bitmap "4294967295 x 1" without payload passes the length check and is
    read out of bounds. *)
Theorem C07_loader_memory_safe_refuted : exists buf, bytes buf /\
  forall lum, image_of_bytes buf lum = UB.
Proof.
  exists (str "P4" ++ [10] ++ str "4294967295 1" ++ [10]).
  split; [repeat constructor; simpl; lia|exact p4_overflow_ub].
Qed.
Print Assumptions C07_loader_memory_safe_refuted.
(** For every byte string: the loader goes out of its memory or overflows exactly for
    the bitmaps of one row of at least 2^31 pixels whose data has the length computed
    modulo 2^32; in all other cases it gives a picture or an exception. *)
Theorem C07_outcome : forall buf lum, bytes buf ->
  (image_of_bytes buf lum = UB <-> exists hdr payload w, buf = hdr ++ payload /\ header_text 52 w 1 hdr /\ 2147483648 <= w /\
     Z.of_nat (List.length payload) = (w + 7) mod 4294967296 / 8) /\ image_of_bytes buf lum <> NoFuel.
Proof. exact loader_undefined. Qed.
Print Assumptions C07_outcome.

(** C08: what the code does on ASCII bitmaps, for every payload: it throws as
    soon as there are enough digits, and otherwise returns an image with only
    the given pixels initialised. *)
Theorem C08_ascii_behaviour : forall t w h hdr payload lum,
  t = 49 \/ t = 51 -> header_text t w h hdr -> 0 < w * h < 4294967296 ->
  9 <= Z.of_nat (List.length (hdr ++ payload)) ->
  let digits := filter ascii_digit payload in
  (exists e, image_of_bytes (hdr ++ payload) lum = Throw e /\
     (~ Forall (fun c => ascii_digit c = true \/ ascii_blank c = true) payload \/
      w * h <= Z.of_nat (List.length digits))) \/
  (Forall (fun c => ascii_digit c = true \/ ascii_blank c = true) payload /\
   Z.of_nat (List.length digits) < w * h /\
   image_of_bytes (hdr ++ payload) lum = Ok (mkimage w h (map ascii_pixel digits))).
Proof. exact ascii_law. Qed.
Print Assumptions C08_ascii_behaviour.

(** Hence a complete ASCII bitmap is rejected and a truncated one accepted. *)
Theorem C08_ascii_complete_refuted :
  (exists e, image_of_bytes (str "P1" ++ [10] ++ str "2 2" ++ [10] ++ str "0 1 1 0") 0 = Throw e) /\
  (exists img, image_of_bytes (str "P1" ++ [10] ++ str "2 2" ++ [10] ++ str "0 1") 0 = Ok img /\
     ~ wf_image img).
Proof.
  split; [eexists; vm_compute; reflexivity|].
  eexists; split; [vm_compute; reflexivity|]. intros (_ & _ & _ & H). vm_compute in H. discriminate.
Qed.
Print Assumptions C08_ascii_complete_refuted.

(** C56: whatever the sizes of the successive reads, the buffer receives the
    first st_size bytes of the file. *)
Theorem C56_read_all_any_schedule : forall f size chunks,
  0 <= size -> Forall (fun c => 0 <= c) chunks ->
  read_all f size chunks = Ok (firstn (Z.to_nat size) f).
Proof. exact read_all_ok. Qed.
Print Assumptions C56_read_all_any_schedule.

Example C56_nonvacuous : read_all (str "abcdef") 6 [2; 1; 100] = Ok (str "abcdef").
Proof. vm_compute. reflexivity. Qed.
