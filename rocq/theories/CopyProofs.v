(** Proofs about the picture files that show an image. *)
From Verif Require Import Base BaseProofs SortModel ImageModel ImageSpec ImageProofs PnmModel PnmSpec PnmProofs PictureTextSpec PictureTextProofs ShowModel LearnModel PipelineModel PrintModel PrintSpec PrintProofs2
  Ocr6Model Ocr8Model OcrOutModel TrieModel GlyphIoModel CopySpec MarginProofs2.

Lemma painted_length lum ps pl : painted lum ps pl -> Z.of_nat (List.length pl) = 3 * Z.of_nat (List.length ps).
Proof. induction 1; cbn [List.length]; lia. Qed.
Lemma painted_nth lum ps pl : painted lum ps pl -> forall k p, nth_error ps k = Some p -> exists r g b,
  nth_error pl (3 * k) = Some r /\ nth_error pl (3 * k + 1) = Some g /\ nth_error pl (3 * k + 2) = Some b /\ p = if luminance_of r g b <? lum then 45 else 120.
Proof.
  induction 1 as [|r g b ps rest L H IH|r g b ps rest L H IH]; intros k p Hk; [destruct k; discriminate|..].
  all: destruct k as [|k]; cbn [nth_error] in Hk.
  all: try (injection Hk as <-; exists r, g, b; repeat split; destruct (Z.ltb_spec (luminance_of r g b) lum); [lia || reflexivity|lia || reflexivity]).
  all: destruct (IH k p Hk) as (r' & g' & b' & E1 & E2 & E3 & E4); exists r', g', b'; replace (3 * S k)%nat with (S (S (S (3 * k)))) by lia; cbn [Nat.add nth_error]; rewrite Nat.add_comm in E2, E3; auto.
  all: rewrite (Nat.add_comm _ 1), (Nat.add_comm _ 2); auto.
Qed.
Lemma painted_of lum : forall ps pl, Z.of_nat (List.length pl) = 3 * Z.of_nat (List.length ps) ->
  (forall k p, nth_error ps k = Some p -> exists r g b, nth_error pl (3 * k) = Some r /\ nth_error pl (3 * k + 1) = Some g /\ nth_error pl (3 * k + 2) = Some b /\ p = if luminance_of r g b <? lum then 45 else 120) ->
  painted lum ps pl.
Proof.
  induction ps as [|p ps IH]; intros pl L H.
  - destruct pl; [constructor|cbn [List.length] in L; lia].
  - destruct pl as [|r [|g [|b pl]]]; try (cbn [List.length] in L; lia).
    assert (T : painted lum ps pl).
    { apply IH; [cbn [List.length] in L; lia|]. intros k q Hk. destruct (H (S k) q Hk) as (r' & g' & b' & E1 & E2 & E3 & E4). exists r', g', b'. replace (3 * S k)%nat with (S (S (S (3 * k)))) in * by lia. auto. }
    destruct (H O p eq_refl) as (r' & g' & b' & E1 & E2 & E3 & E4). cbn in E1, E2, E3. injection E1 as <-. injection E2 as <-. injection E3 as <-.
    destruct (Z.ltb_spec (luminance_of r g b) lum); subst p; constructor; assumption.
Qed.

(** * Bits *)
Lemma byte_bits c : 0 <= c < 256 -> byte_of (map (fun j => Z.testbit c (7 - j)) (zrange 8)) = c.
Proof.
  intros H. assert (A : forallb (fun c => byte_of (map (fun j => Z.testbit c (7 - j)) (zrange 8)) =? c) (zrange 256) = true) by (vm_compute; reflexivity).
  rewrite forallb_forall in A. apply Z.eqb_eq, A, zrange_In, H.
Qed.
Lemma bits_byte f j : 0 <= j < 8 -> Z.testbit (byte_of (map f (zrange 8))) (7 - j) = f j.
Proof.
  intros H. change (zrange 8) with [0; 1; 2; 3; 4; 5; 6; 7]. cbn [map].
  assert (J : j = 0 \/ j = 1 \/ j = 2 \/ j = 3 \/ j = 4 \/ j = 5 \/ j = 6 \/ j = 7) by lia.
  destruct (f 0) eqn:E0, (f 1) eqn:E1, (f 2) eqn:E2, (f 3) eqn:E3, (f 4) eqn:E4, (f 5) eqn:E5, (f 6) eqn:E6, (f 7) eqn:E7;
    destruct J as [-> | [-> | [-> | [-> | [-> | [-> | [-> | ->]]]]]]]; vm_compute; congruence.
Qed.
Lemma packed_nth pad img k y : 0 <= k < (iw img + 7) / 8 -> 0 <= y < ih img ->
  nth_error (packed pad img) (Z.to_nat (y * ((iw img + 7) / 8) + k)) = Some (byte_of (map (fun j => bit_at pad img (8 * k + j) y) (zrange 8))).
Proof. intros Hk Hy. exact (rowmajor_nth ((iw img + 7) / 8) (ih img) (fun k y => byte_of (map (fun j => bit_at pad img (8 * k + j) y) (zrange 8))) k y Hk Hy). Qed.
Lemma packed_length pad img : 0 <= iw img -> 0 <= ih img -> Z.of_nat (List.length (packed pad img)) = (iw img + 7) / 8 * ih img.
Proof. intros Hw Hh. apply (rowmajor_length ((iw img + 7) / 8) (ih img)); [apply Z.div_pos; lia|exact Hh]. Qed.
Lemma packed_map pad img : wf_image img -> Forall (fun p => p = 45 \/ p = 120) (idata img) -> bit_map (packed pad img) img.
Proof.
  intros (Hw & Hh & Ha & Hl) Hp x y Hx Hy. pose proof (Z.div_mod x 8 ltac:(lia)) as D. pose proof (Z.mod_pos_bound x 8 ltac:(lia)) as M.
  exists (byte_of (map (fun j => bit_at pad img (8 * (x / 8) + j) y) (zrange 8))). split.
  - apply packed_nth; [|exact Hy]. split; [apply Z.div_pos; lia|]. apply Z.div_lt_upper_bound; [lia|]. pose proof (Z.div_mod (iw img + 7) 8 ltac:(lia)). pose proof (Z.mod_pos_bound (iw img + 7) 8 ltac:(lia)). lia.
  - rewrite (bits_byte (fun j => bit_at pad img (8 * (x / 8) + j) y)) by exact M. replace (8 * (x / 8) + x mod 8) with x by lia. unfold bit_at, pix.
    replace ((0 <=? x) && (x <? iw img) && (0 <=? y) && (y <? ih img)) with true by lia.
    destruct (nth_error (idata img) (Z.to_nat (y * iw img + x))) as [p|] eqn:E.
    + rewrite Forall_forall in Hp. destruct (Hp p (nth_error_In _ _ E)) as [-> | ->]; reflexivity.
    + apply nth_error_None in E. nia.
Qed.
Lemma map_packed payload img : bytes payload -> wf_image img -> Z.of_nat (List.length payload) = (iw img + 7) / 8 * ih img -> bit_map payload img ->
  Forall (fun p => p = 45 \/ p = 120) (idata img) /\ exists pad, payload = packed pad img.
Proof.
  intros Hb W L H. assert (W' := W). destruct W' as (Hw & Hh & Ha & Hl). split.
  - apply Forall_forall. intros p Hp. apply In_nth_error in Hp. destruct Hp as (k & E).
    assert (Kl : (k < List.length (idata img))%nat) by (apply nth_error_Some; congruence).
    assert (w0 : 0 < iw img) by nia. pose proof (Z.div_mod (Z.of_nat k) (iw img) ltac:(lia)) as D. pose proof (Z.mod_pos_bound (Z.of_nat k) (iw img) w0) as M.
    assert (Y : 0 <= Z.of_nat k / iw img < ih img) by (split; [apply Z.div_pos; lia|apply Z.div_lt_upper_bound; lia]).
    destruct (H (Z.of_nat k mod iw img) (Z.of_nat k / iw img) M Y) as (c & _ & E'). unfold pix in E'. replace (_ && _ && _ && _) with true in E' by lia.
    replace (Z.to_nat (Z.of_nat k / iw img * iw img + Z.of_nat k mod iw img)) with k in E' by lia. rewrite E in E'. injection E' as ->. destruct (Z.testbit _ _); auto.
  - set (n := (iw img + 7) / 8) in *. exists (fun x y => Z.testbit (nth (Z.to_nat (y * n + x / 8)) payload 0) (7 - x mod 8)).
    apply nth_error_ext. intros k. destruct (Z.ltb_spec (Z.of_nat k) (n * ih img)) as [Hk|Hk].
    2:{ rewrite (proj2 (nth_error_None _ _)) by lia. symmetry. apply nth_error_None. pose proof (packed_length (fun x y => Z.testbit (nth (Z.to_nat (y * n + x / 8)) payload 0) (7 - x mod 8)) img). lia. }
    assert (n0 : 0 < n) by (assert (0 <= n) by (apply Z.div_pos; lia); nia).
    pose proof (Z.div_mod (Z.of_nat k) n ltac:(lia)) as D. pose proof (Z.mod_pos_bound (Z.of_nat k) n n0) as M.
    assert (Y : 0 <= Z.of_nat k / n < ih img) by (split; [apply Z.div_pos; lia|apply Z.div_lt_upper_bound; lia]).
    set (q := Z.of_nat k mod n) in *. set (y := Z.of_nat k / n) in *. replace k with (Z.to_nat (y * n + q)) by lia.
    unfold n at 2. rewrite packed_nth by assumption. fold n.
    destruct (nth_error payload (Z.to_nat (y * n + q))) as [c|] eqn:Ec; [|apply nth_error_None in Ec; lia].
    assert (B : 0 <= c < 256) by (unfold bytes in Hb; rewrite Forall_forall in Hb; exact (Hb c (nth_error_In _ _ Ec))).
    f_equal. rewrite <- (byte_bits c B) at 1. f_equal. apply map_ext_in. intros j Hj. apply zrange_In in Hj. unfold bit_at.
    assert (Dq : (8 * q + j) / 8 = q) by (rewrite (Z.mul_comm 8), Z.div_add_l, Z.div_small by lia; lia).
    assert (Mq : (8 * q + j) mod 8 = j) by (rewrite Z.add_comm, (Z.mul_comm 8), Z.mod_add, Z.mod_small by lia; lia).
    destruct (pix img (8 * q + j) y) as [p|] eqn:Ep.
    + destruct (pix_range _ _ _ _ Ep) as (Px & Py). destruct (H _ _ Px Py) as (c' & E1 & E2). rewrite Dq in E1. fold n in E1. rewrite Ec in E1. injection E1 as <-. rewrite Mq in E2. assert (Hp : p = if Z.testbit c (7 - j) then 45 else 120) by congruence. rewrite Hp. destruct (Z.testbit c (7 - j)); reflexivity.
    + rewrite Dq, Mq. rewrite (nth_error_nth _ _ _ Ec). reflexivity.
Qed.

(** * The copies are what is loaded *)
Theorem copy_loaded lum img buf : bytes buf -> wf_image img -> 0 < iw img * ih img -> (image_of_bytes buf lum = Ok img <-> copy lum img buf).
Proof.
  intros Hb W P. assert (W' := W). destruct W' as (Hw & Hh & Ha & Hl). split.
  - intros E. destruct (picture_outcome lum buf Hb) as (T & _). rewrite E in T.
    inversion T as [| |w h pl img0 H Hs Hn Wf Ew Eh Hc E0| |w h pl img0 H Hs Hw0 Hn Wf Ew Eh Hc E0| | | |t w h pl Ht H Hs HF Hd E0| | |]; subst.
    + left. destruct (headed_split _ _ _ _ _ H) as (hdr & Hh1 & -> & _). exists hdr, pl. split; [exact Hh1|]. split; [|reflexivity].
      apply painted_of; [lia|]. intros k p Hk. assert (Kl : (k < List.length (idata img))%nat) by (apply nth_error_Some; congruence).
      assert (w0 : 0 < iw img) by nia. pose proof (Z.div_mod (Z.of_nat k) (iw img) ltac:(lia)) as D. pose proof (Z.mod_pos_bound (Z.of_nat k) (iw img) w0) as M.
      assert (Y : 0 <= Z.of_nat k / iw img < ih img) by (split; [apply Z.div_pos; lia|apply Z.div_lt_upper_bound; lia]).
      destruct (Hc _ _ M Y) as (r & g & b & E1 & E2 & E3 & E4). unfold pix in E4. replace (_ && _ && _ && _) with true in E4 by lia.
      replace (Z.of_nat k / iw img * iw img + Z.of_nat k mod iw img) with (Z.of_nat k) in * by lia. rewrite Nat2Z.id, Hk in E4. injection E4 as ->.
      exists r, g, b. replace (Z.to_nat (3 * Z.of_nat k)) with (3 * k)%nat in E1 by lia. replace (Z.to_nat (3 * Z.of_nat k + 1)) with (3 * k + 1)%nat in E2 by lia. replace (Z.to_nat (3 * Z.of_nat k + 2)) with (3 * k + 2)%nat in E3 by lia. auto.
    + right. destruct (headed_split _ _ _ _ _ H) as (hdr & Hh1 & -> & H9).
      assert (Hbp : bytes pl) by (unfold bytes in *; now apply Forall_app in Hb).
      destruct (map_packed pl img Hbp W Hn Hc) as (F & pad & Ep). split; [exact F|]. split; [exact Hw0|]. split; [exact H9|]. exists hdr, pad. split; [exact Hh1|]. now rewrite <- Ep.
    + cbn [iw ih idata] in *. rewrite map_length in Hl. unfold digits_in in Hd. lia.
  - intros C. apply text_sound; [exact Hb|]. destruct C as [(hdr & pl & Hh1 & Hp & ->)|(F & Hw0 & H9 & hdr & pad & Hh1 & ->)].
    + apply (pt_colours lum _ (iw img) (ih img) pl); try reflexivity; try assumption; try lia.
      * split; [|exists hdr; auto]. rewrite app_length. pose proof (header_p6_len _ _ 54 _ ltac:(lia) ltac:(lia) Hh1). lia.
      * rewrite (painted_length _ _ _ Hp). lia.
      * intros x y Hx Hy. pose proof (idx_bound _ _ _ _ Hx Hy) as I.
        destruct (nth_error (idata img) (Z.to_nat (y * iw img + x))) as [p|] eqn:E; [|apply nth_error_None in E; lia].
        destruct (painted_nth _ _ _ Hp _ _ E) as (r & g & b & E1 & E2 & E3 & E4). exists r, g, b.
        replace (3 * Z.to_nat (y * iw img + x))%nat with (Z.to_nat (3 * (y * iw img + x))) in * by lia.
        replace (Z.to_nat (3 * (y * iw img + x)) + 1)%nat with (Z.to_nat (3 * (y * iw img + x) + 1)) in * by lia.
        replace (Z.to_nat (3 * (y * iw img + x)) + 2)%nat with (Z.to_nat (3 * (y * iw img + x) + 2)) in * by lia.
        split; [exact E1|]. split; [exact E2|]. split; [exact E3|]. unfold pix. replace (_ && _ && _ && _) with true by lia. rewrite E, E4. reflexivity.
    + apply (pt_bits lum _ (iw img) (ih img) (packed pad img)); try reflexivity; try assumption; try lia.
      * split; [exact H9|exists hdr; auto].
      * apply packed_length; lia.
      * apply packed_map; assumption.
Qed.

(** * Every image has copies *)
Lemma numeral_of n : 0 <= n < 4294967296 -> exists ds, numeral ds n /\ bytes ds.
Proof.
  intros H. destruct (Z.eq_dec n 0) as [->|N].
  { exists [48]. split; [|repeat constructor; lia]. repeat split; try discriminate. repeat constructor; unfold digit; lia. }
  assert (K : forall k n, 0 < n < Z.of_nat (Nat.pow 10 k) -> exists ds, ds <> [] /\ Forall digit ds /\ numeral_value ds = n).
  { induction k as [|k IH]; intros m Hm; [cbn in Hm; lia|]. destruct (Z_lt_le_dec m 10) as [L|L].
    - exists [48 + m]. split; [discriminate|]. split; [repeat constructor; unfold digit; lia|]. unfold numeral_value. cbn [fold_left]. lia.
    - pose proof (Z.div_mod m 10 ltac:(lia)). pose proof (Z.mod_pos_bound m 10 ltac:(lia)).
      destruct (IH (m / 10)) as (ds & N0 & F & V). { cbn [Nat.pow] in Hm. split; [apply Z.div_str_pos; lia|]. apply Z.div_lt_upper_bound; lia. }
      exists (ds ++ [48 + m mod 10]). split; [destruct ds; discriminate|]. split; [apply Forall_app; split; [exact F|repeat constructor; unfold digit; lia]|].
      unfold numeral_value in *. rewrite fold_left_app, V. cbn [fold_left]. lia. }
  assert (K2 : forall k n, 0 < n < 10 ^ Z.of_nat k -> exists ds, ds <> [] /\ Forall digit ds /\ numeral_value ds = n).
  { intros k m Hm. apply (K k). rewrite Nat2Z.inj_pow. exact Hm. }
  destruct (K2 10%nat n) as (ds & A & B & C). { change (10 ^ Z.of_nat 10) with 10000000000. lia. }
  exists ds. split; [repeat split; try assumption; lia|]. unfold bytes. apply Forall_impl with (2 := B). intros c Hc. unfold digit in Hc. lia.
Qed.
Lemma painting lum ps : 0 < lum <= 255 -> Forall (fun p => p = 45 \/ p = 120) ps -> exists pl, bytes pl /\ painted lum ps pl.
Proof.
  intros L. induction 1 as [|p ps Hp F (pl & B & P)]; [exists []; split; constructor|]. destruct Hp as [-> | ->].
  - exists (0 :: 0 :: 0 :: pl). split; [repeat (constructor; [lia|]); exact B|]. apply painted_blank; [vm_compute luminance_of; lia|exact P].
  - exists (255 :: 255 :: 255 :: pl). split; [repeat (constructor; [lia|]); exact B|]. apply painted_ink; [vm_compute luminance_of; lia|exact P].
Qed.
Lemma byte_range bits : 0 <= byte_of (map bits (zrange 8)) < 256.
Proof. change (zrange 8) with [0; 1; 2; 3; 4; 5; 6; 7]. unfold byte_of. cbn [map fold_left]. destruct (bits 0), (bits 1), (bits 2), (bits 3), (bits 4), (bits 5), (bits 6), (bits 7); vm_compute; split; congruence. Qed.
Theorem copies_exist lum img : wf_image img -> 0 < iw img * ih img -> Forall (fun p => p = 45 \/ p = 120) (idata img) -> 0 < lum <= 255 ->
  (exists buf, bytes buf /\ colour_copy lum img buf) /\ (iw img < 2147483648 -> exists buf, bytes buf /\ bit_copy img buf).
Proof.
  intros (Hw & Hh & Ha & Hl) P F L. destruct (numeral_of (iw img) Hw) as (ws & Nw & Bw). destruct (numeral_of (ih img) Hh) as (hs & Nh & Bh). split.
  - destruct (painting lum (idata img) L F) as (pl & B & Q). exists (([80; 54; 10] ++ [] ++ ws ++ [32] ++ hs ++ [10] ++ [48] ++ [10]) ++ pl). split.
    + unfold bytes in *. rewrite !Forall_app. repeat split; try assumption; repeat constructor; lia.
    + exists ([80; 54; 10] ++ [] ++ ws ++ [32] ++ hs ++ [10] ++ [48] ++ [10]), pl. split; [|auto]. apply (header_text_max 54 (iw img) (ih img) [] ws hs [48] 0); try assumption; try lia; [constructor|].
      repeat split; try discriminate. repeat constructor; unfold digit; lia.
  - intros Hw0. exists (([80; 52; 10] ++ ((35 :: []) ++ 10 :: []) ++ ws ++ [32] ++ hs ++ [10]) ++ packed (fun _ _ => false) img). split.
    + unfold bytes in *. rewrite !Forall_app. repeat split; try assumption; try (repeat constructor; lia). apply Forall_forall. intros c Hc. unfold packed in Hc. apply in_flat_map in Hc. destruct Hc as (y & _ & Hc).
      apply in_map_iff in Hc. destruct Hc as (k & <- & _). apply byte_range.
    + split; [exact F|]. split; [exact Hw0|]. split; [rewrite !app_length; cbn [List.length]; pose proof (numeral_len _ _ Nw); pose proof (numeral_len _ _ Nh); lia|].
      do 2 eexists. split; [|reflexivity]. apply header_text_nomax; auto. constructor; [cbn [In]; tauto|constructor].
Qed.

(** * The programs *)
Lemma copied_load lum f f' : copied lum f f' -> load_image f' lum = load_image f lum.
Proof.
  intros [->|(img & x & y & -> & -> & Bx & By & W & P & Cx & Cy)]; [reflexivity|]. unfold load_image. rewrite (proj2 (copy_loaded lum img x Bx W P) Cx), (proj2 (copy_loaded lum img y By W P) Cy). reflexivity.
Qed.
Theorem shown_copies lum disk disk' names out : Forall (fun n => copied lum (disk n) (disk' n)) names -> show_files disk' lum names out = show_files disk lum names out.
Proof.
  intros F. revert out. induction F as [|n names Hn F IH]; intros out; [reflexivity|]. cbn [show_files]. rewrite (copied_load _ _ _ Hn).
  destruct (load_image (disk n) lum) as [img| | |]; try reflexivity. destruct (show_characters img); cbn [bind]; [apply IH|reflexivity..].
Qed.
Theorem learnt_copies lum disk disk' names out : same_lessons lum disk disk' names -> learn_files disk' lum names out = learn_files disk lum names out.
Proof.
  intros F. revert out. induction F as [i t f names Hi Ht F IH|names L]; intros out.
  - cbn [learn_files]. rewrite (copied_load _ _ _ Hi), Ht. destruct (disk t) as [txt|]; [|reflexivity]. destruct (load_image (disk i) lum) as [img| | |]; try reflexivity.
    destruct (learn_image img txt f) as [[o e]| | |]; cbn [bind]; try reflexivity. destruct e; try reflexivity. apply IH.
  - destruct names as [|a [|b [|c names]]]; cbn [List.length] in L; try lia; reflexivity.
Qed.
Theorem read_copies disk prog glyphs datas i i' options : copied 128 (disk i) (disk i') ->
  (forall rt nan cx, ocr2_main rt nan cx disk (prog :: glyphs :: datas :: i' :: options) = ocr2_main rt nan cx disk (prog :: glyphs :: datas :: i :: options)) /\
  (forall rt nan, main6 rt nan disk (prog :: glyphs :: datas :: i' :: options) = main6 rt nan disk (prog :: glyphs :: datas :: i :: options)) /\
  (forall rt nan, main8 rt nan disk (prog :: glyphs :: datas :: i' :: options) = main8 rt nan disk (prog :: glyphs :: datas :: i :: options)).
Proof.
  intros C. apply copied_load in C. split; [|split].
  - intros rt nan cx. unfold ocr2_main. rewrite C. reflexivity.
  - intros rt nan. unfold main6, image_out. rewrite C. reflexivity.
  - intros rt nan. unfold main8, image_out. rewrite C. reflexivity.
Qed.

(** * The other files *)
Theorem digits_refused lum buf t w h payload : bytes buf -> t = 49 \/ t = 51 -> headed buf t w h payload -> 0 < w * h < 4294967296 -> Forall written payload -> w * h <= digits_in payload ->
  image_of_bytes buf lum = Throw ExBadLength.
Proof.
  intros Hb Ht H P F D. destruct (digits_cases (w * h) payload (proj1 P)) as [(F' & D')|(b & c & a & -> & Fb & [(Hc & Hd)|(Hc & Hd)])]; [lia|..].
  - apply text_sound; [exact Hb|]. exact (pt_digits_all lum buf t w h b c a Ht H P Fb Hc Hd).
  - exfalso. apply Forall_app in F. destruct F as (_ & F). inversion F. contradiction.
Qed.
Theorem greys_refused lum buf t w h payload : bytes buf -> t = 50 \/ t = 53 -> headed buf t w h payload -> 0 < w * h < 4294967296 -> image_of_bytes buf lum = Throw ExUnsupported.
Proof. intros Hb Ht H P. apply text_sound; [exact Hb|]. exact (pt_other lum buf t w h payload Ht H P). Qed.
