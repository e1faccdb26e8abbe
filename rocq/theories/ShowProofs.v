(** Proofs about show_glyphs, its arguments and the printing of coordinates. *)
From Verif Require Import Base BaseProofs ImageModel ImageSpec ImageProofs PnmModel BoxModel BoxSpec BoxProofs StreamModel StreamProofs GlyphIoModel
  GlyphIoProofs PipelineProofs5 ExtractProofs DictionaryProofs ExtractSpec LearnModel LearnSpec LearnProofs TrieModel ShowModel ShowSpec.

Lemma put_bytes_ok data p n : 0 <= p -> 0 <= n -> p + n <= vsize data ->
  put_bytes data p n = Ok (firstn (Z.to_nat n) (skipn (Z.to_nat p) data)).
Proof.
  intros Hp Hn Hl. unfold put_bytes, vsize in *.
  destruct (@for_up_total (list Z) (fun i out => c <- rd data (p + i) ;; Ok (out ++ [c]))
    (fun i out => out = firstn (Z.to_nat i) (skipn (Z.to_nat p) data)) (Z.to_nat n) 0) with (s := @nil Z) as (s' & E & HI).
  - intros i out Hi ->. destruct (nth_error data (Z.to_nat (p + i))) as [c|] eqn:En.
    2:{ apply nth_error_None in En. lia. }
    unfold rd. destruct (Z.ltb_spec (p + i) 0); [lia|]. rewrite En. cbn [bind]. eexists. split; [reflexivity|].
    replace (Z.to_nat (i + 1)) with (S (Z.to_nat i)) by lia.
    assert (Es : nth_error (skipn (Z.to_nat p) data) (Z.to_nat i) = Some c).
    { rewrite <- En. replace (Z.to_nat (p + i)) with (Z.to_nat p + Z.to_nat i)%nat by lia. clear. revert data. induction (Z.to_nat p) as [|k IH]; intros [|d l]; cbn; auto. now destruct (Z.to_nat i). }
    clear -Es. revert Es. generalize (skipn (Z.to_nat p) data). induction (Z.to_nat i) as [|k IH]; intros [|d l] Es; cbn in Es; try discriminate.
    + injection Es as ->. reflexivity.
    + cbn [firstn app]. f_equal. now apply IH.
  - reflexivity.
  - rewrite E. rewrite Z.add_0_l, Z2Nat.id in HI by lia. now rewrite HI.
Qed.

Lemma put_right_line w : 0 <= w -> w + 3 < 4294967296 -> put_right 58 (u32 (w + 3)) [58; 10] = frame_line w.
Proof.
  intros H0 H. rewrite u32_small by lia. unfold put_right, frame_line, vsize. cbn [List.length].
  replace (Z.to_nat (w + 3 - Z.of_nat 2)) with (Z.to_nat (w + 1)) by lia.
  replace (Z.to_nat (w + 2)) with (Z.to_nat (w + 1) + 1)%nat by lia. rewrite repeat_app, <- app_assoc. reflexivity.
Qed.

Lemma text_rows_snoc h w data : text_rows (S h) w data = text_rows h w data ++ [firstn w (skipn (h * w) data)].
Proof.
  revert data. induction h as [|h IH]; intros data; [reflexivity|].
  change (text_rows (S (S h)) w data) with (firstn w data :: text_rows (S h) w (skipn w data)). rewrite IH. cbn [text_rows app]. do 3 f_equal.
  replace (S h * w)%nat with (w + h * w)%nat by lia. f_equal. generalize (h * w)%nat. clear.
  intros n. revert data. induction w as [|w IH]; intros data; [reflexivity|]. destruct data as [|d l]; cbn [skipn Nat.add]; [now destruct n|apply IH].
Qed.

Lemma show_image_ok img : wf_image img -> iw img + 3 < 4294967296 -> show_image img = Ok (framed img).
Proof.
  intros (Hw & Hh & Ha & Hl) H3. unfold show_image. rewrite put_right_line by lia.
  destruct (@for_up_total (list Z * Z)
    (fun _ '(out, p) => row <- put_bytes (idata img) p (iw img) ;; Ok (out ++ [58] ++ row ++ [58; 10], p + iw img))
    (fun i '(out, p) => p = i * iw img /\
       out = frame_line (iw img) ++ flat_map (fun row => [58] ++ row ++ [58; 10]) (text_rows (Z.to_nat i) (Z.to_nat (iw img)) (idata img)))
    (Z.to_nat (ih img)) 0) with (s := (frame_line (iw img), 0)) as (s' & E & HI).
  - intros i [out p] Hi (-> & ->). rewrite put_bytes_ok by (unfold vsize; nia). cbn [bind]. eexists. split; [reflexivity|]. split; [lia|].
    replace (Z.to_nat (i + 1)) with (S (Z.to_nat i)) by lia. rewrite text_rows_snoc, flat_map_app. cbn [flat_map]. rewrite app_nil_r, <- app_assoc.
    replace (Z.to_nat (i * iw img)) with (Z.to_nat i * Z.to_nat (iw img))%nat by (rewrite Z2Nat.inj_mul by lia; reflexivity). reflexivity.
  - split; [reflexivity|]. cbn. now rewrite app_nil_r.
  - rewrite E. destruct s' as [out p]. destruct HI as (_ & ->). cbn [bind]. rewrite Z.add_0_l, Z2Nat.id by lia. unfold framed. now rewrite <- app_assoc.
Qed.

Section ShowLoop.
Context (img : image) (Hs : box_searchable img).
Definition show_body (st : Z * list Z) : res ((Z * list Z) + list Z) :=
  let '(x, out) := st in
  cbox <- make_box_character img x 0 (iw img) (ih img) ;;
  if box_bool cbox then
    im <- section img (bx cbox) (by_ cbox) (bw cbox) (bh cbox) ;;
    t <- show_image im ;;
    Ok (inl (u32 (bx cbox + bw cbox), out ++ t ++ [10]))
  else Ok (inr out).
Lemma show_loop : forall fuel x acc, 0 <= x <= iw img -> iw img - x < Z.of_nat fuel ->
  exists boxes, loop fuel (seg_body img) (x, acc) = Ok (acc ++ boxes) /\
    forall out, exists ims, Forall2 (char_image img) boxes ims /\ loop fuel show_body (x, out) = Ok (out ++ frames ims).
Proof.
  induction fuel as [|f IH]; intros x acc Hx Hf; [lia|]. pose proof (bs_facts img Hs) as (HW & HH & HA).
  assert (Es : forall st, loop (S f) (seg_body img) st = match seg_body img st with Ok (inl s) => loop f (seg_body img) s | Ok (inr r) => Ok r | Throw e => Throw e | UB => UB | NoFuel => NoFuel end) by reflexivity.
  assert (El : forall st, loop (S f) show_body st = match show_body st with Ok (inl s) => loop f show_body s | Ok (inr r) => Ok r | Throw e => Throw e | UB => UB | NoFuel => NoFuel end) by reflexivity.
  rewrite Es. unfold seg_body at 1.
  destruct (make_box_spec img Hs x Hx) as (b & Eb & [(Hn & H0 & H1)|Ht]); rewrite Eb; cbn [bind].
  - assert (Bb : box_bool b = false) by (unfold box_bool; rewrite H0; reflexivity). rewrite Bb.
    exists []. rewrite app_nil_r. split; [reflexivity|]. intros out. exists []. split; [constructor|].
    rewrite El. unfold show_body at 1. rewrite Eb. cbn [bind]. rewrite Bb. cbn [frames flat_map]. now rewrite app_nil_r.
  - pose proof (tight_nonempty _ _ _ Ht) as Hne. apply box_bool_iff in Hne. rewrite Hne.
    assert (Hb : x <= bx b /\ 0 < bw b /\ 0 < bh b /\ bx b + bw b < iw img /\ 0 <= by_ b /\ by_ b + bh b <= ih img) by (unfold tight_box in Ht; lia).
    rewrite u32_small by lia.
    destruct (IH (bx b + bw b) (acc ++ [b])) as (rest & E & Hr); [lia|lia|].
    exists (b :: rest). rewrite <- app_assoc in E. split; [exact E|]. intros out.
    destruct (char_section img b (bs_wf img Hs)) as (im & Ei & Hi); [lia..|].
    rewrite El. unfold show_body at 1. rewrite Eb. cbn [bind]. rewrite Hne, Ei. cbn [bind].
    destruct Hi as (Wi & wi & hi & Pi). rewrite show_image_ok; [|exact Wi|]. 2:{ rewrite wi. nia. }
    cbn [bind]. rewrite u32_small by lia. destruct (Hr (out ++ framed im ++ [10])) as (ims & Hf2 & L). rewrite L.
    exists (im :: ims). split; [constructor; [repeat split; auto; apply Wi|exact Hf2]|].
    unfold frames. cbn [flat_map]. now rewrite <- !app_assoc.
Qed.
End ShowLoop.

Lemma show_characters_ok img boxes : box_searchable img -> segment img = Ok boxes ->
  exists ims, Forall2 (char_image img) boxes ims /\ show_characters img = Ok (frames ims).
Proof.
  intros Hs Eb. pose proof (bs_facts img Hs) as (HW & _).
  destruct (show_loop img Hs (S (Z.to_nat (iw img))) 0 []) as (boxes' & E & L); [lia|lia|].
  change (loop (S (Z.to_nat (iw img))) (seg_body img) (0, [])) with (segment img) in E. rewrite Eb in E. injection E as <-.
  destruct (L []) as (ims & F & E2). exists ims. split; [exact F|exact E2].
Qed.

(** * The frames determine the pictures *)
Lemma line_split a b r s : ~ In 10 a -> ~ In 10 b -> a ++ 10 :: r = b ++ 10 :: s -> a = b /\ r = s.
Proof.
  revert b. induction a as [|c a IH]; intros [|d b] Ha Hb E; cbn in E.
  - injection E as ->. auto.
  - injection E as E1 _. subst d. exfalso. apply Hb. left. reflexivity.
  - injection E as E1 _. subst c. exfalso. apply Ha. left. reflexivity.
  - injection E as E1 E. subst d. destruct (IH b) as (-> & ->); auto; intros H; [apply Ha|apply Hb]; right; exact H.
Qed.

Lemma repeat_len (x : Z) n m : repeat x n = repeat x m -> n = m.
Proof. intros E. rewrite <- (repeat_length x n), E. apply repeat_length. Qed.

Lemma in_firstn {A} n (l : list A) x : In x (firstn n l) -> In x l.
Proof. revert l. induction n; intros [|a l]; cbn; try tauto. intros [->|H]; auto. Qed.
Lemma in_skipn {A} n (l : list A) x : In x (skipn n l) -> In x l.
Proof. revert l. induction n; intros [|a l]; cbn; try tauto. auto. Qed.

Lemma rows_inj w : (1 <= w)%nat -> forall h1 h2 d1 d2 r1 r2,
  List.length d1 = (h1 * w)%nat -> List.length d2 = (h2 * w)%nat -> ~ In 58 d1 -> ~ In 58 d2 ->
  flat_map (fun row => [58] ++ row ++ [58; 10]) (text_rows h1 w d1) ++ 58 :: 58 :: r1 =
  flat_map (fun row => [58] ++ row ++ [58; 10]) (text_rows h2 w d2) ++ 58 :: 58 :: r2 ->
  h1 = h2 /\ d1 = d2 /\ r1 = r2.
Proof.
  intros Hw. induction h1 as [|h1 IH]; intros [|h2] d1 d2 r1 r2 L1 L2 N1 N2 E.
  - cbn in E. injection E as <-. destruct d1, d2; try discriminate. auto.
  - exfalso. cbn [text_rows flat_map app] in E. injection E as E. destruct d2 as [|c d2]; [cbn in L2; lia|].
    destruct w as [|w]; [lia|]. cbn [firstn app] in E. injection E as E1 _. subst c. apply N2. left. reflexivity.
  - exfalso. cbn [text_rows flat_map app] in E. injection E as E. destruct d1 as [|c d1]; [cbn in L1; lia|].
    destruct w as [|w]; [lia|]. cbn [firstn app] in E. injection E as E1 _. subst c. apply N1. left. reflexivity.
  - cbn [text_rows flat_map app] in E. injection E as E. rewrite <- !app_assoc in E.
    assert (F1 : List.length (firstn w d1) = w) by (apply firstn_length_le; lia).
    assert (F2 : List.length (firstn w d2) = w) by (apply firstn_length_le; lia).
    assert (Ef : firstn w d1 = firstn w d2).
    { apply (f_equal (firstn w)) in E. rewrite !firstn_app, F1, F2, Nat.sub_diag in E. cbn [firstn] in E. rewrite !app_nil_r, !firstn_firstn, Nat.min_id in E. exact E. }
    rewrite Ef in E. apply app_inv_head in E. cbn [app] in E. injection E as E.
    destruct (IH h2 (skipn w d1) (skipn w d2) r1 r2) as (-> & Es & ->); auto.
    + rewrite skipn_length. lia.
    + rewrite skipn_length. lia.
    + intros H. apply in_skipn in H. auto.
    + intros H. apply in_skipn in H. auto.
    + split; [reflexivity|]. split; [|reflexivity]. rewrite <- (firstn_skipn w d1), <- (firstn_skipn w d2), Ef, Es. reflexivity.
Qed.

Lemma no_10_frame n : ~ In 10 (repeat 58 n).
Proof. intros H. apply repeat_spec in H. discriminate. Qed.

Lemma framed_inj a b r s : drawable a -> drawable b -> framed a ++ r = framed b ++ s -> a = b /\ r = s.
Proof.
  intros ((Wa & Ha & Aa & La) & Oa & Na) ((Wb & Hb & Ab & Lb) & Ob & Nb). unfold framed, frame_line. rewrite <- !app_assoc. cbn [app]. intros E.
  apply line_split in E; try apply no_10_frame. destruct E as (Ew & E). apply repeat_len in Ew. assert (iw a = iw b) as Ew' by lia.
  replace (Z.to_nat (iw a + 2)) with (S (S (Z.to_nat (iw a)))) in E by lia.
  replace (Z.to_nat (iw b + 2)) with (S (S (Z.to_nat (iw b)))) in E by lia. cbn [repeat app] in E. rewrite <- Ew' in E.
  apply rows_inj in E; [|nia..|exact Na|exact Nb]. destruct E as (Eh & Ed & Er). split.
  - destruct a as [w h d], b as [w' h' d']. cbn in *. f_equal; [exact Ew'|lia|exact Ed].
  - apply app_inv_head in Er. now injection Er.
Qed.

Lemma framed_cons a : exists t, framed a = 58 :: t \/ framed a = 10 :: t.
Proof. unfold framed, frame_line. destruct (Z.to_nat (iw a + 2)); cbn; eauto. Qed.

Lemma frames_inj l1 : forall l2, Forall drawable l1 -> Forall drawable l2 -> frames l1 = frames l2 -> l1 = l2.
Proof.
  assert (C : forall a l, frames (a :: l) <> []).
  { intros a l. unfold frames. cbn [flat_map]. destruct (framed_cons a) as (t & [-> | ->]); discriminate. }
  induction l1 as [|a l1 IH]; intros [|b l2] F1 F2 E.
  - reflexivity.
  - symmetry in E. now apply C in E.
  - now apply C in E.
  - inversion F1 as [|? ? Da D1]; inversion F2 as [|? ? Db D2]; subst. unfold frames in E. cbn [flat_map] in E. rewrite <- !app_assoc in E.
    apply framed_inj in E; [|assumption..]. destruct E as (-> & E). cbn [app] in E. injection E as E. f_equal. apply IH; assumption.
Qed.

Lemma char_drawable buf lum img b im : image_of_bytes buf lum = Ok img -> char_image img b im -> nonempty_box b -> drawable im.
Proof.
  intros E ((Ww & Wh & Wa & Wl) & Hw & Hh & P) (N1 & N2). split; [repeat split; lia|]. split; [lia|]. intros H. apply In_nth_error in H. destruct H as (n & Hn).
  assert (L : Z.of_nat n < iw im * ih im) by (rewrite <- Wl; apply inj_lt; apply nth_error_Some; congruence).
  pose proof (Z.div_mod (Z.of_nat n) (iw im) ltac:(lia)) as D. pose proof (Z.mod_pos_bound (Z.of_nat n) (iw im) ltac:(lia)) as M.
  assert (Q : 0 <= Z.of_nat n / iw im < ih im) by (split; [apply Z.div_pos; lia|apply Z.div_lt_upper_bound; lia]).
  specialize (P (Z.of_nat n mod iw im) (Z.of_nat n / iw im) ltac:(lia) ltac:(lia)). unfold pix at 1 in P.
  replace ((0 <=? Z.of_nat n mod iw im) && (Z.of_nat n mod iw im <? iw im) && (0 <=? Z.of_nat n / iw im) && (Z.of_nat n / iw im <? ih im)) with true in P by lia.
  replace (Z.to_nat (Z.of_nat n / iw im * iw im + Z.of_nat n mod iw im)) with n in P by lia. rewrite Hn in P. symmetry in P. unfold pix in P.
  destruct (_ && _) in P; [|discriminate]. apply nth_error_In in P. destruct (PipelineProofs5.loaded_two buf lum img E 58 P); discriminate.
Qed.

(** * The programs *)
Lemma char_image_same img boxes : forall l1 l2, Forall2 (char_image img) boxes l1 -> Forall2 (char_image img) boxes l2 -> l1 = l2.
Proof.
  induction boxes as [|b boxes IH]; intros l1 l2 H1 H2; inversion H1; inversion H2; subst; [reflexivity|]. f_equal; [|now apply IH].
  eapply ExtractProofs.char_image_unique; eassumption.
Qed.

Lemma load_picture disk luminance name img : picture_of disk luminance name img -> load_image (disk name) luminance = Ok img.
Proof. intros (bytes & E & H). unfold load_image. now rewrite E. Qed.
Lemma load_nothing disk luminance name e : no_picture disk luminance name e -> load_image (disk name) luminance = Throw e.
Proof. unfold load_image. intros [(-> & ->)|(bytes & -> & H)]; [reflexivity|exact H]. Qed.

Lemma show_files_ok disk luminance names imss : Forall2 (file_characters disk luminance) names imss ->
  forall out, show_files disk luminance names out = Ok (out ++ frames (List.concat imss), Exits 0).
Proof.
  induction 1 as [|n ims names imss (img & boxes & El & Hs & Eb & F) _ IH]; intros out.
  - cbn. now rewrite app_nil_r.
  - cbn [show_files]. rewrite (load_picture _ _ _ _ El). destruct (show_characters_ok img boxes Hs Eb) as (ims' & F' & E).
    rewrite (char_image_same _ _ _ _ F F'), E. cbn [bind]. rewrite IH. cbn [List.concat]. unfold frames. now rewrite flat_map_app, <- app_assoc.
Qed.
Lemma show_files_abort disk luminance names imss n rest e : Forall2 (file_characters disk luminance) names imss ->
  no_picture disk luminance n e ->
  forall out, show_files disk luminance (names ++ n :: rest) out = Ok (out ++ frames (List.concat imss), Aborts e).
Proof.
  induction 1 as [|n' ims names imss (img & boxes & El & Hs & Eb & F) _ IH]; intros Ee out.
  - cbn. rewrite (load_nothing _ _ _ _ Ee). now rewrite app_nil_r.
  - cbn [show_files app]. rewrite (load_picture _ _ _ _ El). destruct (show_characters_ok img boxes Hs Eb) as (ims' & F' & E).
    rewrite (char_image_same _ _ _ _ F F'), E. cbn [bind]. rewrite (IH Ee). cbn [List.concat]. unfold frames. now rewrite flat_map_app, <- app_assoc.
Qed.

Lemma option_none prog names : no_option names -> luminance_option (prog :: names) = Ok (Some (0, 128)).
Proof.
  intros H. unfold luminance_option, vsize. destruct (Z.ltb_spec 3 (Z.of_nat (List.length (prog :: names)))) as [L|]; [|reflexivity].
  destruct H as [H|H]; [cbn [List.length] in L; lia|]. destruct names as [|a names]; [cbn [List.length] in L; lia|]. cbn [nth] in H.
  change (rd (prog :: a :: names) 1) with (Ok a). cbn [bind]. destruct (list_eqb a (str "-l")) eqn:E; [|reflexivity]. apply DictionaryProofs.list_eqb_eq in E. contradiction.
Qed.
Lemma option_given prog t n rest : luminance_option (prog :: str "-l" :: t :: n :: rest) =
  Ok (match strtoul t with Some (v, r, range) => if null r && negb range then Some (2, u32 v) else None | None => None end).
Proof.
  unfold luminance_option, vsize. destruct (Z.ltb_spec 3 (Z.of_nat (List.length (prog :: str "-l" :: t :: n :: rest)))); [|cbn [List.length] in *; lia].
  reflexivity.
Qed.

Lemma span_digits_spec l ds r : span_digits l = (ds, r) -> l = ds ++ r /\ Forall (fun c => is_digit c = true) ds /\ stops is_digit r.
Proof.
  revert ds r. induction l as [|c l IH]; intros ds r E; cbn [span_digits] in E.
  - injection E as <- <-. repeat split; constructor.
  - destruct (is_digit c) eqn:D.
    + destruct (span_digits l) as [ds' r']. injection E as <- <-. destruct (IH ds' r' eq_refl) as (-> & F & St). repeat split; [constructor; assumption|exact St].
    + injection E as <- <-. repeat split; [constructor|exact D].
Qed.
Lemma drop_spaces_spec l : exists p, blanks p /\ l = p ++ drop_spaces l.
Proof.
  induction l as [|c l (p & B & E)]; [exists []; split; [intros ? []|reflexivity]|]. cbn [drop_spaces]. destruct (is_space c) eqn:S.
  - exists (c :: p). split; [intros x [<-|H]; auto|]. cbn [app]. now rewrite <- E.
  - exists []. split; [intros ? []|reflexivity].
Qed.

Lemma strtoul_number t v : number_text t v -> Z.abs v < 18446744073709551616 -> strtoul t = Some (u64 v, [], false).
Proof.
  intros (p & sign & ds & -> & B & N & D & Hv) Hr. unfold strtoul.
  assert (G0 : 0 <= digits_value ds).
  { unfold digits_value. assert (G : forall l a, Forall (fun c => is_digit c = true) l -> 0 <= a -> 0 <= fold_left (fun a d => a * 10 + (d - 48)) l a).
    { induction l as [|c l IH]; intros a F Ha; [exact Ha|]. inversion F as [|? ? Hc F']; subst. cbn [fold_left]. apply IH; [exact F'|]. unfold is_digit in Hc. lia. }
    apply G; [exact D|lia]. }
  assert (Hd : exists c ds', ds = c :: ds' /\ is_digit c = true) by (destruct ds; [congruence|inversion D; eauto]).
  destruct Hd as (c & ds' & Eds & Hc).
  assert (Sp : span_digits ds = (ds, [])) by (rewrite <- (app_nil_r ds) at 1; apply span_digits_app; [exact D|exact I]).
  assert (Ed : drop_spaces (p ++ sign ++ ds) = sign ++ ds).
  { apply drop_spaces_app; [apply Forall_forall; exact B|]. destruct Hv as [([-> | ->] & _)|(-> & _)]; [|reflexivity..]. rewrite Eds. cbn. now apply digit_not_space. }
  rewrite Ed. destruct Hv as [([-> | ->] & ->)|(-> & ->)]; cbn [app].
  - assert (Si : span_int ds = (false, ds, [])). { rewrite Eds in Sp |- *. cbn [span_int]. rewrite digit_not_sign by exact Hc. now rewrite Sp. }
    rewrite Si, Eds. cbn [null]. rewrite <- Eds. destruct (Z.leb_spec 18446744073709551616 (digits_value ds)); [lia|reflexivity].
  - assert (Si : span_int (43 :: ds) = (false, ds, [])). { cbn [span_int]. rewrite Sp. reflexivity. }
    rewrite Si, Eds. cbn [null]. rewrite <- Eds. destruct (Z.leb_spec 18446744073709551616 (digits_value ds)); [lia|reflexivity].
  - assert (Si : span_int (45 :: ds) = (true, ds, [])). { cbn [span_int]. rewrite Sp. reflexivity. }
    rewrite Si, Eds. cbn [null]. rewrite <- Eds. destruct (Z.leb_spec 18446744073709551616 (digits_value ds)); [lia|reflexivity].
Qed.

Lemma strtoul_inv t v : strtoul t = Some (v, [], false) -> exists n, number_text t n /\ Z.abs n < 18446744073709551616 /\ v = u64 n.
Proof.
  unfold strtoul. destruct (drop_spaces_spec t) as (p & B & Et).
  destruct (span_int (drop_spaces t)) as [[neg ds] r] eqn:E. destruct (null ds) eqn:N; [discriminate|].
  destruct (Z.leb_spec 18446744073709551616 (digits_value ds)) as [|L]; [discriminate|]. intros H. injection H as <- ->.
  assert (N' : ds <> []) by (intros ->; discriminate).
  assert (X : exists sign, drop_spaces t = sign ++ ds /\ Forall (fun c => is_digit c = true) ds /\
    ((sign = [] \/ sign = [43]) /\ neg = false \/ sign = [45] /\ neg = true)).
  { unfold span_int in E. destruct (drop_spaces t) as [|c l]; [injection E as <- <-; congruence|].
    destruct ((c =? 45) || (c =? 43)) eqn:C.
    - destruct (span_digits l) as [ds' r'] eqn:Sd. injection E as <- <- ->. apply span_digits_spec in Sd. destruct Sd as (-> & F & _). rewrite app_nil_r in *.
      exists [c]. split; [reflexivity|]. split; [exact F|]. destruct (Z.eqb_spec c 45) as [->|]; [right; auto|left]. split; [right|reflexivity].
      cbn in C. apply Z.eqb_eq in C. now subst.
    - destruct (span_digits (c :: l)) as [ds' r'] eqn:Sd. injection E as <- <- ->. apply span_digits_spec in Sd. destruct Sd as (-> & F & _). rewrite app_nil_r in *.
      exists []. split; [reflexivity|]. split; [exact F|]. left. auto. }
  destruct X as (sign & Es & F & Hs).
  assert (G0 : 0 <= digits_value ds).
  { unfold digits_value. assert (G : forall l a, Forall (fun c => is_digit c = true) l -> 0 <= a -> 0 <= fold_left (fun a d => a * 10 + (d - 48)) l a).
    { induction l as [|c l IH]; intros a F' Ha; [exact Ha|]. inversion F' as [|? ? Hc F'']; subst. cbn [fold_left]. apply IH; [exact F''|]. unfold is_digit in Hc. lia. }
    apply G; [exact F|lia]. }
  exists (if neg then - digits_value ds else digits_value ds). split; [|split; [destruct neg; lia|reflexivity]].
  exists p, sign, ds. rewrite <- Es. split; [exact Et|]. repeat split; auto. destruct Hs as [(Hs & ->)|(-> & ->)]; auto.
Qed.

Lemma u32_u64 v : u32 (u64 v) = u32 v.
Proof. unfold u32, u64. change 18446744073709551616 with (4294967296 * 4294967296). rewrite Z.rem_mul_r by lia. rewrite Z.mul_comm, Z_mod_plus_full. apply Z.mod_mod. lia. Qed.

Lemma option_exact prog t n rest l : luminance_option (prog :: str "-l" :: t :: n :: rest) = Ok (Some (2, l)) <->
  exists v, number_text t v /\ Z.abs v < 18446744073709551616 /\ l = u32 v.
Proof.
  rewrite option_given. split.
  - destruct (strtoul t) as [[[v r] range]|] eqn:E; [|discriminate]. destruct (null r && negb range) eqn:N; [|discriminate].
    intros H. injection H as <-. destruct r; [|discriminate]. destruct range; [discriminate|]. apply strtoul_inv in E.
    destruct E as (m & Hm & Hr & ->). exists m. split; [exact Hm|]. split; [exact Hr|]. apply u32_u64.
  - intros (v & Hn & Hr & ->). rewrite (strtoul_number _ _ Hn Hr). cbn [null negb andb]. now rewrite u32_u64.
Qed.
Lemma option_total prog t n rest : exists o, luminance_option (prog :: str "-l" :: t :: n :: rest) = Ok o /\
  (o = None \/ exists l, o = Some (2, l)).
Proof.
  rewrite option_given. eexists. split; [reflexivity|]. destruct (strtoul t) as [[[v r] range]|]; auto. destruct (null r && negb range); eauto.
Qed.

Lemma show_glyphs_ok disk prog names imss : no_option names -> names <> [] -> Forall2 (file_characters disk 128) names imss ->
  show_glyphs disk (prog :: names) = Ok (frames (List.concat imss), Exits 0).
Proof.
  intros Ho Hn F. unfold show_glyphs. rewrite (option_none prog names Ho). cbn [bind]. unfold vsize.
  destruct (Z.ltb_spec (Z.of_nat (List.length (prog :: names)) - 0) 2) as [L|]; [destruct names; [congruence|cbn [List.length] in L; lia]|].
  change (skipn (Z.to_nat (0 + 1)) (prog :: names)) with names. now rewrite (show_files_ok _ _ _ _ F).
Qed.
Lemma show_glyphs_option disk prog t v names imss : number_text t v -> Z.abs v < 18446744073709551616 -> names <> [] ->
  Forall2 (file_characters disk (u32 v)) names imss ->
  show_glyphs disk (prog :: str "-l" :: t :: names) = Ok (frames (List.concat imss), Exits 0).
Proof.
  intros Hn Hr Ne F. destruct names as [|n rest]; [congruence|]. unfold show_glyphs. rewrite (proj2 (option_exact prog t n rest (u32 v))) by eauto. cbn [bind].
  unfold vsize. destruct (Z.ltb_spec (Z.of_nat (List.length (prog :: str "-l" :: t :: n :: rest)) - 2) 2) as [L|]; [cbn [List.length] in L; lia|].
  change (skipn (Z.to_nat (2 + 1)) (prog :: str "-l" :: t :: n :: rest)) with (n :: rest). now rewrite (show_files_ok _ _ _ _ F).
Qed.
Lemma show_glyphs_abort disk prog names imss n rest e : no_option (names ++ n :: rest) -> Forall2 (file_characters disk 128) names imss ->
  no_picture disk 128 n e ->
  show_glyphs disk (prog :: names ++ n :: rest) = Ok (frames (List.concat imss), Aborts e).
Proof.
  intros Ho F Ee. unfold show_glyphs. rewrite (option_none prog _ Ho). cbn [bind]. unfold vsize.
  destruct (Z.ltb_spec (Z.of_nat (List.length (prog :: names ++ n :: rest)) - 0) 2) as [L|]; [cbn [List.length] in L; rewrite app_length in L; cbn [List.length] in L; lia|].
  change (skipn (Z.to_nat (0 + 1)) (prog :: names ++ n :: rest)) with (names ++ n :: rest). now rewrite (show_files_abort _ _ _ _ _ _ _ F Ee).
Qed.

(** * write_glyphs *)
Lemma learn_files_ok disk luminance l gss : Forall2 (file_glyphs disk luminance) l gss ->
  forall out, learn_files disk luminance (triples l) out = Ok (out ++ write_glyphs (List.concat gss), Exits 0).
Proof.
  induction 1 as [|[[i t] f] gs l gss (img & tx & boxes & ws & Ed & El & Hs & Eb & Hw & Hl & Hg) _ IH]; intros out.
  - cbn. now rewrite app_nil_r.
  - cbn [triples flat_map app learn_files]. rewrite Ed, (load_picture _ _ _ _ El). destruct (learn_image_ok img tx f boxes ws Hs Eb Hw) as (gs' & Hg' & E). rewrite E. cbn [bind].
    unfold learning_end. rewrite Hl, Nat.compare_refl. fold (triples l). rewrite IH. cbn [List.concat]. unfold write_glyphs. rewrite flat_map_app, <- app_assoc.
    replace gs with gs'; [reflexivity|]. clear - Hg Hg'. revert gs' Hg'. induction Hg as [ws|bs|b bs w ws g gs (Hc & Hv) Hg IH]; intros gs' Hg'.
    + inversion Hg'; reflexivity.
    + inversion Hg'; reflexivity.
    + inversion Hg' as [| |? ? ? ? g' gs'' (Hc' & Hv') Hg'']; subst. f_equal; [|now apply IH]. destruct g as [gi gv], g' as [gi' gv']. cbn in *. subst.
      f_equal. eapply ExtractProofs.char_image_unique; eassumption.
Qed.
Lemma triples_length l : List.length (triples l) = (3 * List.length l)%nat.
Proof. induction l as [|[[i t] f] l IH]; [reflexivity|]. unfold triples in *. cbn [flat_map]. rewrite app_length, IH. cbn [List.length]. lia. Qed.

Lemma write_main_ok disk prog l gss : l <> [] -> fst (fst (nth 0 l ([], [], []))) <> str "-l" -> Forall2 (file_glyphs disk 128) l gss ->
  write_glyphs_main disk (prog :: triples l) = Ok (write_glyphs (List.concat gss), Exits 0).
Proof.
  intros Ne Ho F. unfold write_glyphs_main. rewrite option_none. 2:{ right. destruct l as [|[[i t] f] l]; [congruence|]. exact Ho. }
  cbn [bind]. unfold vsize. cbn [List.length]. rewrite triples_length.
  destruct l as [|a l]; [congruence|]. cbn [List.length].
  destruct (Z.ltb_spec (Z.of_nat (S (3 * S (List.length l))) - 0) 4); [lia|].
  replace (Z.of_nat (S (3 * S (List.length l))) - 0 - 1) with (Z.of_nat (S (List.length l)) * 3) by lia. rewrite Z_mod_mult. cbn [orb negb Z.eqb].
  change (skipn (Z.to_nat (0 + 1)) (prog :: triples (a :: l))) with (triples (a :: l)). now rewrite (learn_files_ok _ _ _ _ F).
Qed.
Lemma write_main_option disk prog t v l gss : number_text t v -> Z.abs v < 18446744073709551616 -> l <> [] ->
  Forall2 (file_glyphs disk (u32 v)) l gss ->
  write_glyphs_main disk (prog :: str "-l" :: t :: triples l) = Ok (write_glyphs (List.concat gss), Exits 0).
Proof.
  intros Hn Hr Ne F. destruct l as [|[[i tx] f] l]; [congruence|]. unfold write_glyphs_main.
  change (triples ((i, tx, f) :: l)) with (i :: tx :: f :: triples l).
  rewrite (proj2 (option_exact prog t i (tx :: f :: triples l) (u32 v))) by eauto.
  cbn [bind]. unfold vsize. cbn [List.length]. rewrite triples_length.
  destruct (Z.ltb_spec (Z.of_nat (S (S (S (S (S (S (3 * List.length l))))))) - 2) 4); [lia|].
  replace (Z.of_nat (S (S (S (S (S (S (3 * List.length l))))))) - 2 - 1) with (Z.of_nat (S (List.length l)) * 3) by lia. rewrite Z_mod_mult. cbn [orb negb Z.eqb].
  change (skipn (Z.to_nat (2 + 1)) (prog :: str "-l" :: t :: i :: tx :: f :: triples l)) with (triples ((i, tx, f) :: l)). now rewrite (learn_files_ok _ _ _ _ F).
Qed.
Lemma write_main_usage disk prog names : no_option names -> (List.length names = 0%nat \/ ((List.length names mod 3)%nat <> 0%nat)) ->
  write_glyphs_main disk (prog :: names) = Ok ([], Exits 1).
Proof.
  intros Ho H. unfold write_glyphs_main. rewrite (option_none prog _ Ho). cbn [bind]. unfold vsize. cbn [List.length].
  destruct (Z.ltb_spec (Z.of_nat (S (List.length names)) - 0) 4) as [|G]; [reflexivity|].
  replace (Z.of_nat (S (List.length names)) - 0 - 1) with (Z.of_nat (List.length names)) by lia.
  destruct (Z.eqb_spec (Z.of_nat (List.length names) mod 3) 0) as [E|]; [|reflexivity]. exfalso.
  destruct H as [H|H]; [rewrite H in G; cbn in G; lia|]. apply H. apply Nat2Z.inj. rewrite Nat2Z.inj_mod. exact E.
Qed.

(** * Coordinates *)
Definition word32 (z : Z) : Prop := 0 <= z < 4294967296.
Lemma read_pair_written old p blank r : word32 (fst p) -> word32 (snd p) -> spaces blank -> stops is_digit r ->
  read_pair old (open_stream (blank ++ write_pair p ++ r)) = (p, mkis r (null r) false true).
Proof.
  destruct p as [x y]. unfold word32. cbn [fst snd]. intros Hx Hy B N. unfold read_pair, write_pair, open_stream. cbn [fst snd]. rewrite <- !app_assoc.
  unfold get_unsigned. rewrite get_uint_print; [|exact B|discriminate|lia|lia|reflexivity]. cbn [null app].
  change (32 :: print_uint y ++ r) with ([32] ++ print_uint y ++ r). rewrite get_uint_print; [|constructor; [reflexivity|constructor]|discriminate|lia|lia|exact N].
  reflexivity.
Qed.
Lemma read_pair_failed old s p s' : read_pair old s = (p, s') -> is_ok s' = false -> p = old.
Proof.
  unfold read_pair. destruct (get_unsigned 0 s) as [x s1]. destruct (get_unsigned 0 s1) as [y s2]. intros E F. injection E as E <-. now rewrite F in E.
Qed.
Lemma box_written oi ob b r : word32 (bx b) -> word32 (by_ b) -> word32 (bw b) -> word32 (bh b) -> stops is_digit r ->
  exists s, read_pair oi (open_stream (write_box b ++ r)) = ((bx b, by_ b), s) /\
    read_pair ob s = ((bw b, bh b), mkis r (null r) false true).
Proof.
  intros H1 H2 H3 H4 N. unfold write_box. rewrite <- app_assoc.
  pose proof (read_pair_written oi (bx b, by_ b) [] (([32] ++ write_pair (bw b, bh b)) ++ r) H1 H2 (Forall_nil _)) as E. cbn [app] in E |- *.
  rewrite E by reflexivity. eexists. split; [reflexivity|]. cbn [null].
  pose proof (read_pair_written ob (bw b, bh b) [32] r H3 H4 ltac:(constructor; [reflexivity|constructor]) N) as E2. exact E2.
Qed.
Lemma pair_eqb_iff p q : pair_eqb p q = true <-> p = q.
Proof. destruct p, q. unfold pair_eqb. cbn. rewrite andb_true_iff, !Z.eqb_eq. split; [intros (-> & ->); reflexivity|intros E; injection E; auto]. Qed.
Lemma contains_section img x y w h : wf_image img -> 0 <= x -> 0 <= y -> 1 <= w -> 1 <= h -> x + w <= iw img -> y + h <= ih img ->
  bounds_contains (iw img, ih img) (x, y) = true.
Proof. intros. unfold bounds_contains. cbn. lia. Qed.
Lemma box_eq_iff a b : box_eq a b = true <-> bw a = bw b /\ bh a = bh b.
Proof. unfold box_eq. rewrite andb_true_iff, !Z.eqb_eq. tauto. Qed.
