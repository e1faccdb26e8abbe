(** Every run ends: the pictures, and the search of the characters in them. *)
From Verif Require Import Base BaseProofs SortModel ImageModel ImageSpec PnmSpec PnmModel PnmProofs PnmProofs2 PictureTextSpec PictureTextProofs BoxModel StratModel ZoneModel
  DatasModel StreamModel GlyphIoModel TrieModel LearnModel ShowModel EndsSpec EndsProofs EndsProofs2 EndsProofs3.

(** A picture as it is loaded: some of the last pixels may be missing. *)
Definition pictured (img : image) : Prop := 1 <= iw img < 4294967296 /\ 1 <= ih img < 4294967296 /\ iw img * ih img < 4294967296 /\ vsize (idata img) <= iw img * ih img.

Lemma headed_bounds buf t w h payload : headed buf t w h payload -> 0 < w * h -> 1 <= w < 4294967296 /\ 1 <= h < 4294967296.
Proof. intros (_ & hdr & H & _) P. apply header_w_h in H. nia. Qed.
Lemma ends_image buf lum : bytes buf -> ends (image_of_bytes buf lum).
Proof. intros H. apply (loader_undefined buf lum H). Qed.
Lemma image_pictured buf lum img : bytes buf -> image_of_bytes buf lum = Ok img -> pictured img.
Proof.
  intros Hb E. destruct (picture_outcome lum buf Hb) as (H & _). rewrite E in H.
  inversion H as [| |w h payload im Hd Hs Hl Hw Ew Eh| |w h payload im Hd Hs Hx Hl Hw Ew Eh| | | |t w h payload Ht Hd Hs Hf Hn Ei| | |]; subst.
  - pose proof (headed_bounds _ _ _ _ _ Hd ltac:(lia)). destruct Hw as (W1 & W2 & W3 & W4). unfold pictured, vsize. lia.
  - pose proof (headed_bounds _ _ _ _ _ Hd ltac:(lia)). destruct Hw as (W1 & W2 & W3 & W4). unfold pictured, vsize. lia.
  - pose proof (headed_bounds _ _ _ _ _ Hd ltac:(lia)). unfold pictured, vsize, digits_in in *. cbn [iw ih idata]. rewrite map_length. lia.
Qed.

Lemma ends_horizontal_empty data d w : 0 <= w -> ends (horizontal_empty data d w).
Proof.
  intros Hw. unfold horizontal_empty. cbv zeta. apply (ends_walk (fun q => q) (fun q => q <> d + w) _ d 1 w); [| |lia|lia|lia|reflexivity|lia].
  - intros q. ends_auto.
  - intros q q2. destruct (Z.eqb_spec q (d + w)); [discriminate|]. intros H. apply bind_Ok in H as (p & _ & H). destruct (is_pix_letter p); [discriminate|]. injection H as <-. auto.
Qed.
Lemma ends_vertical_empty data d w h : 0 <= w -> 0 <= h -> w * h < 4294967296 -> ends (vertical_empty data d w h).
Proof.
  intros Hw Hh Ha. unfold vertical_empty. cbv zeta. rewrite u32_small by nia. apply (ends_walk (fun q => q) (fun q => q <> d + w * h) _ d w h); [| |lia|lia|lia|reflexivity|lia].
  - intros q. ends_auto.
  - intros q q2. destruct (Z.eqb_spec q (d + w * h)); [discriminate|]. intros H. apply bind_Ok in H as (p & _ & H). destruct (is_pix_letter p); [discriminate|]. injection H as <-. auto.
Qed.
Lemma ends_disconnected data d w h : 0 <= w -> 0 <= h -> w * h < 4294967296 -> ends (disconnected data d w h).
Proof.
  intros Hw Hh Ha. unfold disconnected. cbv zeta. rewrite u32_small by nia. apply (ends_walk (fun q => q) (fun q => q <> d + w * h) _ d w h); [| |lia|lia|lia|reflexivity|lia].
  - intros q. ends_auto.
  - intros q q2. destruct (Z.eqb_spec q (d + w * h)); [discriminate|]. intros H. apply bind_Ok in H as (p & _ & H). destruct (is_pix_letter p); [|injection H as <-; auto].
    apply bind_Ok in H as (a & _ & H). destruct a; [discriminate|]. apply bind_Ok in H as (b & _ & H). destruct b; [discriminate|]. apply bind_Ok in H as (c & _ & H). destruct c; [discriminate|].
    injection H as <-. auto.
Qed.
Lemma disconnected_out data d w h : 0 < w -> 0 < h -> w * h < 4294967296 -> vsize data <= d -> disconnected data d w h = UB.
Proof.
  intros Hw Hh Ha Hd. unfold disconnected. cbv zeta. rewrite u32_small by nia. cbn [loop]. destruct (Z.eqb_spec d (d + w * h)); [nia|]. rewrite rd_UB by (unfold vsize in Hd; lia). reflexivity.
Qed.

Section Picture.
Context (img : image) (Hi : pictured img).
Local Notation w := (iw img).
Local Notation h := (ih img).

Lemma ends_find_column x y : 0 <= x -> ends (find_column img x y w h).
Proof.
  intros Hx. destruct Hi as (Hw & Hh & Ha & _). unfold find_column. apply (ends_loop (fun '(q, _) => 0 <= q) (fun '(q, _) => Z.to_nat (w - q))); [| |lia|lia].
  - intros (q & d) Hq. ends_auto. apply ends_vertical_empty; lia.
  - intros (q & d) (q2 & d2) Hq. destruct (Z.ltb_spec q w); [|discriminate]. intros H1. apply bind_Ok in H1 as (em & _ & H1). destruct em; [|discriminate]. injection H1 as <- _. lia.
Qed.
Lemma find_column_range x x' d' : 0 <= x <= w -> find_column img x 0 w h = Ok (x', d') -> x <= x' <= w /\ d' = x'.
Proof.
  destruct Hi as (Hw & Hh & Ha & _). intros Hx. unfold find_column.
  apply (loop_inv (fun '(q, d) => x <= q <= w /\ d = q) (fun '(q, d) => x <= q <= w /\ d = q)).
  - intros (q & d) (q2 & d2) (Hq & ->). destruct (Z.ltb_spec q w); [|discriminate]. intros H1. apply bind_Ok in H1 as (em & _ & H1). destruct em; [|discriminate]. injection H1 as <- <-. lia.
  - intros (q & d) (q2 & d2) (Hq & ->). destruct (Z.ltb_spec q w).
    + intros H1. apply bind_Ok in H1 as (em & _ & H1). destruct em; [discriminate|]. injection H1 as <- <-. lia.
    + intros H1. injection H1 as <- <-. lia.
  - split; [lia|]. unfold to_size_t. rewrite Z.mul_0_l. change (u32 0) with 0. rewrite Z.add_0_l, u32_small; lia.
Qed.
Lemma ends_find_end x d : 0 <= x < 4294967296 -> ends (find_end img x d w h).
Proof.
  intros Hx. destruct Hi as (Hw & Hh & Ha & _). unfold find_end.
  apply (ends_loop (fun '(q, _) => 0 <= q < 4294967296) (fun '(q, _) => Z.to_nat (if q <? w then w - 1 - q else w))); [| |lia|].
  - intros (q & d1) Hq. ends_auto. apply ends_disconnected; lia.
  - intros (q & d1) (q2 & d2) Hq. destruct (Z.ltb_spec (u32 (q + 1)) w) as [L|L]; [|discriminate]. cbv zeta. intros H1. apply bind_Ok in H1 as (em & _ & H1). destruct em; [discriminate|]. injection H1 as <- _.
    pose proof (u32_range (q + 1)). split; [lia|]. destruct (Z.ltb_spec (u32 (q + 1)) w); [|lia]. destruct (Z.ltb_spec q w); [rewrite u32_small in * by lia|]; lia.
  - destruct (x <? w) eqn:E; [apply Z.ltb_lt in E|]; lia.
Qed.
Lemma find_end_range x r : 0 <= x <= w -> find_end img x x w h = Ok r -> x <= r <= w /\ (x = w -> r = w).
Proof.
  destruct Hi as (Hw & Hh & Ha & Hl). intros Hx. destruct (Z.eq_dec x w) as [-> |N].
  - unfold find_end. cbn [loop]. destruct (Z.ltb_spec (u32 (w + 1)) w) as [L|L].
    + assert (w = 4294967295) as E. { destruct (Z.eq_dec w 4294967295); [assumption|]. rewrite u32_small in L by lia. lia. }
      cbv zeta. rewrite disconnected_out by nia. discriminate.
    + cbn. intros E. injection E as <-. lia.
  - unfold find_end. intros E. split; [|lia]. revert E.
    apply (loop_inv (fun '(q, d) => x <= q < w) (fun q => x <= q <= w)); [| |lia].
    + intros (q & d) (q2 & d2) Hq. destruct (Z.ltb_spec (u32 (q + 1)) w) as [L|L]; [|discriminate]. cbv zeta. intros H1. apply bind_Ok in H1 as (em & _ & H1). destruct em; [discriminate|]. injection H1 as <- _.
      rewrite u32_small in * by lia. lia.
    + intros (q & d) r2 Hq. destruct (Z.ltb_spec (u32 (q + 1)) w) as [L|L].
      * cbv zeta. intros H1. apply bind_Ok in H1 as (em & _ & H1). destruct em; [|discriminate]. injection H1 as <-. rewrite u32_small in * by lia. lia.
      * intros H1. injection H1 as <-. lia.
Qed.
Lemma ends_find_top x y n : 0 <= y -> 0 <= n -> ends (find_top img x y n w h).
Proof.
  intros Hy Hn. destruct Hi as (Hw & Hh & Ha & _). unfold find_top. apply (ends_loop (fun '(q, _) => 0 <= q) (fun '(q, _) => Z.to_nat (h - q))); [| |lia|lia].
  - intros (q & d) Hq. ends_auto. now apply ends_horizontal_empty.
  - intros (q & d) (q2 & d2) Hq. destruct (Z.ltb_spec q h); [|discriminate]. intros H1. apply bind_Ok in H1 as (em & _ & H1). destruct em; [|discriminate]. injection H1 as <- _. lia.
Qed.
Lemma find_top_nonneg x y n r : 0 <= y -> find_top img x y n w h = Ok r -> 0 <= r.
Proof.
  intros Hy. unfold find_top. apply (loop_inv (fun '(q, _) => 0 <= q) (fun q => 0 <= q)); [| |lia].
  - intros (q & d) (q2 & d2) Hq. destruct (q <? h); [|discriminate]. intros H1. apply bind_Ok in H1 as (em & _ & H1). destruct em; [|discriminate]. injection H1 as <- _. lia.
  - intros (q & d) r2 Hq. destruct (q <? h); [|intros H1; injection H1 as <-; exact Hq]. intros H1. apply bind_Ok in H1 as (em & _ & H1). destruct em; [discriminate|]. injection H1 as <-. lia.
Qed.
Lemma ends_find_bottom x y n : 0 <= y -> 0 <= n -> ends (find_bottom img x y n w h).
Proof.
  intros Hy Hn. destruct Hi as (Hw & Hh & Ha & _). unfold find_bottom. apply (ends_loop (fun '(q, _) => 1 <= q <= h) (fun '(q, _) => Z.to_nat q)); [| |lia|lia].
  - intros (q & d) Hq. ends_auto. now apply ends_horizontal_empty.
  - intros (q & d) (q2 & d2) Hq. cbv zeta. rewrite u32_small by lia. destruct (Z.ltb_spec y (q - 1)); [|discriminate]. intros H1. apply bind_Ok in H1 as (em & _ & H1). destruct em; [|discriminate]. injection H1 as <- _. lia.
Qed.
Lemma ends_box x : 0 <= x <= w -> ends (make_box_character img x 0 w h).
Proof.
  intros Hx. pose proof Hi as (Hw & Hh & Ha & _). unfold make_box_character. apply ends_bind; [apply ends_find_column; lia|]. intros (x1 & d1) E1. apply find_column_range in E1 as (E1 & ->); [|exact Hx].
  apply ends_bind; [apply ends_find_end; lia|]. intros e Ee. cbv zeta. pose proof (u32_range (e - x1)). apply ends_bind; [apply ends_find_top; lia|]. intros t Et. apply find_top_nonneg in Et; [|lia].
  apply ends_bind; [apply ends_find_bottom; lia|]. discriminate.
Qed.
Lemma box_goes x b : 0 <= x <= w -> make_box_character img x 0 w h = Ok b -> 0 <= bw b < 4294967296 /\ 0 <= bh b < 4294967296 /\
  (box_bool b = true -> x < u32 (bx b + bw b) <= w).
Proof.
  intros Hx. pose proof Hi as (Hw & Hh & Ha & _). unfold make_box_character. intros H. apply bind_Ok in H as ((x1 & d1) & E1 & H). apply find_column_range in E1 as (E1 & ->); [|exact Hx].
  apply bind_Ok in H as (e & Ee & H). apply find_end_range in Ee as (Ee & Ex); [|lia]. cbv zeta in H. apply bind_Ok in H as (t & _ & H). apply bind_Ok in H as (bo & _ & H). injection H as <-. cbn [bx bw bh].
  split; [apply u32_range|]. split; [apply u32_range|]. unfold box_bool. cbn [bw bh]. rewrite u32_small by lia. intros B. apply andb_prop in B as (B & _). destruct (Z.eqb_spec (e - x1) 0); [discriminate|].
  replace (x1 + (e - x1)) with e by lia. rewrite u32_small; lia.
Qed.
(** A loop from box to box. *)
Lemma ends_boxes {St R} (pos : St -> Z) (body : St -> res (St + R)) : (forall s, 0 <= pos s <= w -> ends (body s)) ->
  (forall s s', 0 <= pos s <= w -> body s = Ok (inl s') -> exists b, make_box_character img (pos s) 0 w h = Ok b /\ box_bool b = true /\ pos s' = u32 (bx b + bw b)) ->
  forall s, pos s = 0 -> ends (loop (S (Z.to_nat w)) body s).
Proof.
  intros Hb Hs s E. pose proof Hi as (Hw & _). apply (ends_loop (fun s => 0 <= pos s <= w) (fun s => Z.to_nat (w - pos s))); [exact Hb| |lia|lia].
  intros s1 s2 H1 H2. destruct (Hs s1 s2 H1 H2) as (b & E1 & E2 & ->). destruct (box_goes _ _ H1 E1) as (_ & _ & G). specialize (G E2). lia.
Qed.
Lemma ends_segment : ends (segment img).
Proof.
  unfold segment. apply (ends_boxes fst); [| |reflexivity].
  - intros (x & l) Hx. ends_auto. now apply ends_box.
  - intros (x & l) (x2 & l2) Hx H. apply bind_Ok in H as (b & E & H). destruct (box_bool b) eqn:B; [|discriminate]. injection H as <- _. exists b. auto.
Qed.
Lemma ends_show_image im : ends (show_image im).
Proof. unfold show_image, put_bytes. ends_auto. Qed.
Lemma ends_show_characters : ends (show_characters img).
Proof.
  unfold show_characters. apply (ends_boxes fst); [| |reflexivity].
  - intros (x & l) Hx. ends_auto; [now apply ends_box|apply ends_section|apply ends_show_image].
  - intros (x & l) (x2 & l2) Hx H. apply bind_Ok in H as (b & E & H). destruct (box_bool b) eqn:B; [|discriminate]. apply bind_Ok in H as (i & _ & H). apply bind_Ok in H as (t & _ & H). injection H as <- _. exists b. auto.
Qed.
Lemma ends_learn_image text font : ends (learn_image img text font).
Proof.
  unfold learn_image. apply (ends_boxes (fun '(x, _, _, _) => x)); [| |reflexivity].
  - intros (((x & s) & f) & o) Hx. ends_auto; [now apply ends_box|apply ends_section].
  - intros (((x & s) & f) & o) (((x2 & s2) & f2) & o2) Hx H. apply bind_Ok in H as (b & E & H). destruct (box_bool b) eqn:B; [|destruct (get_word s f); discriminate].
    apply bind_Ok in H as (i & _ & H). destruct (get_word s f) as (s3 & f3). destruct (is_ok f3); [|discriminate]. injection H as <- _ _ _. exists b. auto.
Qed.
End Picture.

Lemma plain_bytes disk n b : plain_disk disk -> disk n = Some b -> bytes b.
Proof. intros H E. exact (proj1 (H n b E)). Qed.
Lemma ends_show_files disk lum names : plain_disk disk -> forall out, ends (show_files disk lum names out).
Proof.
  intros Hd. induction names as [|n names IH]; intros out; cbn [show_files]; [discriminate|]. unfold load_image. destruct (disk n) as [b|] eqn:En; [|discriminate].
  pose proof (plain_bytes _ _ _ Hd En) as Hb. pose proof (ends_image b lum Hb) as N. destruct (image_of_bytes b lum) as [img| | |] eqn:E; try discriminate; [|contradiction].
  apply ends_bind; [|intros; apply IH]. apply ends_show_characters. eapply image_pictured; eauto.
Qed.
Lemma ends_luminance av : ends (luminance_option av).
Proof. unfold luminance_option. ends_auto. Qed.
Lemma ends_show_glyphs disk av : plain_disk disk -> ends (show_glyphs disk av).
Proof. intros Hd. unfold show_glyphs. ends_auto; [apply ends_luminance|now apply ends_show_files]. Qed.
Lemma ends_learn_files disk lum : plain_disk disk -> forall n names out, (List.length names <= n)%nat -> ends (learn_files disk lum names out).
Proof.
  intros Hd. induction n as [|n IH]; intros names out Hn; [destruct names; [discriminate|cbn [List.length] in Hn; lia]|].
  destruct names as [|i [|t [|f names]]]; cbn [learn_files]; try discriminate. destruct (disk t) as [txt|]; [|discriminate]. unfold load_image. destruct (disk i) as [b|] eqn:En; [|discriminate].
  pose proof (plain_bytes _ _ _ Hd En) as Hb. pose proof (ends_image b lum Hb) as N. destruct (image_of_bytes b lum) as [img| | |] eqn:E; try discriminate; [|contradiction].
  apply ends_bind; [apply ends_learn_image; eapply image_pictured; eauto|]. intros (o & e) _. destruct e; try discriminate. apply IH. cbn [List.length] in Hn. lia.
Qed.
Lemma ends_write_glyphs disk av : plain_disk disk -> ends (write_glyphs_main disk av).
Proof. intros Hd. unfold write_glyphs_main. ends_auto; [apply ends_luminance|]. eapply ends_learn_files; eauto. Qed.
