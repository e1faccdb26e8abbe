(** Every run ends: the programs that read a line of text. *)
From Verif Require Import Base BaseProofs SortModel ImageModel ImageSpec PnmSpec PnmModel BoxModel StratModel ZoneModel DatasModel StreamModel GlyphIoModel DatasIoModel DictIoModel TrieModel UtilModel
  IndexModel SpellModel FloatModel RecogModel GlyphsModel GlyphsSpec FilterModel ExtractModel AssembleModel PipelineModel ReportModel ShowModel FormatModel PrintModel Ocr6Model Ocr8Model OcrOutModel
  GlyphFileSpec GlyphFileProofs GlyphTextSpec GlyphTextProofs SearchSpec SearchProofs SearchProofs2 EndsSpec EndsProofs EndsProofs2 EndsProofs3 EndsProofs4 EndsProofs6 EndsProofs7.
From Coq Require Import Sorted.

(** * The files *)
Definition left_of (s : istream) : nat := List.length (is_rest s).
Lemma drop_spaces_le l : (List.length (drop_spaces l) <= List.length l)%nat.
Proof. induction l as [|c l IH]; cbn [drop_spaces]; [lia|]. destruct (is_space c); cbn [List.length] in *; lia. Qed.
Lemma sentry_le noskip s : (left_of (snd (sentry noskip s)) <= left_of s)%nat.
Proof.
  unfold sentry, left_of. pose proof (drop_spaces_le (is_rest s)). destruct (_ || _); [cbn; lia|]. destruct (_ && _); [|cbn; lia]. cbv zeta. destruct (null _); cbn; lia.
Qed.
Lemma span_digits_le l : (List.length (snd (span_digits l)) <= List.length l)%nat.
Proof. induction l as [|c l IH]; cbn [span_digits]; [cbn; lia|]. destruct (is_digit c); [|cbn; lia]. destruct (span_digits l). cbn [snd List.length] in *. lia. Qed.
Lemma span_int_le l : (List.length (snd (span_int l)) <= List.length l)%nat.
Proof.
  destruct l as [|c l]; cbn [span_int]; [cbn; lia|]. destruct (_ || _); [pose proof (span_digits_le l) as L; destruct (span_digits l)|pose proof (span_digits_le (c :: l)) as L; destruct (span_digits (c :: l))];
    cbn [snd List.length] in *; lia.
Qed.
Lemma get_uint_le m old s : (left_of (snd (get_uint m old s)) <= left_of s)%nat.
Proof.
  unfold get_uint. pose proof (sentry_le false s) as L. destruct (sentry false s) as (ok & s1). cbn [snd] in L. destruct ok; [|exact L]. pose proof (span_int_le (is_rest s1)) as L2.
  destruct (span_int (is_rest s1)) as ((neg & ds) & r). cbn [snd] in L2. cbv zeta. unfold left_of in *. destruct (null ds); [cbn; lia|]. destruct (_ <=? _); cbn; lia.
Qed.
Lemma get_bool_le old s : (left_of (snd (get_bool old s)) <= left_of s)%nat.
Proof.
  unfold get_bool. pose proof (sentry_le false s) as L. destruct (sentry false s) as (ok & s1). cbn [snd] in L. destruct ok; [|exact L]. pose proof (span_int_le (is_rest s1)) as L2.
  destruct (span_int (is_rest s1)) as ((neg & ds) & r). cbn [snd] in L2. cbv zeta. unfold left_of in *. destruct (null ds); [cbn; lia|]. destruct (_ =? 0); [cbn; lia|]. destruct (_ && _); cbn; lia.
Qed.
Lemma sentry_false noskip s : fst (sentry noskip s) = false -> is_ok (snd (sentry noskip s)) = false.
Proof.
  unfold sentry, is_ok. destruct (_ || _); [cbn; now rewrite Bool.orb_true_r|]. destruct (_ && _); [|discriminate]. cbv zeta. destruct (null _); [|discriminate]. intros _. cbn. now rewrite Bool.orb_true_r.
Qed.
Lemma get_char_le old s : (left_of (snd (get_char old s)) <= left_of s)%nat /\ (is_ok (snd (get_char old s)) = true -> (left_of (snd (get_char old s)) < left_of s)%nat).
Proof.
  unfold get_char. pose proof (sentry_le false s) as L. pose proof (sentry_false false s) as F. destruct (sentry false s) as (ok & s1). cbn [snd fst] in *. destruct ok; [|cbn [snd]; split; [exact L|]; intros E; rewrite F in E; [discriminate|reflexivity]].
  unfold left_of in *. destruct (is_rest s1) as [|c r] eqn:E; [|cbn [snd set_rest is_rest List.length] in *; lia]. cbn [snd]. unfold set_state, is_ok. cbn [is_rest is_fail]. rewrite E. split; [exact L|].
  now rewrite Bool.orb_true_r.
Qed.
Lemma read_record_le s n s' : read_record s = (Some n, s') -> (left_of s' < left_of s)%nat.
Proof.
  unfold read_record, get_unsigned. pose proof (get_uint_le 4294967296 0 s) as L1. destruct (get_uint _ 0 s) as (c & s1). pose proof (get_char_le 0 s1) as (L2 & _). destruct (get_char 0 s1) as (e1 & s2).
  pose proof (get_uint_le 4294967296 0 s2) as L3. destruct (get_uint _ 0 s2) as (p & s3). pose proof (get_char_le 0 s3) as (L4 & _). destruct (get_char 0 s3) as (e2 & s4).
  pose proof (get_uint_le 4294967296 0 s4) as L5. destruct (get_uint _ 0 s4) as (z & s5). pose proof (get_char_le 0 s5) as (L6 & _). destruct (get_char 0 s5) as (e3 & s6).
  pose proof (get_bool_le false s6) as L7. destruct (get_bool false s6) as (t & s7). pose proof (get_char_le 0 s7) as (_ & L8). destruct (get_char 0 s7) as (e4 & s8). cbn [snd] in *.
  destruct (is_ok s8) eqn:K; [|discriminate]. intros E. injection E as _ <-. specialize (L8 eq_refl). lia.
Qed.
Lemma ends_read_dict s : ends (read_dict s).
Proof.
  unfold read_dict. cbv zeta. apply ends_bind; [|intros (ns & s2) _; discriminate]. apply (ends_loop (fun _ => True) (fun '(_, s) => left_of s)); [| |exact I|unfold left_of; cbn; lia].
  - intros (ns & s1) _. destruct (read_record s1) as (r & s2). destruct r as [(n & (((e1 & e2) & e3) & e4))|]; [|discriminate]. destruct (_ || _); discriminate.
  - intros (ns & s1) (ns2 & s2) _. destruct (read_record s1) as (r & s3) eqn:E. destruct r as [(n & (((e1 & e2) & e3) & e4))|]; [|discriminate]. destruct (_ || _); [discriminate|]. intros H. injection H as _ <-.
    split; [exact I|]. eapply read_record_le; eauto.
Qed.
Lemma ends_read_datas ss s : ends (read_datas ss s).
Proof. unfold read_datas. ends_auto. Qed.
Lemma ends_load_file {A} (read : istream -> res (A * istream)) bytes : ends (read (open_stream bytes)) -> ends (load_file read bytes).
Proof. intros H. unfold load_file. ends_auto. exact H. Qed.
Lemma ends_load_disk {A} disk (read : istream -> res (A * istream)) name : (forall bytes, disk name = Some bytes -> ends (load_file read bytes)) -> ends (load_disk disk read name).
Proof. intros H. unfold load_disk. destruct (disk name) as [b|]; [now apply H|discriminate]. Qed.
Lemma ends_load_glyphs text : vsize text < 4294967296 -> ends (load_glyphs (open_stream text)).
Proof.
  intros V. destruct (load_small text V) as (es & b & _ & H). destruct (completed es); [|rewrite H; discriminate]. destruct H as [(_ & ->)|(_ & t & s & -> & _)]; discriminate.
Qed.
Lemma ends_read_glyphs text : ends (load_file read_glyphs text).
Proof. destruct (glyph_text_outcome text) as (gs & b & _ & _ & _ & ->). destruct b; discriminate. Qed.
Lemma ends_read_lines text : ends (load_file read_words_lines text).
Proof. destruct (lines_outcome text) as (ls & b & _ & _ & ->). destruct b; discriminate. Qed.
Lemma ends_words_infos sort text t s ls : vsize text < 4294967296 -> load_glyphs (open_stream text) = Ok (t, s) -> ends (words_infos sort t ls).
Proof.
  intros V L. destruct (load_described text) as (es & b & HG). destruct (in_order_exists text es b HG (file_fits _ _ _ HG V)) as (ws & O).
  destruct (search_any text es b ws t s V HG O L) as (views & wid & fid & _ & _ & _ & Ix). unfold words_infos.
  destruct (index_lines_scan t ws wid ls Ix) as [(_ & D)|(_ & r & D)]; rewrite D; discriminate.
Qed.

(** * The line *)
Lemma ends_img_less a b : ends (img_less a b).
Proof. unfold img_less. ends_auto. apply ends_image_compare. Qed.
Lemma ends_cache_find c img : ends (cache_find c img).
Proof. induction c as [|(k, r) c IH]; cbn [cache_find]; ends_auto; first [apply ends_img_less|exact IH]. Qed.
Lemma ends_cache_emplace c img v : ends (cache_emplace c img v).
Proof. induction c as [|(k, r) c IH]; cbn [cache_emplace]; ends_auto; first [apply ends_img_less|exact IH]. Qed.
Section Picture.
Context (img : image) (Hi : pictured img).
Lemma ends_print_step g e s out b : 0 <= bw b < 4294967296 -> 0 <= bh b < 4294967296 -> ends (print_step g e img s out b).
Proof.
  intros Hw Hh. unfold print_step. apply ends_bind; [apply ends_section|]. intros im E. apply section_sane in E; [|exact Hw|exact Hh].
  ends_auto; first [apply ends_cache_find|apply ends_show_image|now apply ends_recognise_img|apply ends_clone|apply ends_cache_emplace|apply ends_word_text].
Qed.
(** The boxes are not more than the columns that were passed. *)
Definition lined (s : lstate) : Prop :=
  0 <= l_x s <= iw img /\ vsize (l_boxes s) <= l_x s /\ vsize (l_amb s) = vsize (l_boxes s) /\ StronglySorted Z.lt (l_spaces s) /\ Forall (fun e => 0 <= e < vsize (l_boxes s)) (l_spaces s).
Lemma vsize_snoc {A} (l : list A) a : vsize (l ++ [a]) = vsize l + 1.
Proof. unfold vsize. rewrite app_length. cbn. lia. Qed.
Lemma print_step_lined g e s out b s2 out2 : lined s -> make_box_character img (l_x s) 0 (iw img) (ih img) = Ok b -> box_bool b = true -> print_step g e img s out b = Ok (s2, out2) ->
  lined s2 /\ l_x s2 = u32 (bx b + bw b).
Proof.
  intros (Hx & Hb & Ha & Hs & Hf) E B H. destruct (box_goes img Hi _ _ Hx E) as (_ & _ & G). specialize (G B). pose proof Hi as (Hw & _). unfold print_step in H. apply bind_Ok in H as (im & _ & H). cbv zeta in H.
  set (spaces := if u32 (l_x s + 4) <? bx b then l_spaces s ++ [u32 (vsize (l_boxes s))] else l_spaces s) in H.
  assert (0 <= vsize (l_boxes s)) by (unfold vsize; lia).
  assert (SP : StronglySorted Z.lt spaces /\ Forall (fun e => 0 <= e < vsize (l_boxes s) + 1) spaces).
  { unfold spaces. rewrite (u32_small (vsize (l_boxes s))) by lia. assert (F2 : Forall (fun e => 0 <= e < vsize (l_boxes s) + 1) (l_spaces s)) by (eapply Forall_impl; [|exact Hf]; cbn; lia).
    destruct (_ <? _); [|auto]. split; [apply sorted_snoc; [exact Hs|]; eapply Forall_impl; [|exact Hf]; cbn; lia|]. apply Forall_app. split; [exact F2|]. repeat constructor; lia. }
  assert (L : forall s', l_x s' = u32 (bx b + bw b) -> l_boxes s' = l_boxes s ++ [b] -> vsize (l_amb s') = vsize (l_amb s) + 1 -> l_spaces s' = spaces -> lined s' /\ l_x s' = u32 (bx b + bw b)).
  { intros s' E1 E2 E3 E4. split; [|exact E1]. unfold lined. rewrite E1, E2, E3, E4, vsize_snoc. split; [lia|]. split; [lia|]. split; [lia|]. exact SP. }
  apply bind_Ok in H as (it & _ & H). destruct it as [r|].
  - injection H as <- _. apply L; try reflexivity. apply vsize_snoc.
  - apply bind_Ok in H as (t & _ & H). apply bind_Ok in H as ((l & cx) & _ & H). apply bind_Ok in H as (key & _ & H). apply bind_Ok in H as (c & _ & H). apply bind_Ok in H as (ws & _ & H). injection H as <- _.
    apply L; try reflexivity. apply vsize_snoc.
Qed.
Lemma ends_print_line g e cx : ends (print_line g e img cx).
Proof.
  unfold print_line. apply (ends_loop (fun '(s, _) => lined s) (fun '(s, _) => Z.to_nat (iw img - l_x s))).
  - intros (s & out) (Hx & _). apply ends_bind; [now apply ends_box|]. intros b E. destruct (box_goes img Hi _ _ Hx E) as (Hw & Hh & _). destruct (box_bool b); [|discriminate].
    apply ends_bind; [now apply ends_print_step|]. discriminate.
  - intros (s & out) (s2 & out2) Hl H. apply bind_Ok in H as (b & E & H). destruct (box_bool b) eqn:B; [|discriminate]. apply bind_Ok in H as ((s3 & out3) & P & H). injection H as <- <-.
    pose proof Hl as (Hx & _). destruct (box_goes img Hi _ _ Hx E) as (_ & _ & G). specialize (G B). destruct (print_step_lined g e s out b s3 out3 Hl E B P) as (L & X). split; [exact L|]. rewrite X. lia.
  - pose proof Hi as (Hw & _). unfold lined. cbn. repeat split; try lia; constructor.
  - cbn. lia.
Qed.
Lemma print_line_lined g e cx s out : print_line g e img cx = Ok (s, out) -> lined s.
Proof.
  unfold print_line. intros H. revert H. apply (loop_inv (fun '(s, _) => lined s) (fun '(s, _) => lined s)).
  - intros (s1 & out1) (s2 & out2) Hl H. apply bind_Ok in H as (b & E & H). destruct (box_bool b) eqn:B; [|discriminate]. apply bind_Ok in H as ((s3 & out3) & P & H). injection H as <- <-.
    eapply print_step_lined; eauto.
  - intros (s1 & out1) (s2 & out2) Hl H. apply bind_Ok in H as (b & E & H). destruct (box_bool b); [apply bind_Ok in H as (so & _ & H); discriminate|]. injection H as <- _. exact Hl.
  - pose proof Hi as (Hw & _). unfold lined. cbn. repeat split; try lia; constructor.
Qed.
Lemma ends_assemble_line g nodes st s : lined s -> ends (assemble g nodes st (l_amb s) (l_spaces s ++ [u32 (vsize (l_amb s))])).
Proof.
  intros (Hx & Hb & Ha & Hs & Hf). pose proof Hi as (Hw & _). assert (0 <= vsize (l_amb s)) by (unfold vsize; lia). rewrite u32_small by lia. apply ends_assemble. rewrite <- Ha in Hf. now apply breaks_next.
Qed.
Lemma ends_step_out rec s out b : (forall n im, sane im -> ends (rec n im)) -> 0 <= bw b < 4294967296 -> 0 <= bh b < 4294967296 -> ends (step_out rec img s out b).
Proof.
  intros Hr Hw Hh. unfold step_out. apply ends_bind; [apply ends_section|]. intros im E. apply section_sane in E; [|exact Hw|exact Hh].
  ends_auto; first [apply ends_cache_find|apply ends_show_image|now apply Hr|apply ends_cache_emplace].
Qed.
Lemma ends_read_line_out rec : (forall n im, sane im -> ends (rec n im)) -> ends (read_line_out rec img).
Proof.
  intros Hr. unfold read_line_out. apply (ends_boxes img Hi (fun '(s, _) => q_x s)); [| |reflexivity].
  - intros (s & out) Hx. apply ends_bind; [now apply ends_box|]. intros b E. destruct (box_goes img Hi _ _ Hx E) as (Hw & Hh & _). destruct (box_bool b); [|discriminate].
    apply ends_bind; [now apply ends_step_out|]. discriminate.
  - intros (s & out) (s2 & out2) Hx H. apply bind_Ok in H as (b & E & H). destruct (box_bool b) eqn:B; [|discriminate]. apply bind_Ok in H as ((s3 & out3) & P & H). injection H as <- <-.
    exists b. split; [exact E|]. split; [exact B|]. unfold step_out in P. apply bind_Ok in P as (im & _ & P). cbv zeta in P. apply bind_Ok in P as (it & _ & P). destruct it as [r|].
    + apply bind_Ok in P as ((w & l) & _ & P). apply bind_Ok in P as (f & _ & P). injection P as <- _. reflexivity.
    + apply bind_Ok in P as (t & _ & P). apply bind_Ok in P as ((f & infos) & _ & P). apply bind_Ok in P as (c & _ & P). injection P as <- _. reflexivity.
Qed.
End Picture.

(** * The programs *)
Lemma ends_attempt {A} out (m : res A) k : ends m -> (forall a, m = Ok a -> ends (k a)) -> ends (attempt out m k).
Proof. unfold ends. intros H1 H2. destruct m; cbn [attempt]; try discriminate; [now apply H2|congruence]. Qed.
Section Disk.
Context (disk : list Z -> option (list Z)) (Hd : plain_disk disk).
Lemma ends_disk_image file lum : ends (load_image (disk file) lum).
Proof. unfold load_image. destruct (disk file) as [b|] eqn:E; [|discriminate]. apply ends_image. eapply plain_bytes; eauto. Qed.
Lemma disk_image_pictured file lum img : load_image (disk file) lum = Ok img -> pictured img.
Proof. unfold load_image. destruct (disk file) as [b|] eqn:E; [|discriminate]. apply image_pictured. eapply plain_bytes; eauto. Qed.
Lemma ends_optional {A} (read : istream -> res (A * istream)) (d : A) (name : option (list Z)) : (forall bytes, ends (load_file read bytes)) ->
  ends (match name with Some f => load_disk disk read f | None => Ok d end).
Proof. intros H. destruct name; [|discriminate]. apply ends_load_disk. intros b _. apply H. Qed.
Lemma ends_dict_file bytes : ends (load_file read_dict bytes).
Proof. apply ends_load_file, ends_read_dict. Qed.

Theorem ends_ocr2_main rt nan cx av : ends (ocr2_main rt nan cx disk av).
Proof.
  unfold ocr2_main. destruct av as [|a0 [|glyphs [|datas [|image options]]]]; try discriminate. cbv zeta.
  apply ends_attempt; [apply ends_optional, ends_dict_file|]. intros nodes _.
  apply ends_attempt; [apply ends_load_disk; intros; apply ends_load_file, ends_read_datas|]. intros cols _.
  apply ends_attempt. { apply ends_load_disk. intros b E. apply ends_load_file, ends_load_glyphs. apply (Hd glyphs b E). }
  intros g Eg. destruct (negb _); [discriminate|].
  apply ends_attempt; [apply ends_optional, ends_read_lines|]. intros ls _.
  assert (W : forall sort, ends (words_infos sort g ls)).
  { intros sort. unfold load_disk in Eg. destruct (disk glyphs) as [b|] eqn:Eb; [|discriminate]. unfold load_file in Eg. apply bind_Ok in Eg as ((g2 & s) & L & Eg). destruct (is_eof s); [|discriminate].
    injection Eg as <-. refine (ends_words_infos _ b _ s ls _ L). apply (Hd glyphs b Eb). }
  apply ends_attempt; [ends_auto; [apply W|unfold make_table; ends_auto; apply ends_indexes_by_words]|]. intros (infos & t) _.
  apply ends_attempt; [apply ends_disk_image|]. intros img Ei. apply disk_image_pictured in Ei.
  apply ends_attempt; [now apply ends_print_line|]. intros (s & chars) El. apply print_line_lined in El; [|exact Ei].
  apply ends_attempt; [|intros (text & count) _; discriminate].
  apply ends_bind; [apply ends_filter_by_lines|]. intros st _. apply ends_bind; [apply ends_filter_by_font|]. intros (st2 & f) _. now apply (ends_assemble_line img Ei).
Qed.
Lemma ends_load_out glyphs datas dict k : (forall out nodes cols gs, ends (k out nodes cols gs)) -> ends (load_out disk glyphs datas dict k).
Proof.
  intros Hk. unfold load_out. cbv zeta. apply ends_attempt; [apply ends_optional, ends_dict_file|]. intros nodes _.
  apply ends_attempt; [apply ends_load_disk; intros; apply ends_load_file, ends_read_datas|]. intros cols _.
  apply ends_attempt; [apply ends_load_disk; intros; apply ends_read_glyphs|]. intros gs _. destruct (negb _); [discriminate|apply Hk].
Qed.
Lemma ends_image_out rec nodes file out : (forall n im, sane im -> ends (rec n im)) -> ends (image_out rec nodes (disk file) out).
Proof.
  intros Hr. unfold image_out. apply ends_attempt; [apply ends_disk_image|]. intros img Ei. apply disk_image_pictured in Ei. apply ends_attempt; [now apply ends_read_line_out|]. intros (s & chars) _.
  apply ends_attempt; [apply ends_assemble6|]. discriminate.
Qed.
Theorem ends_main6 rt nan av : ends (main6 rt nan disk av).
Proof.
  unfold main6. destruct av as [|a0 [|glyphs [|datas [|image options]]]]; try discriminate. apply ends_load_out. intros out nodes cols gs. cbv zeta.
  apply ends_attempt; [apply ends_order6|]. intros (cols2 & words) _. apply ends_attempt; [apply ends_data_by_word|]. intros bw _. apply ends_attempt; [apply ends_search6|]. intros sd _.
  apply ends_image_out. intros n im S. now apply ends_recognise6.
Qed.
Theorem ends_main8 rt nan av : ends (main8 rt nan disk av).
Proof.
  unfold main8. destruct av as [|a0 [|glyphs [|datas [|image options]]]]; try discriminate. apply ends_load_out. intros out nodes cols gs. cbv zeta.
  apply ends_attempt; [apply ends_order8|]. intros ((cols2 & words) & t) _. apply ends_attempt; [apply ends_data_by_word|]. intros bw _.
  apply ends_image_out. intros n im S. now apply ends_recognise8.
Qed.
End Disk.
