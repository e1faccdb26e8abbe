(** The learning programs. *)
From Verif Require Import Base BaseProofs SortModel ImageModel ImageSpec ImageProofs BoxModel BoxSpec BoxProofs StratModel ZoneModel DatasModel DatasSpec DatasProofs
  StreamModel StreamProofs GlyphIoModel GlyphIoSpec GlyphIoProofs ExtractModel ExtractSpec DatasIoModel DictIoModel DictIoSpec DictIoProofs TrieModel TrieSpec UtfModel UtfSpec GlyphsProofs GlyphsProofs3 LearnModel LearnSpec.

(** * The words of a text *)
Lemma blanks_spaces p : blanks p -> spaces p.
Proof. unfold blanks, spaces. rewrite Forall_forall. auto. Qed.
Definition file_words (f : istream) (ws : list (list Z)) : Prop :=
  (exists text, f = open_stream text /\ text_words text ws) \/ (ws = [] /\ is_eof f || is_fail f = true).
Lemma get_word_next s f ws : file_words f ws ->
  match ws with
  | [] => is_ok (snd (get_word s f)) = false
  | w :: ws' => exists f', get_word s f = (w, f') /\ is_ok f' = true /\ file_words f' ws'
  end.
Proof.
  intros [(text & -> & H)|[-> H]].
  - destruct H as [p Hp|p w Hp Hw|p w c r ws Hp Hw Hc Hr].
    + unfold get_word, open_stream. rewrite (sentry_spaces p (blanks_spaces p Hp)). reflexivity.
    + apply plain_no_space in Hw as [Nw Hw]. exists (mkis [] true false true). 
      rewrite <- (app_nil_r w) at 1. unfold open_stream. rewrite (get_word_written s p w []) by (auto using blanks_spaces; exact I).
      split; [reflexivity|]. split; [reflexivity|]. right. split; reflexivity.
    + exists (open_stream (c :: r)). unfold open_stream. rewrite get_word_text by auto using blanks_spaces. split; [reflexivity|]. split; [reflexivity|].
      left. exists (c :: r). auto.
  - unfold get_word. rewrite (sentry_bad false f H). cbn [snd]. unfold is_ok. rewrite set_state_fail. reflexivity.
Qed.

(** Every text has words. *)
Lemma text_words_total : forall text, exists ws, text_words text ws.
Proof.
  assert (G : forall n text, (List.length text < n)%nat -> exists ws, text_words text ws).
  { induction n as [|n IH]; intros text Hn; [lia|].
    assert (P : exists p r, text = p ++ r /\ blanks p /\ match r with [] => True | c :: _ => is_space c = false end).
    { clear. induction text as [|c text (p & r & -> & Hp & Hr)].
      - exists [], []. split; [reflexivity|]. split; [intros c []|exact I].
      - destruct (is_space c) eqn:E.
        + exists (c :: p), r. split; [reflexivity|]. split; [|exact Hr]. intros x [<-|Hx]; [exact E|apply Hp, Hx].
        + exists [], (c :: p ++ r). split; [reflexivity|]. split; [intros x []|exact E]. }
    destruct P as (p & r & -> & Hp & Hr).
    assert (W : exists w q, r = w ++ q /\ (forall c, In c w -> is_space c = false) /\ match q with [] => True | c :: _ => is_space c = true end).
    { clear. induction r as [|c r (w & q & -> & Hw & Hq)].
      - exists [], []. split; [reflexivity|]. split; [intros c []|exact I].
      - destruct (is_space c) eqn:E.
        + exists [], (c :: w ++ q). split; [reflexivity|]. split; [intros x []|exact E].
        + exists (c :: w), q. split; [reflexivity|]. split; [|exact Hq]. intros x [<-|Hx]; [exact E|apply Hw, Hx]. }
    destruct W as (w & q & -> & Hw & Hq). destruct w as [|c w].
    - destruct q as [|c q]; cbn [app] in *; [|congruence]. exists []. rewrite app_nil_r. constructor. exact Hp.
    - assert (Pw : plain_text (c :: w)).
      { split; [discriminate|]. intros x Hx. specialize (Hw x Hx). unfold is_space in Hw. lia. }
      destruct q as [|d q].
      + exists [c :: w]. rewrite app_nil_r. constructor; assumption.
      + destruct (IH (d :: q)) as (ws & Hws).
        { rewrite !app_length in Hn. cbn [List.length] in *. lia. }
        exists ((c :: w) :: ws). constructor; assumption. }
  intros text. apply (G (S (List.length text))). lia.
Qed.

(** * Learning an image *)
Lemma char_section img b : wf_image img -> 0 <= bx b -> 0 <= by_ b -> 0 < bw b -> 0 < bh b -> bx b + bw b <= iw img -> by_ b + bh b <= ih img ->
  exists im, section img (bx b) (by_ b) (bw b) (bh b) = Ok im /\ char_image img b im.
Proof.
  intros Hwf H1 H2 H3 H4 H5 H6. destruct (section_law img (bx b) (by_ b) (bw b) (bh b)) as (im & E & W & w & h & P); try assumption; try lia.
  exists im. split; [exact E|]. split; [exact W|]. auto.
Qed.

Section LearnLoop.
Context (img : image) (font : list Z) (Hs : box_searchable img).
Definition seg_body (st : Z * list box) : res ((Z * list box) + list box) :=
  let '(x, boxes) := st in
  cbox <- make_box_character img x 0 (iw img) (ih img) ;;
  if box_bool cbox then Ok (inl (u32 (bx cbox + bw cbox), boxes ++ [cbox])) else Ok (inr boxes).
Definition learn_body (st : Z * list Z * istream * list Z) : res ((Z * list Z * istream * list Z) + (list Z * learn_end)) :=
  let '(x, s, file, out) := st in
  cbox <- make_box_character img x 0 (iw img) (ih img) ;;
  if box_bool cbox then
    newimg <- section img (bx cbox) (by_ cbox) (bw cbox) (bh cbox) ;;
    let '(s, file) := get_word s file in
    if is_ok file then
      Ok (inl (u32 (bx cbox + bw cbox), s, file, out ++ write_glyph (mkglyph newimg [mkview s font 4294967295])))
    else Ok (inr (out, NoDefinition))
  else
    let '(_, file) := get_word s file in
    Ok (inr (out, if is_ok file then NoBox else Learnt)).

Lemma learn_loop : forall fuel x acc, 0 <= x <= iw img -> iw img - x < Z.of_nat fuel ->
  exists boxes, loop fuel seg_body (x, acc) = Ok (acc ++ boxes) /\
    forall s file out ws, file_words file ws ->
    exists gs, glyphs_for img font boxes ws gs /\
      loop fuel learn_body (x, s, file, out) = Ok (out ++ write_glyphs gs, learning_end boxes ws).
Proof.
  induction fuel as [|f IH]; intros x acc Hx Hf; [lia|]. pose proof (bs_facts img Hs) as (HW & _).
  assert (Es : forall st, loop (S f) seg_body st = match seg_body st with Ok (inl s) => loop f seg_body s | Ok (inr r) => Ok r | Throw e => Throw e | UB => UB | NoFuel => NoFuel end) by reflexivity.
  assert (El : forall st, loop (S f) learn_body st = match learn_body st with Ok (inl s) => loop f learn_body s | Ok (inr r) => Ok r | Throw e => Throw e | UB => UB | NoFuel => NoFuel end) by reflexivity.
  rewrite Es. unfold seg_body at 1.
  destruct (make_box_spec img Hs x Hx) as (b & Eb & [(Hn & H0 & H1)|Ht]); rewrite Eb; cbn [bind].
  - assert (Bb : box_bool b = false) by (unfold box_bool; rewrite H0; reflexivity). rewrite Bb.
    exists []. rewrite app_nil_r. split; [reflexivity|]. intros s file out ws Hw. exists []. split; [constructor|].
    rewrite El. unfold learn_body at 1. rewrite Eb. cbn [bind]. rewrite Bb. pose proof (get_word_next s file ws Hw) as G.
    cbn [write_glyphs flat_map]. rewrite app_nil_r. destruct ws as [|w ws].
    + destruct (get_word s file) as [s' f']. cbn [snd] in G. rewrite G. reflexivity.
    + destruct G as (f' & -> & O & _). rewrite O. reflexivity.
  - pose proof (tight_nonempty _ _ _ Ht) as Hne. apply box_bool_iff in Hne. rewrite Hne.
    assert (Hb : x <= bx b /\ 0 < bw b /\ 0 < bh b /\ bx b + bw b < iw img /\ 0 <= by_ b /\ by_ b + bh b <= ih img) by (unfold tight_box in Ht; lia).
    rewrite u32_small by lia.
    destruct (IH (bx b + bw b) (acc ++ [b])) as (rest & E & Hr); [lia|lia|].
    exists (b :: rest). rewrite <- app_assoc in E. split; [exact E|]. intros s file out ws Hw.
    destruct (char_section img b (bs_wf img Hs)) as (im & Ei & Hi); [lia..|].
    rewrite El. unfold learn_body at 1. rewrite Eb. cbn [bind]. rewrite Hne, Ei. cbn [bind].
    pose proof (get_word_next s file ws Hw) as G. destruct ws as [|w ws].
    + destruct (get_word s file) as [s' f']. cbn [snd] in G. rewrite G. exists []. split; [constructor|]. cbn [write_glyphs flat_map]. rewrite app_nil_r. reflexivity.
    + destruct G as (f' & -> & O & F). rewrite O, u32_small by lia.
      destruct (Hr w f' (out ++ write_glyph (mkglyph im [mkview w font 4294967295])) ws F) as (gs & Hg & L). rewrite L.
      exists (mkglyph im [mkview w font 4294967295] :: gs). split.
      * constructor; [split; [exact Hi|reflexivity]|exact Hg].
      * cbn [write_glyphs flat_map]. rewrite <- app_assoc. reflexivity.
Qed.
End LearnLoop.

Lemma learn_image_ok img text font boxes ws : box_searchable img -> segment img = Ok boxes -> text_words text ws ->
  exists gs, glyphs_for img font boxes ws gs /\ learn_image img text font = Ok (write_glyphs gs, learning_end boxes ws).
Proof.
  intros Hs Eb Hw. pose proof (bs_facts img Hs) as (HW & _).
  destruct (learn_loop img font Hs (S (Z.to_nat (iw img))) 0 []) as (boxes' & E & L); [lia|lia|].
  change (loop (S (Z.to_nat (iw img))) (seg_body img) (0, [])) with (segment img) in E. rewrite Eb in E. injection E as <-.
  destruct (L [] (open_stream text) [] ws) as (gs & Hg & E2).
  - left. exists text. auto.
  - exists gs. split; [exact Hg|]. exact E2.
Qed.

Lemma glyphs_for_app img font boxes ws gs : glyphs_for img font boxes ws gs -> List.length boxes = List.length ws -> List.length gs = List.length boxes.
Proof. induction 1; cbn [List.length]; intros; try lia; destruct boxes; try discriminate; reflexivity. Qed.

Lemma learn_images_ok l : forall out,
  Forall (fun '(img, text, font) => box_searchable img /\ exists boxes ws, segment img = Ok boxes /\ text_words text ws /\ List.length boxes = List.length ws) l ->
  exists gss, Forall2 (fun '(img, text, font) gs => exists boxes ws, segment img = Ok boxes /\ text_words text ws /\ List.length boxes = List.length ws /\
      glyphs_for img font boxes ws gs) l gss /\
    learn_images l out = Ok (out ++ write_glyphs (List.concat gss), Learnt).
Proof.
  induction l as [|[[img text] font] l IH]; intros out F.
  - exists []. split; [constructor|]. cbn. rewrite app_nil_r. reflexivity.
  - inversion F as [|? ? HF F']; subst. cbn beta iota in HF. destruct HF as (Hs & boxes & ws & Eb & Hw & Hl).
    destruct (learn_image_ok img text font boxes ws Hs Eb Hw) as (gs & Hg & El).
    cbn [learn_images]. rewrite El. cbn [bind]. unfold learning_end. rewrite Hl, Nat.compare_refl.
    destruct (IH (out ++ write_glyphs gs) F') as (gss & H2 & E). rewrite E. exists (gs :: gss).
    split; [constructor; [exists boxes, ws; auto|exact H2]|]. cbn [List.concat]. unfold write_glyphs. rewrite flat_map_app, <- app_assoc. reflexivity.
Qed.

(** * The features of a glyph file *)
Lemma ignore_views vs r : Forall storable_view vs ->
  ignore_lines (List.length vs) (open_stream (flat_map (fun v => write_view v ++ [10]) vs ++ r)) = open_stream r.
Proof.
  induction 1 as [|v vs (Hw & Hf & Hl) _ IH]; [reflexivity|]. cbn [List.length ignore_lines flat_map]. rewrite <- !app_assoc. cbn [app].
  unfold open_stream in *. rewrite ignore_line_text; [exact IH|].
  unfold write_view. rewrite !in_app_iff. cbn [In]. pose proof (print_uint_no_10 (vw_line v) ltac:(lia)) as N.
  destruct Hw as (_ & Hw), Hf as (_ & Hf). intros [H|[H|[H|[H|H]]]]; try (apply Hw in H; lia); try (apply Hf in H; lia); intuition discriminate.
Qed.

Section WriteDatas.
Context (junk : Z -> Z) (zsort : list Z -> list Z).
Definition datas_body (st : image * datas * istream) : res ((image * datas * istream) + (datas * istream)) :=
  let '(img, d, file) := st in
  let '(img, file) := read_img img file in
  let '(n, file) := get_unsigned 0 file in
  if is_ok file then
    let file := ignore_lines (Z.to_nat n) (ignore_line file) in
    d <- datas_load junk zsort all_strategies d img ;;
    Ok (inl (img, d, file))
  else Ok (inr (d, file)).
Lemma datas_body_written img d g r : storable g ->
  datas_body (img, d, open_stream (write_glyph g ++ r)) =
  (d <- datas_load junk zsort all_strategies d (gl_img g) ;; Ok (inl (gl_img g, d, open_stream r))).
Proof.
  intros (Hi & Hn & Hvs). unfold datas_body, write_glyph, write_views, open_stream. rewrite <- !app_assoc.
  pose proof (read_img_written img (gl_img g) [] ([10] ++ print_uint (Z.of_nat (List.length (gl_views g))) ++ [10] ++ flat_map (fun v => write_view v ++ [10]) (gl_views g) ++ r) Hi (Forall_nil _)) as E.
  cbn [app] in *. rewrite E.
  change (10 :: print_uint (Z.of_nat (List.length (gl_views g))) ++ 10 :: flat_map (fun v => write_view v ++ [10]) (gl_views g) ++ r)
    with ([10] ++ print_uint (Z.of_nat (List.length (gl_views g))) ++ (10 :: flat_map (fun v => write_view v ++ [10]) (gl_views g) ++ r)).
  rewrite get_unsigned_print by (lia || reflexivity || (apply spaces_1; reflexivity)).
  cbn [is_ok is_fail negb]. rewrite Nat2Z.id.
  pose proof (ignore_line_text [] (flat_map (fun v => write_view v ++ [10]) (gl_views g) ++ r)) as I. cbn [app In] in I. rewrite I by tauto.
  pose proof (ignore_views (gl_views g) r Hvs) as V. unfold open_stream in V. rewrite V. reflexivity.
Qed.
Lemma datas_body_end img d : exists s, datas_body (img, d, open_stream []) = Ok (inr (d, s)) /\ is_eof s = true.
Proof. eexists. split; reflexivity. Qed.

Lemma datas_loop gs : Forall storable gs -> forall fuel img d, (List.length gs < fuel)%nat ->
  ('(d', s) <- loop fuel datas_body (img, d, open_stream (write_glyphs gs)) ;; Ok (if is_eof s then Some (write_datas (d_cols d')) else None)) =
  (d' <- datas_load_all junk zsort all_strategies d (map gl_img gs) ;; Ok (Some (write_datas (d_cols d')))).
Proof.
  induction 1 as [|g gs Hg _ IH]; intros fuel img d Hf; (destruct fuel as [|f]; [cbn [List.length] in Hf; lia|]); cbn [loop].
  - destruct (datas_body_end img d) as (s & E & Ee). change (write_glyphs []) with (@nil Z). rewrite E. cbn [bind]. rewrite Ee. reflexivity.
  - change (write_glyphs (g :: gs)) with (write_glyph g ++ write_glyphs gs). rewrite (datas_body_written img d g _ Hg). cbn [map datas_load_all].
    destruct (datas_load junk zsort all_strategies d (gl_img g)) as [d1| | |]; cbn [bind]; [|reflexivity..].
    apply IH. cbn [List.length] in Hf. lia.
Qed.
Lemma write_datas_all cx gs : Forall storable gs ->
  write_datas_file junk zsort cx (write_glyphs gs) =
  (d <- datas_load_all junk zsort all_strategies (mkdatas (repeat [] (List.length all_strategies)) cx) (map gl_img gs) ;; Ok (Some (write_datas (d_cols d)))).
Proof.
  intros H. unfold write_datas_file. apply (datas_loop gs H). pose proof (glyphs_length gs). lia.
Qed.
End WriteDatas.
Definition empty_columns : list (list fval) := repeat [] (List.length all_strategies).
Lemma write_datas_rows junk zsort cx gs : Forall storable gs -> Forall (fun g => zonable (gl_img g)) gs ->
  write_datas_file junk zsort cx (write_glyphs gs) =
  (rows <- rows_alone zsort all_strategies (map gl_img gs) ;; Ok (Some (write_datas (add_rows empty_columns rows)))).
Proof.
  intros H Hz. rewrite write_datas_all by exact H.
  pose proof (datas_load_all_alone junk zsort all_strategies (map gl_img gs) (mkdatas empty_columns cx)) as E.
  assert (F : Forall zonable (map gl_img gs)) by (apply Forall_map; exact Hz). specialize (E F eq_refl). cbn [d_cols] in E.
  fold empty_columns. destruct (datas_load_all junk zsort all_strategies (mkdatas empty_columns cx) (map gl_img gs)) as [d| | |];
    destruct (rows_alone zsort all_strategies (map gl_img gs)) as [rows| | |]; cbn [bind] in *; congruence.
Qed.

(** * The files of words *)
Lemma span_line_text l r : ~ In 10 l -> span_line (l ++ 10 :: r) = (l, Some r).
Proof.
  induction l as [|c l IH]; intros H; [reflexivity|]. cbn [app span_line]. destruct (Z.eqb_spec c 10) as [->|N]; [exfalso; apply H; left; reflexivity|].
  rewrite IH; [reflexivity|]. intros X. apply H. right. exact X.
Qed.
Lemma span_line_tail l : ~ In 10 l -> span_line l = (l, None).
Proof.
  induction l as [|c l IH]; intros H; [reflexivity|]. cbn [span_line]. destruct (Z.eqb_spec c 10) as [->|N]; [exfalso; apply H; left; reflexivity|].
  rewrite IH; [reflexivity|]. intros X. apply H. right. exact X.
Qed.
Lemma get_line_text old l r : ~ In 10 l -> get_line old (open_stream (l ++ 10 :: r)) = (l, open_stream r).
Proof. intros H. unfold get_line, sentry, open_stream. cbn [is_eof is_fail is_rest is_skipws orb negb andb]. rewrite span_line_text by exact H. reflexivity. Qed.
Definition words_body (st : list Z * list (list Z) * istream) : res ((list Z * list (list Z) * istream) + (list (list Z) * istream)) :=
  let '(w, words, s) := st in
  let '(w, s) := get_line w s in
  if is_ok s then Ok (inl (w, words ++ [w], s)) else Ok (inr (words, s)).
Lemma words_loop tail : ~ In 10 tail -> forall full, (forall l, In l full -> ~ In 10 l) -> forall fuel w words, (S (List.length full) < fuel)%nat ->
  exists s, loop fuel words_body (w, words, open_stream (flat_map (fun l => l ++ [10]) full ++ tail)) =
    Ok (words ++ full ++ match tail with [] => [] | _ => [tail] end, s).
Proof.
  intros Ht. induction full as [|l full IH]; intros Hf fuel w words HF; (destruct fuel as [|f]; [lia|]); cbn [loop flat_map app].
  - unfold words_body at 1, get_line, sentry, open_stream. cbn [is_eof is_fail is_rest is_skipws orb negb andb]. rewrite span_line_tail by exact Ht.
    destruct tail as [|c tail].
    + cbn. eexists. rewrite app_nil_r. reflexivity.
    + cbn [null]. unfold is_ok, set_state, set_rest. cbn [is_fail orb is_rest is_eof is_skipws negb]. destruct f as [|f]; [cbn [List.length] in HF; lia|].
      cbn [loop]. unfold words_body at 1, get_line, sentry. cbn [is_eof is_fail orb set_state]. unfold set_state, is_ok. cbn [is_fail orb is_rest is_eof is_skipws negb].
      eexists. reflexivity.
  - assert (E : words_body (w, words, open_stream (((l ++ [10]) ++ flat_map (fun l => l ++ [10]) full) ++ tail)) =
      Ok (inl (l, words ++ [l], open_stream (flat_map (fun l => l ++ [10]) full ++ tail)))).
    { unfold words_body. rewrite <- !app_assoc. cbn [app]. rewrite get_line_text by (apply Hf; left; reflexivity). reflexivity. }
    rewrite E. destruct (IH (fun x Hx => Hf x (or_intror Hx)) f l (words ++ [l])) as (s & Es).
    + cbn [List.length] in HF. lia.
    + exists s. rewrite Es. rewrite <- app_assoc. reflexivity.
Qed.
Lemma lines_length full : (List.length full <= List.length (flat_map (fun l : list Z => l ++ [10%Z]) full))%nat.
Proof. induction full as [|l full IH]; [cbn; lia|]. cbn [flat_map List.length]. rewrite !app_length. cbn [List.length]. lia. Qed.
Lemma read_words_ok words text ls : text_lines text ls -> exists s, read_words words (open_stream text) = Ok (words ++ ls, s).
Proof.
  intros (full & tail & -> & N & ->). unfold read_words. 
  apply (words_loop tail (N tail (or_introl eq_refl)) full (fun l Hl => N l (or_intror Hl))).
  cbn [is_rest open_stream]. rewrite app_length. pose proof (lines_length full). lia.
Qed.
Lemma text_lines_total text : exists ls, text_lines text ls.
Proof.
  assert (G : exists full tail, text = flat_map (fun l => l ++ [10]) full ++ tail /\ (forall l, In l (tail :: full) -> ~ In 10 l)).
  { induction text as [|c text (full & tail & -> & N)].
    - exists [], []. split; [reflexivity|]. intros l [<-|[]] [].
    - destruct (Z.eq_dec c 10) as [->|Nc].
      + exists ([] :: full), tail. split; [reflexivity|]. intros l [<-|[<-|Hl]]; [apply N; left; reflexivity|intros []|apply N; right; exact Hl].
      + destruct full as [|l full].
        * exists [], (c :: tail). split; [reflexivity|]. intros l [<-|[]] [E|H]; [congruence|]. apply (N tail); [left; reflexivity|exact H].
        * exists ((c :: l) :: full), tail. split; [reflexivity|]. intros x [<-|[<-|Hx]].
          -- apply N. left. reflexivity.
          -- intros [E|H]; [congruence|]. apply (N l); [right; left; reflexivity|exact H].
          -- apply N. right. right. exact Hx. }
  destruct G as (full & tail & E & N). eexists. exists full, tail. split; [exact E|]. split; [exact N|]. reflexivity.
Qed.
Lemma words_opened files : forall words, words_of_files true files words = Ok words.
Proof. induction files as [|[b|] files IH]; intros words; cbn [words_of_files]; auto. Qed.
Lemma words_none files : (forall f, In f files -> f = None) -> forall rest words, words_of_files false (files ++ rest) words = words_of_files false rest words.
Proof.
  induction files as [|f files IH]; intros H rest words; [reflexivity|]. rewrite (H f (or_introl eq_refl)). cbn [app words_of_files].
  apply IH. intros x Hx. apply H. right. exact Hx.
Qed.
(** Only the first file that can be opened counts. *)
Lemma words_first before text ls after : (forall f, In f before -> f = None) -> text_lines text ls ->
  words_of_files false (before ++ Some text :: after) [] = Ok ls.
Proof.
  intros Hb Ht. rewrite words_none by exact Hb. cbn [words_of_files]. destruct (read_words_ok [] text ls Ht) as (s & ->). cbn [bind app]. apply words_opened.
Qed.
