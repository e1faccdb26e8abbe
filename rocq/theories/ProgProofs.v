(** Proofs about the main functions of write_datas, normalize_glyphs and
    make_trie_dictionary. *)
From Verif Require Import Base BaseProofs SortModel ImageModel ImageSpec StratModel ZoneModel DatasModel DatasSpec DatasProofs StreamModel StreamProofs GlyphIoModel GlyphIoSpec GlyphIoProofs
  DatasIoModel DictIoModel TrieModel NormModel NormSpec RecogModel RecogSpec LearnModel LearnSpec LearnProofs LearnProofs2 LearnProofs3 LearnProofs4 ShowModel ProgModel ProgSpec.
From Coq Require Import Permutation.

Lemma blank_space c : blank c <-> is_space c = true.
Proof. unfold blank, is_space. rewrite orb_true_iff, andb_true_iff, Z.eqb_eq, !Z.leb_le. lia. Qed.
Lemma blanks_spaces p : Forall blank p -> spaces p.
Proof. intros H. eapply Forall_impl; [|exact H]. intros c Hc. now apply blank_space. Qed.
(** Reading a number where there is none. *)
Lemma get_uint_stray m old p c r : spaces p -> ~ blank c -> ~ 48 <= c <= 57 -> c <> 43 -> c <> 45 ->
  get_uint m old (mkis (p ++ c :: r) false false true) = (0, mkis (c :: r) false true true).
Proof.
  intros Hp Hb Hd H1 H2. unfold get_uint. assert (Hs : is_space c = false) by (destruct (is_space c) eqn:E; [apply blank_space in E; tauto|reflexivity]).
  rewrite sentry_good; [|exact Hp|discriminate|exact Hs|discriminate]. cbn [is_rest span_int].
  destruct (Z.eqb_spec c 45); [lia|]. destruct (Z.eqb_spec c 43); [lia|]. cbn [orb]. cbn [span_digits].
  assert (is_digit c = false) as -> by (unfold is_digit; apply andb_false_iff; rewrite !Z.leb_gt; lia). reflexivity.
Qed.
Lemma read_img_stray old t u : stray t u -> exists s, read_img old (mkis t false false true) = (old, s) /\ is_eof s = false /\ is_fail s = true /\ is_rest s = u.
Proof.
  intros (p & c & r & -> & Hp & -> & Hb & Hd & H1 & H2). unfold read_img, read_bounds, get_unsigned. rewrite get_uint_stray by (assumption || now apply blanks_spaces).
  unfold get_uint at 1. rewrite sentry_bad by reflexivity. eexists. split; [reflexivity|]. auto.
Qed.
Lemma stray_blanks p t u : Forall blank p -> stray t u -> stray (p ++ t) u.
Proof. intros Hp (q & c & r & -> & Hq & H). exists (p ++ q), c, r. split; [apply app_assoc|]. split; [apply Forall_app; auto|exact H]. Qed.

(** * write_datas *)
Section WriteDatas.
Context (junk : Z -> Z) (zsort : list Z -> list Z).
Lemma body_blank img d t : Forall blank t -> exists s, datas_body junk zsort (img, d, open_stream t) = Ok (inr (d, s)) /\ is_eof s = true.
Proof.
  intros Ht. unfold datas_body, open_stream, read_img, read_bounds, get_unsigned, get_uint.
  rewrite sentry_spaces by now apply blanks_spaces. rewrite sentry_bad by reflexivity. cbn [set_state is_ok is_fail is_eof is_rest is_skipws orb negb].
  rewrite sentry_bad by reflexivity. eexists. split; reflexivity.
Qed.
Lemma body_stray img d t u : stray t u -> exists s, datas_body junk zsort (img, d, open_stream t) = Ok (inr (d, s)) /\ is_eof s = false /\ is_rest s = u.
Proof.
  intros Ht. destruct (read_img_stray img t u Ht) as (s & E & Ee & Ef & Er). unfold datas_body, open_stream. rewrite E. unfold get_unsigned, get_uint.
  rewrite sentry_bad by (rewrite Ef; apply orb_true_r). unfold is_ok. rewrite set_state_fail. cbn [negb]. eexists. split; [reflexivity|].
  unfold set_state. cbn [is_eof is_rest]. rewrite Ee. auto.
Qed.
Lemma features_loop (P : istream -> Prop) t : (forall img d, exists s, datas_body junk zsort (img, d, open_stream t) = Ok (inr (d, s)) /\ P s) ->
  forall gs, Forall storable gs -> forall fuel img d, (List.length gs < fuel)%nat ->
  forall d', datas_load_all junk zsort all_strategies d (map gl_img gs) = Ok d' ->
  exists s, loop fuel (datas_body junk zsort) (img, d, open_stream (write_glyphs gs ++ t)) = Ok (d', s) /\ P s.
Proof.
  intros H0. induction 1 as [|g gs Hg _ IH]; intros fuel img d Hf d'; (destruct fuel as [|f]; [cbn [List.length] in Hf; lia|]); cbn [loop].
  - cbn [map datas_load_all]. intros E. assert (d = d') by congruence. subst d'. change (write_glyphs [] ++ t) with t. destruct (H0 img d) as (s & E1 & Es). rewrite E1. cbn [bind]. exists s. auto.
  - change (write_glyphs (g :: gs)) with (write_glyph g ++ write_glyphs gs). rewrite <- app_assoc, (datas_body_written junk zsort img d g _ Hg). cbn [map datas_load_all].
    destruct (datas_load junk zsort all_strategies d (gl_img g)) as [d1| | |]; cbn [bind]; try discriminate. apply IH. cbn [List.length] in Hf. lia.
Qed.
Lemma loaded_rows (Hz : is_std_sort Z.ltb zsort) cx gs : Forall storable gs -> Forall (fun g => recognisable (gl_img g)) gs -> Z.of_nat (List.length gs) < 18446744073709551616 ->
  exists d, datas_load_all junk zsort all_strategies (mkdatas (repeat [] (List.length all_strategies)) cx) (map gl_img gs) = Ok d /\ write_datas (d_cols d) = write_datas (feature_table zsort (map gl_img gs)).
Proof.
  intros Hs HR HB. destruct (write_datas_table zsort Hz junk cx gs Hs HR HB) as (E & _). rewrite write_datas_all in E by exact Hs.
  destruct (datas_load_all junk zsort all_strategies _ (map gl_img gs)) as [d| | |]; try discriminate. exists d. split; [reflexivity|]. cbn [bind] in E. congruence.
Qed.
Lemma features_ok (Hz : is_std_sort Z.ltb zsort) (P : istream -> Prop) cx gs t : Forall storable gs -> Forall (fun g => recognisable (gl_img g)) gs -> Z.of_nat (List.length gs) < 18446744073709551616 ->
  (forall img d, exists s, datas_body junk zsort (img, d, open_stream t) = Ok (inr (d, s)) /\ P s) ->
  exists d s, features_of_file junk zsort cx (write_glyphs gs ++ t) = Ok (d, s) /\ write_datas (d_cols d) = write_datas (feature_table zsort (map gl_img gs)) /\ P s.
Proof.
  intros Hs HR HB H0. destruct (loaded_rows Hz cx gs Hs HR HB) as (d & El & Ew).
  destruct (features_loop P t H0 gs Hs (S (S (List.length (write_glyphs gs ++ t)))) (mkimage 0 0 []) (mkdatas (repeat [] (List.length all_strategies)) cx)) with (d' := d) as (s & E & Es); [|exact El|].
  - pose proof (glyphs_length gs). rewrite app_length. lia.
  - exists d, s. auto.
Qed.
Theorem write_datas_good (Hz : is_std_sort Z.ltb zsort) cx disk prog name gs : glyph_file (disk name) gs -> Forall (fun g => recognisable (gl_img g)) gs -> Z.of_nat (List.length gs) < 18446744073709551616 ->
  write_datas_main junk zsort cx disk [prog; name] = Ok (write_datas (feature_table zsort (map gl_img gs)), Exits 0).
Proof.
  intros (t & Ed & Hs & Ht) HR HB. unfold write_datas_main. rewrite Ed. destruct (features_ok Hz _ cx gs t Hs HR HB (fun img d => body_blank img d t Ht)) as (d & s & -> & Ew & Es).
  cbn [bind]. now rewrite Es, Ew.
Qed.
Theorem write_datas_spoilt (Hz : is_std_sort Z.ltb zsort) cx disk prog name gs u : spoilt_file (disk name) gs u -> Forall (fun g => recognisable (gl_img g)) gs -> Z.of_nat (List.length gs) < 18446744073709551616 ->
  write_datas_main junk zsort cx disk [prog; name] = Ok ([91] ++ u ++ [93; 10], Exits 5).
Proof.
  intros (t & Ed & Hs & Ht) HR HB. unfold write_datas_main. rewrite Ed. destruct (features_ok Hz _ cx gs t Hs HR HB (fun img d => body_stray img d t u Ht)) as (d & s & -> & _ & Es & Er).
  cbn [bind]. rewrite Es, Er. destruct Ht as (p & c & r & _ & _ & -> & _). reflexivity.
Qed.
End WriteDatas.
Lemma write_datas_forget junk zsort cx bytes : write_datas_file junk zsort cx bytes = ('(d, s) <- features_of_file junk zsort cx bytes ;; Ok (if is_eof s then Some (write_datas (d_cols d)) else None)).
Proof. reflexivity. Qed.
(** A stream that has failed before its end has something left. *)
Definition something_left (s : istream) : Prop := is_fail s = true -> is_eof s = true \/ is_rest s <> [].
Lemma sentry_left noskip s b s' : something_left s -> sentry noskip s = (b, s') -> something_left s' /\ (b = true -> is_fail s' = false).
Proof.
  unfold sentry, something_left. intros H. destruct (is_eof s || is_fail s) eqn:E.
  - intros [= <- <-]. unfold set_state. cbn [is_eof is_fail is_rest]. split; [|discriminate]. intros _. destruct (is_eof s); [now left|]. cbn [orb] in *. destruct (H E) as [H1|H1]; [discriminate|now right].
  - apply orb_false_iff in E as (E1 & E2). destruct (negb noskip && is_skipws s).
    + destruct (drop_spaces (is_rest s)) as [|c l]; cbn [null]; intros [= <- <-]; cbn [set_state set_rest is_eof is_fail is_rest]; (split; [|try discriminate; auto]).
      * intros _. left. apply orb_true_r.
      * intros F. congruence.
    + intros [= <- <-]. split; [intros F; congruence|auto].
Qed.
Lemma get_uint_left m old s v s' : something_left s -> get_uint m old s = (v, s') -> something_left s'.
Proof.
  intros H. unfold get_uint. destruct (sentry false s) as (b, s1) eqn:E. destruct (sentry_left _ _ _ _ H E) as (H1 & H2). destruct b; [|intros [= <- <-]; exact H1]. specialize (H2 eq_refl).
  destruct (span_int (is_rest s1)) as ((neg, ds), r). assert (L : forall f, something_left (set_state false f (set_state (null r) false (set_rest r s1)))).
  { intros f. unfold something_left, set_state, set_rest. cbn [is_eof is_fail is_rest]. intros _. destruct r; [left; rewrite !orb_true_r; reflexivity|right; discriminate]. }
  destruct (null ds); [intros [= <- <-]; apply L|]. destruct (m <=? digits_value ds); [intros [= <- <-]; apply L|]. intros [= <- <-].
  pose proof (L false) as L0. unfold set_state in *. cbn [is_eof is_fail is_rest is_skipws] in *. rewrite !orb_false_r in L0. now rewrite !orb_false_r.
Qed.
Lemma read_bytes_left n s l s' : something_left s -> read_bytes n s = (l, s') -> something_left s'.
Proof.
  intros H. unfold read_bytes. destruct (sentry true s) as (b, s1) eqn:E. destruct (sentry_left _ _ _ _ H E) as (H1 & H2). destruct b; [|intros [= <- <-]; exact H1]. specialize (H2 eq_refl).
  destruct (split_at n (is_rest s1)) as (a, c). intros [= <- <-]. unfold something_left, set_state, set_rest. cbn [is_eof is_fail is_rest]. rewrite H2. cbn [orb]. intros ->. left. apply orb_true_r.
Qed.
Lemma read_img_left old s img s' : something_left s -> read_img old s = (img, s') -> something_left s'.
Proof.
  intros H. unfold read_img, read_bounds, get_unsigned. destruct (get_uint 4294967296 0 s) as (w, s1) eqn:E1. pose proof (get_uint_left _ _ _ _ _ H E1) as H1.
  destruct (get_uint 4294967296 0 s1) as (h, s2) eqn:E2. pose proof (get_uint_left _ _ _ _ _ H1 E2) as H2. destruct (is_ok s2) eqn:K; [|intros [= <- <-]; exact H2].
  destruct (read_bytes (u32 (w * h)) (skip_char s2)) as (p, s3) eqn:E3. intros [= <- <-]. apply (read_bytes_left _ _ _ _) in E3; [exact E3|].
  unfold is_ok in K. apply negb_true_iff in K. intros F. exfalso. unfold skip_char, set_rest in F. destruct (is_rest s2); cbn [is_fail] in F; congruence.
Qed.
Lemma ignore_line_left s : something_left s -> something_left (ignore_line s).
Proof.
  intros H. unfold ignore_line. destruct (sentry true s) as (b, s1) eqn:E. destruct (sentry_left _ _ _ _ H E) as (H1 & H2). destruct b; [|exact H1]. specialize (H2 eq_refl).
  destruct (after_newline (is_rest s1)); intros F; cbn in F; rewrite ?H2 in F; cbn in F; congruence.
Qed.
Lemma ignore_lines_left n : forall s, something_left s -> something_left (ignore_lines n s).
Proof. induction n as [|n IH]; intros s H; [exact H|]. apply IH. now apply ignore_line_left. Qed.
Lemma features_left junk zsort cx bytes d s : features_of_file junk zsort cx bytes = Ok (d, s) -> is_eof s = false -> is_rest s <> [].
Proof.
  unfold features_of_file. fold (datas_body junk zsort).
  assert (G : forall fuel img d0 file, something_left file -> loop fuel (datas_body junk zsort) (img, d0, file) = Ok (d, s) -> is_eof s = false -> is_rest s <> []).
  { induction fuel as [|fuel IH]; intros img d0 file H; [discriminate|]. cbn [loop]. unfold datas_body at 1. destruct (read_img img file) as (img1, f1) eqn:E1. pose proof (read_img_left _ _ _ _ H E1) as H1.
    destruct (get_unsigned 0 f1) as (n, f2) eqn:E2. pose proof (get_uint_left _ _ _ _ _ H1 E2) as H2. destruct (is_ok f2) eqn:K.
    - destruct (datas_load junk zsort all_strategies d0 img1) as [d1| | |]; cbn [bind]; try discriminate. apply IH. apply ignore_lines_left, ignore_line_left, H2.
    - cbn [bind]. intros E Ee. assert (f2 = s) by congruence. subst f2. unfold is_ok in K. apply negb_false_iff in K. destruct (H2 K); congruence. }
  apply (G _ (mkimage 0 0 []) _ (open_stream bytes)). intros F. discriminate.
Qed.
(** In general: the table that C65 describes, or what is left of the file. *)
Theorem write_datas_table_main junk zsort cx disk prog name bytes out : disk name = Some bytes ->
  write_datas_file junk zsort cx bytes = Ok out -> match out with Some t => write_datas_main junk zsort cx disk [prog; name] = Ok (t, Exits 0)
    | None => exists t, t <> [] /\ write_datas_main junk zsort cx disk [prog; name] = Ok ([91] ++ t ++ [93; 10], Exits 5) end.
Proof.
  intros Ed. rewrite write_datas_forget. unfold write_datas_main. rewrite Ed. destruct (features_of_file _ _ _ _) as [(d, s)| | |] eqn:E0; try discriminate. cbn [bind]. intros E.
  destruct (is_eof s) eqn:Ee; [assert (out = Some (write_datas (d_cols d))) as -> by congruence; reflexivity|assert (out = None) as -> by congruence].
  pose proof (features_left _ _ _ _ _ _ E0 Ee) as L. exists (is_rest s). split; [exact L|]. unfold print_rest. destruct (is_rest s); [congruence|reflexivity].
Qed.

(** * normalize_glyphs *)
Lemma read_glyph_stray old t u : stray t u -> exists s, read_glyph old (open_stream t) = Ok (old, s) /\ is_eof s = false /\ is_fail s = true.
Proof.
  intros Ht. destruct (read_img_stray (gl_img old) t u Ht) as (s & E & Ee & Ef & _). unfold read_glyph, open_stream. rewrite E. unfold is_ok. rewrite Ef. cbn [negb]. exists s. destruct old. auto.
Qed.
Lemma read_glyphs_tail (P : istream -> Prop) gs t : Forall storable gs ->
  (forall old p, Forall blank p -> exists s, read_glyph old (open_stream (p ++ t)) = Ok (old, s) /\ is_fail s = true /\ P s) ->
  exists s, read_glyphs (open_stream (write_glyphs gs ++ t)) = Ok (gs, s) /\ P s.
Proof.
  intros Hgs H0. unfold read_glyphs. cbn [open_stream is_rest].
  match goal with |- exists s, loop ?n ?b _ = _ /\ _ => set (body := b); set (fuel := n) end.
  assert (Hfuel : (List.length gs < fuel)%nat) by (pose proof (glyphs_length gs); unfold fuel; rewrite app_length; lia). clearbody fuel.
  assert (G : forall rest done fuel old p, gs = done ++ rest -> Forall blank p -> (List.length rest < fuel)%nat ->
    exists s, loop fuel body (old, done, open_stream (p ++ write_glyphs rest ++ t)) = Ok (gs, s) /\ P s).
  { clear fuel Hfuel. induction rest as [|g rest IH]; intros done fuel old p E Hp Hf; (destruct fuel as [|fuel]; [lia|]); cbn [loop]; unfold body at 1.
    - change (write_glyphs [] ++ t) with t. destruct (H0 (mkglyph (mkimage 0 0 []) old) p Hp) as (s & -> & Hs & HP).
      cbn [bind]. unfold is_ok. rewrite Hs. cbn [negb]. exists s. rewrite app_nil_r in E. subst done. split; [reflexivity|exact HP].
    - change (write_glyphs (g :: rest)) with (write_glyph g ++ write_glyphs rest). rewrite <- app_assoc.
      assert (Hg : storable g) by (rewrite Forall_forall in Hgs; apply Hgs; rewrite E; apply in_or_app; right; left; reflexivity).
      unfold open_stream. rewrite read_glyph_written by (assumption || now apply blanks_spaces). cbn [bind is_ok is_fail negb].
      apply (IH (done ++ [g]) fuel _ [10]); [rewrite <- app_assoc; exact E|constructor; [right; lia|constructor]|cbn [List.length] in Hf; lia]. }
  exact (G gs [] fuel [] [] eq_refl (Forall_nil _) Hfuel).
Qed.
Lemma read_good gs file : glyph_file file gs -> exists f s, file = Some f /\ read_glyphs (open_stream f) = Ok (gs, s) /\ is_eof s = true.
Proof.
  intros (t & -> & Hs & Ht). destruct (read_glyphs_tail (fun s => is_eof s = true) gs t Hs) as (s & E & Es); [|exists (write_glyphs gs ++ t), s; auto].
  intros old p Hp. destruct (read_glyph_end old (p ++ t)) as (s & E & A & B); [apply blanks_spaces, Forall_app; auto|]. exists s. auto.
Qed.
Lemma read_spoilt gs u file : spoilt_file file gs u -> exists f s, file = Some f /\ read_glyphs (open_stream f) = Ok (gs, s) /\ is_eof s = false.
Proof.
  intros (t & -> & Hs & Ht). destruct (read_glyphs_tail (fun s => is_eof s = false) gs t Hs) as (s & E & Es); [|exists (write_glyphs gs ++ t), s; auto].
  intros old p Hp. destruct (read_glyph_stray old (p ++ t) u (stray_blanks p t u Hp Ht)) as (s & E & A & B). exists s. auto.
Qed.
Lemma read_named disk names gss : Forall2 (fun n gs => glyph_file (disk n) gs) names gss -> forall gs rest, read_named_files disk (names ++ rest) gs = read_named_files disk rest (gs ++ List.concat gss).
Proof.
  induction 1 as [|n l names gss H _ IH]; intros gs rest; [cbn [app List.concat]; now rewrite app_nil_r|]. cbn [app read_named_files List.concat]. destruct (read_good l (disk n) H) as (f & s & -> & -> & Es). cbn [bind].
  rewrite Es, IH, <- app_assoc. reflexivity.
Qed.
Section Normalize.
Context (sort : list glyph -> list glyph) (sort_views : list view -> list view).
Theorem normalize_good disk prog names gss : names <> [] -> Forall2 (fun n gs => glyph_file (disk n) gs) names gss -> is_std_sort glyph_less sort -> is_std_sort view_less sort_views ->
  Z.of_nat (List.length (flat_map gl_views (List.concat gss))) < 4294967296 ->
  exists out, normalize_main sort sort_views disk (prog :: names) = Ok (write_glyphs out, Exits 0) /\ Forall storable out /\ increasing_images out /\
    (forall img, has_image out img <-> has_image (List.concat gss) img) /\ (forall img v, labelled out img v <-> labelled (List.concat gss) img v).
Proof.
  intros Hn F H1 H2 HB. assert (Hs : Forall (Forall storable) gss) by (clear - F; induction F as [|n l names gss (t & _ & H & _) _ IH]; constructor; assumption).
  destruct (normalize_files_ok sort sort_views gss H1 H2 Hs HB) as (bytes & out & E & _ & So & Hi & Him & Hl & -> & _).
  exists out. split; [|auto]. unfold normalize_files in E. rewrite (read_glyph_files_written gss Hs []) in E. cbn [bind app] in E. unfold normalize_main. destruct names as [|n names]; [congruence|].
  rewrite <- (app_nil_r (n :: names)), (read_named disk _ gss F [] []). cbn [read_named_files app bind].
  destruct (normalize sort sort_views (List.concat gss)) as [o| | |]; try discriminate. cbn [bind] in *. congruence.
Qed.
(** The first file that cannot be opened or read ends the program. *)
Theorem normalize_missing disk prog before n after gss : Forall2 (fun n gs => glyph_file (disk n) gs) before gss -> disk n = None ->
  normalize_main sort sort_views disk (prog :: before ++ n :: after) = Ok ([], Exits 2).
Proof.
  intros F E. unfold normalize_main. assert (R : read_named_files disk (before ++ n :: after) [] = Ok (inr 2)) by (rewrite (read_named disk _ gss F); cbn [read_named_files]; now rewrite E).
  destruct before as [|b before]; cbn [app] in *; rewrite R; reflexivity.
Qed.
Theorem normalize_spoilt disk prog before n after gss gs u : Forall2 (fun n gs => glyph_file (disk n) gs) before gss -> spoilt_file (disk n) gs u ->
  normalize_main sort sort_views disk (prog :: before ++ n :: after) = Ok ([], Exits 5).
Proof.
  intros F E. unfold normalize_main. assert (R : read_named_files disk (before ++ n :: after) [] = Ok (inr 5)).
  { rewrite (read_named disk _ gss F). cbn [read_named_files]. destruct (read_spoilt gs u _ E) as (f & s & -> & -> & Es). cbn [bind]. now rewrite Es. }
  destruct before as [|b before]; cbn [app] in *; rewrite R; reflexivity.
Qed.
End Normalize.

(** * make_trie_dictionary *)
Theorem dictionary_runs sort disk prog names out : names <> [] -> dictionary_of_files sort (map disk names) = Ok out -> dictionary_main sort disk (prog :: names) = Ok (out, Exits 0).
Proof. intros Hn E. destruct names as [|n names]; [congruence|]. unfold dictionary_main. now rewrite E. Qed.
(** Without any file that can be opened it ends well, and prints nothing. *)
Theorem dictionary_silent sort disk prog names : is_std_sort (list_ltb Z.ltb) sort -> names <> [] -> (forall n, In n names -> disk n = None) ->
  dictionary_main sort disk (prog :: names) = Ok ([], Exits 0).
Proof.
  intros Hs Hn H. apply dictionary_runs; [exact Hn|]. rewrite (dictionary_none sort (map disk names)); [|intros f Hf; apply in_map_iff in Hf as (n & <- & Hf); auto].
  assert (E : sort [] = []) by (destruct (Hs []) as (P & _); [split; [intros a []|split; intros a b c []]|apply Permutation_nil; exact P]). unfold dictionary_of_files, make_dictionary. cbn. rewrite E. reflexivity.
Qed.

(** * The number of arguments *)
Theorem programs_usage : (forall junk zsort cx disk prog args, List.length args <> 1%nat -> write_datas_main junk zsort cx disk (prog :: args) = Ok ([], Exits 1)) /\
  (forall sort sort_views disk prog, normalize_main sort sort_views disk [prog] = Ok ([], Exits 1)) /\ (forall sort disk prog, dictionary_main sort disk [prog] = Ok ([], Exits 1)).
Proof. split; [|split; reflexivity]. intros junk zsort cx disk prog args H. destruct args as [|a [|b args]]; cbn in H; try congruence; reflexivity. Qed.
Theorem write_datas_missing junk zsort cx disk prog name : disk name = None -> write_datas_main junk zsort cx disk [prog; name] = Ok ([], Exits 2).
Proof. intros E. unfold write_datas_main. now rewrite E. Qed.
