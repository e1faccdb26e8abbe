(** The outputs of the training programs do not depend on what the standard leaves open. *)
From Verif Require Import Base BaseProofs SortModel SortProofs ImageModel ImageSpec ImageProofs StratModel ZoneModel DatasModel DatasSpec DatasProofs StreamModel GlyphIoModel GlyphIoSpec GlyphsModel
  GlyphFileSpec GlyphFileProofs GlyphTextSpec GlyphTextProofs DatasIoModel DictIoModel UtfModel TrieModel TrieSpec TrieProofs NormModel NormSpec NormProofs LearnModel LearnProofs ShowModel ProgModel SameSpec SameProofs EndsProofs5.
From Coq Require Import Permutation Sorted.

(** * write_datas *)
Lemma read_full t img r : starts_img t img r -> full_image img.
Proof. intros (r1 & c & H1 & H2 & H3). apply starts_number_range in H1. apply starts_number_range in H2. split; [exact H1|]. split; [exact H2|exact H3]. Qed.
Lemma small_zonable t img r : starts_img t img r -> iw img * ih img < 1073741824 -> area img = 0 \/ zonable img.
Proof.
  intros H S. destruct (read_full _ _ _ H) as (Rw & Rh & L). unfold area, u32. rewrite Z.mod_small in * by nia. destruct (Z.eq_dec (iw img * ih img) 0) as [E|E]; [now left|right].
  unfold zonable, wf_image. repeat split; try lia; nia.
Qed.
Lemma row_sort z z' img img90 : is_std_sort Z.ltb z -> is_std_sort Z.ltb z' -> forall ss, row_alone z ss img img90 = row_alone z' ss img img90.
Proof. intros H H'. induction ss as [|s ss IH]; [reflexivity|]. cbn [row_alone]. rewrite (feature_sort z z' s img img90 H H'), IH. reflexivity. Qed.
Definition columns_only {A} (m : res (datas * A)) : res (list (list fval) * A) := '(d, s) <- m ;; Ok (d_cols d, s).
Lemma datas_load_same junk junk' z z' ss d d' img : is_std_sort Z.ltb z -> is_std_sort Z.ltb z' -> zonable img -> d_cols d = d_cols d' -> List.length (d_cols d) = List.length ss ->
  (x <- datas_load junk z ss d img ;; Ok (d_cols x)) = (x <- datas_load junk' z' ss d' img ;; Ok (d_cols x)).
Proof.
  intros H H' Zn E L. rewrite (datas_load_alone junk z ss d img Zn L), (datas_load_alone junk' z' ss d' img Zn ltac:(congruence)), <- E. unfold features_alone.
  destruct (rotate90 img) as [img90| | |]; [|reflexivity..]. cbn [bind]. now rewrite (row_sort z z' img img90 H H').
Qed.
Lemma datas_load_length junk z ss d img d1 : zonable img -> List.length (d_cols d) = List.length ss -> datas_load junk z ss d img = Ok d1 -> List.length (d_cols d1) = List.length ss.
Proof.
  intros Zn L E. pose proof (datas_load_alone junk z ss d img Zn L) as A. rewrite E in A. cbn [bind] in A. destruct (features_alone z ss img) as [row| | |] eqn:Ef; try discriminate A. cbn [bind] in A.
  assert (Ed : d_cols d1 = add_row (d_cols d) row) by congruence. rewrite Ed, add_row_length; [exact L|]. unfold features_alone in Ef.
  destruct (rotate90 img) as [img90| | |]; try discriminate Ef. cbn [bind] in Ef. rewrite L. exact (row_alone_length _ _ _ _ _ Ef).
Qed.
(** The pictures without pixels stop before the zones. *)
Definition ctx_like (cx cx' : ctxs) : Prop := forall k r, fst (cx_tb cx k r) = fst (cx_tb cx' k r) /\ (fst (cx_tb cx k r) = true -> snd (cx_tb cx k r) = snd (cx_tb cx' k r)).
Definition zone_free (s : strategy) : Prop := st_algo s <> Zone /\ st_algo s <> ProportionalityZone.
Definition like_out {A} (m m' : res (A * ctxs)) : Prop :=
  match m, m' with Ok (v, cx), Ok (v', cx') => v = v' /\ ctx_like cx cx' | Throw e, Throw e' => e = e' | UB, UB => True | NoFuel, NoFuel => True | _, _ => False end.
Definition stuck {A} (m m' : res A) : Prop := match m, m' with Throw e, Throw e' => e = e' | UB, UB => True | NoFuel, NoFuel => True | _, _ => False end.
Lemma tb_compute_like k r img cx cx' : ctx_like cx cx' -> like_out (tb_compute k r img cx) (tb_compute k r img cx').
Proof.
  intros L. unfold tb_compute. destruct (L k r) as (E1 & E2). destruct (cx_tb cx k r) as [b v], (cx_tb cx' k r) as [b' v']. cbn [fst snd] in E1, E2. subst b'. destruct b; [now split; [apply E2|]|].
  destruct (tb_fn k img) as [tb| | |]; cbn [bind like_out]; auto. split; [reflexivity|]. intros k' r'. cbn [cx_tb]. destruct (tbkind_eqb k k' && Bool.eqb r r'); [split; reflexivity|apply L].
Qed.
Lemma tb_load_like pre post k r img cx cx' : ctx_like cx cx' -> like_out (tb_load pre post k r img cx) (tb_load pre post k r img cx').
Proof.
  intros L. unfold tb_load. destruct (pre img) as [[v|a]| | |]; cbn [bind like_out]; auto. pose proof (tb_compute_like k r img cx cx' L) as C.
  destruct (tb_compute k r img cx) as [(tb, c)| | |], (tb_compute k r img cx') as [(tb', c')| | |]; cbn [bind like_out] in C |- *; auto; try contradiction.
  destruct C as (<- & C). destruct (post a tb) as [v| | |]; cbn [bind like_out]; auto.
Qed.
Lemma strategy_like junk junk' z z' s img img90 cx cx' : zone_free s -> ctx_like cx cx' -> like_out (strategy_load junk z s img img90 cx) (strategy_load junk' z' s img img90 cx').
Proof.
  intros (F1 & F2) L. unfold strategy_load.
  destruct (st_algo s); try congruence; try (apply tb_load_like; exact L);
    match goal with |- like_out (_ <- ?m ;; _) _ => destruct m as [v| | |]; cbn [bind like_out]; auto end.
Qed.
Lemma stuck_columns junk junk' z z' s post img img90 : zone_free s -> (forall cx, match strategy_load junk z s img img90 cx with Ok _ => False | _ => True end) ->
  forall pre cols cx cx', Forall zone_free pre -> ctx_like cx cx' -> (List.length pre < List.length cols)%nat ->
  stuck (load_columns junk z (pre ++ s :: post) cols img img90 cx) (load_columns junk' z' (pre ++ s :: post) cols img img90 cx').
Proof.
  intros Fs Hs. induction pre as [|p pre IH]; intros cols cx cx' F L Len; (destruct cols as [|c cols]; [cbn [List.length] in Len; lia|]); cbn [app load_columns].
  - pose proof (strategy_like junk junk' z z' s img img90 cx cx' Fs L) as O. specialize (Hs cx).
    destruct (strategy_load junk z s img img90 cx) as [(v, c1)| | |], (strategy_load junk' z' s img img90 cx') as [(v', c1')| | |]; cbn [bind like_out stuck] in *; auto; contradiction.
  - inversion F as [|? ? Fp F']; subst. pose proof (strategy_like junk junk' z z' p img img90 cx cx' Fp L) as O.
    destruct (strategy_load junk z p img img90 cx) as [(v, c1)| | |], (strategy_load junk' z' p img img90 cx') as [(v', c1')| | |]; cbn [bind like_out stuck] in *; auto; try contradiction.
    destruct O as (_ & L'). specialize (IH cols c1 c1' F' L' ltac:(cbn [List.length] in Len; lia)).
    destruct (load_columns junk z (pre ++ s :: post) cols img img90 c1) as [(cs, c2)| | |], (load_columns junk' z' (pre ++ s :: post) cols img img90 c1') as [(cs', c2')| | |]; cbn [bind stuck] in *; auto; contradiction.
Qed.
Lemma empty_density img : area img = 0 -> match density img with Ok _ => False | _ => True end.
Proof. intros E. unfold density. destruct (scan _ _ _ _ _) as [c| | |]; cbn [bind]; auto. rewrite E. exact I. Qed.
Lemma empty_load junk junk' z z' d d' img : area img = 0 -> d_cols d = d_cols d' -> List.length (d_cols d) = List.length all_strategies ->
  stuck (datas_load junk z all_strategies d img) (datas_load junk' z' all_strategies d' img).
Proof.
  intros Ea E L. unfold datas_load. rewrite <- E. destruct (rotate90 img) as [img90| | |]; cbn [bind stuck]; auto.
  assert (C : stuck (load_columns junk z all_strategies (d_cols d) img img90 (ctx_reset (d_ctx d))) (load_columns junk' z' all_strategies (d_cols d) img img90 (ctx_reset (d_ctx d')))).
  { apply (stuck_columns junk junk' z z' (mkst Density false) (complex_strategies ++ exclusive_strategies) img img90) with (pre := removelast simple_strategies).
    - split; discriminate.
    - intros cx. cbn [strategy_load st_algo st_rot]. pose proof (empty_density img Ea) as D. destruct (density img); cbn [bind]; auto.
    - repeat (constructor; [split; discriminate|]). constructor.
    - intros k r. split; [reflexivity|]. cbn. discriminate.
    - rewrite L. vm_compute. lia. }
  destruct (load_columns junk z _ _ _ _ _) as [(cs, c)| | |], (load_columns junk' z' _ _ _ _ _) as [(cs', c')| | |]; cbn [bind stuck] in *; auto; contradiction.
Qed.
Section Datas.
Context (junk junk' : Z -> Z) (z z' : list Z -> list Z) (Hz : is_std_sort Z.ltb z) (Hz' : is_std_sort Z.ltb z').
Lemma dead_loop_same fuel img d d' s : dead s true -> d_cols d = d_cols d' ->
  columns_only (loop (S fuel) (datas_body junk z) (img, d, s)) = columns_only (loop (S fuel) (datas_body junk' z') (img, d', s)).
Proof.
  intros D E. cbn [loop]. unfold datas_body at 1 3. destruct (dead_bounds s true D img) as (img' & s1 & -> & D1). apply (dead_unsigned 0) in D1.
  destruct (get_unsigned 0 s1) as [n s2]. cbn [snd] in D1. unfold is_ok. rewrite (proj1 D1). unfold columns_only. cbn [negb bind]. now rewrite E.
Qed.
Lemma pictures_loop_same t imgs b : pictures_text t imgs b -> Forall (fun img => iw img * ih img < 1073741824) imgs -> forall fuel img d d' s, at_text t s -> (List.length imgs < fuel)%nat ->
  d_cols d = d_cols d' -> List.length (d_cols d) = List.length all_strategies ->
  columns_only (loop fuel (datas_body junk z) (img, d, s)) = columns_only (loop fuel (datas_body junk' z') (img, d', s)).
Proof.
  induction 1 as [t b H|t img0 r b H1 H2|t img0 r n r1 r2 imgs b H1 H2 H3 H IH]; intros FZ fuel img d d' s Hs Hf E L; (destruct fuel as [|fuel]; [inversion Hf|]).
  - destruct Hs as [(b0 & -> & He)|[D ->]]; [|now apply dead_loop_same].
    cbn [loop]. unfold datas_body at 1 3. destruct (img_stop_run t b b0 img H He) as (img' & s1 & -> & D1). apply (dead_unsigned 0) in D1.
    destruct (get_unsigned 0 s1) as [n s2]. cbn [snd] in D1. unfold is_ok. rewrite (proj1 D1). unfold columns_only. cbn [negb bind]. now rewrite E.
  - destruct Hs as [(b0 & -> & He)|[D ->]]; [|apply img_shorter in H1; cbn in H1; lia].
    cbn [loop]. unfold datas_body at 1 3. rewrite (img_run _ _ _ _ _ H1 He). destruct (stop_run r b false 0 H2 ltac:(intros X; discriminate X)) as (v & s1 & -> & [D1 D2]).
    unfold is_ok. rewrite D1. unfold columns_only. cbn [negb bind]. now rewrite E.
  - destruct Hs as [(b0 & -> & He)|[D ->]]; [|apply img_shorter in H1; cbn in H1; lia]. inversion FZ as [|? ? Z1 FZ']; subst.
    cbn [loop]. unfold datas_body at 1 3. rewrite (img_run _ _ _ _ _ H1 He), (number_run' r n r1 false 0 H2 ltac:(intros X; discriminate X)). cbn [is_ok is_fail negb].
    destruct (small_zonable _ _ _ H1 Z1) as [Z0|Z2].
    { pose proof (empty_load junk junk' z z' d d' img0 Z0 E L) as S1. destruct (datas_load junk z all_strategies d img0) as [d1|e1| |], (datas_load junk' z' all_strategies d' img0) as [d2|e2| |];
        cbn [bind stuck] in S1 |- *; try contradiction; [now subst e2|reflexivity..]. }
    pose proof (datas_load_same junk junk' z z' all_strategies d d' img0 Hz Hz' Z2 E L) as S1.
    destruct (datas_load junk z all_strategies d img0) as [d1|e1| |] eqn:E1, (datas_load junk' z' all_strategies d' img0) as [d2|e2| |]; cbn [bind] in S1 |- *; try discriminate S1; [|injection S1 as ->; reflexivity|reflexivity..].
    apply IH; [exact FZ'| |cbn [List.length] in Hf; lia|congruence|exact (datas_load_length _ _ _ _ _ _ Z2 L E1)].
    pose proof (number_range _ _ _ H2). assert (A : at_text r1 (on r1 (null r1))) by (left; exists (null r1); split; [reflexivity|apply null_ended]).
    pose proof (lines_at _ _ _ H3 _ A) as Ln. replace (Z.to_nat (n + 1)) with (Datatypes.S (Z.to_nat n)) in Ln by lia. exact Ln.
Qed.
Lemma write_datas_same cx cx' disk prog args : small_files disk args ->
  write_datas_main junk z cx disk (prog :: args) = write_datas_main junk' z' cx' disk (prog :: args).
Proof.
  intros HF. unfold write_datas_main. destruct args as [|name [|? ?]]; [reflexivity| |reflexivity]. destruct (disk name) as [bytes|] eqn:Ed; [|reflexivity].
  destruct (HF name bytes (or_introl eq_refl) Ed) as (imgs & b & P & FZ).
  assert (E : columns_only (features_of_file junk z cx bytes) = columns_only (features_of_file junk' z' cx' bytes)).
  { apply (pictures_loop_same bytes imgs b P FZ); [left; exists false; split; [reflexivity|intros X; discriminate X]|pose proof (pictures_length _ _ _ P); lia|reflexivity|reflexivity]. }
  unfold columns_only in E. destruct (features_of_file junk z cx bytes) as [(d, s)|e| |], (features_of_file junk' z' cx' bytes) as [(d', s')|e'| |]; cbn [bind] in E |- *; try discriminate E; [|congruence|reflexivity..].
  assert (E' : d_cols d = d_cols d' /\ s = s') by (split; congruence). destruct E' as (-> & <-). reflexivity.
Qed.
End Datas.

(** * make_trie_dictionary *)
Lemma words_sort sort sort' l : is_std_sort (list_ltb Z.ltb) sort -> is_std_sort (list_ltb Z.ltb) sort' -> sort l = sort' l.
Proof.
  intros H H'. destruct (H l (list_ltb_strict_weak l)) as (P & S1). destruct (H' l (list_ltb_strict_weak l)) as (P' & S2). unfold sorted_by in *.
  apply (sorted_same (fun a b => list_ltb Z.ltb b a = false)); [|exact S1|exact S2|now rewrite <- P, <- P'].
  intros a b _ _ L1 L2. destruct (lex_total a b) as [L|[E|L]]; [|exact E|]; apply list_ltb_lex in L; congruence.
Qed.
Lemma dictionary_same sort sort' disk av : is_std_sort (list_ltb Z.ltb) sort -> is_std_sort (list_ltb Z.ltb) sort' -> dictionary_main sort disk av = dictionary_main sort' disk av.
Proof.
  intros H H'. unfold dictionary_main. destruct av as [|p [|n ns]]; [reflexivity..|].
  unfold dictionary_of_files, make_dictionary.
  assert (E : forall l, sort l = sort' l) by (intros l; now apply words_sort).
  destruct (words_of_files false (map disk (n :: ns)) []) as [words| | |]; [|reflexivity..]. cbn [bind]. destruct (map_res utf8_codes words) as [us| | |]; [|reflexivity..]. cbn [bind]. now rewrite E.
Qed.

(** * normalize_glyphs *)
Lemma glyphs_full t gs b : glyphs_text t gs b -> Forall (fun g => full_image (gl_img g)) gs.
Proof. induction 1 as [| | |t img r n r1 vs r2 gs b H1 H2 H3 _ IH]; constructor; [exact (read_full _ _ _ H1)|exact IH]. Qed.
Lemma files_full disk names r : files_text disk names r -> forall gs, r = inl gs -> Forall (fun g => full_image (gl_img g)) gs.
Proof.
  induction 1 as [|n names E|n names text gs E H|n names text gs code E H _ IH|n names text gs gs' E H _ IH]; intros l El; try discriminate El; injection El as <-; [constructor|].
  apply Forall_app. split; [exact (glyphs_full _ _ _ H)|now apply IH].
Qed.
Lemma normalize_main_same sort sort_views sort' sort_views' disk av : is_std_sort glyph_less sort -> is_std_sort view_less sort_views ->
  is_std_sort glyph_less sort' -> is_std_sort view_less sort_views' -> normalize_main sort sort_views disk av = normalize_main sort' sort_views' disk av.
Proof.
  intros H1 H2 H1' H2'. destruct av as [|prog [|name names]]; [reflexivity..|]. destruct (normalize_texts disk name names) as ((r & Hr) & E). rewrite !(E r Hr).
  destruct r as [glyphs|code]; [|reflexivity]. pose proof (files_full _ _ _ Hr glyphs eq_refl) as W. rewrite (normalize_same sort' sort_views' sort sort_views glyphs glyphs); auto.
Qed.
