(** Reading the glyphs of a file of any bytes. *)
From Verif Require Import Base BaseProofs ProofTools ImageModel TrieModel TrieProofs StreamModel StreamProofs GlyphIoModel GlyphIoSpec GlyphIoProofs RefuseSpec RefuseProofs GlyphFileSpec GlyphFileProofs GlyphTextSpec
  SortModel StratModel ZoneModel DatasModel DatasIoModel GlyphsModel NormModel NormSpec LearnModel LearnProofs ShowModel ProgModel.

Lemma get_word_old old s : snd (get_word old s) = snd (get_word [] s) /\ (is_fail (snd (get_word [] s)) = false -> get_word old s = get_word [] s).
Proof.
  unfold get_word. destruct (sentry false s) as [ok s'] eqn:E. destruct ok; [destruct (span_word (is_rest s')); auto|]. split; [reflexivity|]. cbn [snd]. intros F. exfalso.
  unfold sentry in E. destruct (is_eof s || is_fail s); [injection E as <-; cbn in F; rewrite orb_true_r in F; discriminate F|].
  destruct (negb false && is_skipws s); [|discriminate E]. destruct (null (drop_spaces (is_rest s))); [|discriminate E]. injection E as <-. cbn in F. rewrite orb_true_r in F. discriminate F.
Qed.
Lemma get_unsigned_old old s : snd (get_unsigned old s) = snd (get_unsigned 0 s) /\ (is_fail (snd (get_unsigned 0 s)) = false -> get_unsigned old s = get_unsigned 0 s).
Proof.
  unfold get_unsigned, get_uint. destruct (sentry false s) as [ok s'] eqn:E. destruct ok; [destruct (span_int (is_rest s')) as [[neg ds] r]; auto|]. split; [reflexivity|]. cbn [snd]. intros F. exfalso.
  unfold sentry in E. destruct (is_eof s || is_fail s); [injection E as <-; cbn in F; rewrite orb_true_r in F; discriminate F|].
  destruct (negb false && is_skipws s); [|discriminate E]. destruct (null (drop_spaces (is_rest s))); [|discriminate E]. injection E as <-. cbn in F. rewrite orb_true_r in F. discriminate F.
Qed.
(** A stream that has failed. *)
Definition dead (s : istream) (b : bool) : Prop := is_fail s = true /\ is_eof s = b.
Lemma dead_word old s b : dead s b -> dead (snd (get_word old s)) b.
Proof. intros [F E]. unfold get_word. rewrite sentry_bad by (rewrite F; apply orb_true_r). cbn [snd]. split; [apply set_state_fail|]. cbn. rewrite E. apply orb_false_r. Qed.
Lemma dead_unsigned old s b : dead s b -> dead (snd (get_unsigned old s)) b.
Proof. intros [F E]. unfold get_unsigned, get_uint. rewrite sentry_bad by (rewrite F; apply orb_true_r). cbn [snd]. split; [apply set_state_fail|]. cbn. rewrite E. apply orb_false_r. Qed.
Lemma null_ended (r : list Z) : ended_at r (null r).
Proof. intros X. destruct r; [reflexivity|discriminate X]. Qed.

Lemma word_run t w r b old : starts_word t w r -> ended_at t b -> get_word old (on t b) = (w, on r (null r)).
Proof.
  intros (p & Hp & Hw & -> & Sr) He. assert (b = false) as ->.
  { destruct b; [|reflexivity]. specialize (He eq_refl). apply app_eq_nil in He. destruct He as [_ He]. apply app_eq_nil in He. destruct (proj1 Hw (proj1 He)). }
  apply plain_iff in Hw. apply get_word_written; [apply blank_spaces, Hp|apply Hw|apply Hw|exact Sr].
Qed.
Lemma blank_run t b old : blank t -> ended_at t b -> exists w s, get_word old (on t b) = (w, s) /\ dead s true.
Proof.
  intros Hb He. destruct b.
  - rewrite (He eq_refl). eexists. eexists. split; [reflexivity|]. split; reflexivity.
  - unfold get_word. rewrite (sentry_spaces t) by (apply blank_spaces, Hb). eexists. eexists. split; [reflexivity|]. split; reflexivity.
Qed.
Lemma word_cases t : (exists w r, starts_word t w r) \/ blank t.
Proof.
  destruct (get_word_cases t false ltac:(intros X; discriminate X)) as [(p & w & r & H1 & H2 & H3 & H4 & _)|[H _]]; [left; exists w, r, p; auto|right; exact H].
Qed.
Lemma number_run' t n r b old : starts_number t n r -> ended_at t b -> get_unsigned old (on t b) = (n, on r (null r)).
Proof. intros H He. destruct (number_run _ _ _ _ H He) as [_ E]. rewrite (proj2 (get_unsigned_old old _)); [exact E|rewrite E; reflexivity]. Qed.
Lemma stop_run t e b old : stops_number t e -> ended_at t b -> exists v s, get_unsigned old (on t b) = (v, s) /\ dead s e.
Proof.
  intros [N K] He. destruct (number_cases t b He) as [(n & r & H)|[_ (v & s & E & F & K')]]; [destruct (N _ _ H)|].
  destruct (get_unsigned old (on t b)) as [v' s'] eqn:E'. exists v', s'. split; [reflexivity|].
  assert (s' = s) as -> by (pose proof (proj1 (get_unsigned_old old (on t b))) as X; rewrite E', E in X; exact X).
  split; [exact F|]. rewrite <- K' in K. destruct e, (is_eof s); try reflexivity; [apply (proj1 K); reflexivity|symmetry; apply (proj2 K); reflexivity].
Qed.
Lemma number_cases' t : (exists n r, starts_number t n r) \/ exists b, stops_number t b.
Proof.
  destruct (number_cases t false ltac:(intros X; discriminate X)) as [H|[N (v & s & _ & _ & K)]]; [left; exact H|right]. exists (is_eof s). split; assumption.
Qed.

(** * Labels *)
Lemma view_run t v r b old : starts_view t v r -> ended_at t b -> read_view old (on t b) = (v, on r (null r)).
Proof.
  intros (r1 & r2 & H1 & H2 & H3) He. unfold read_view. rewrite (word_run _ _ _ _ _ H1 He), (word_run _ _ _ _ _ H2 (null_ended _)), (number_run' _ _ _ _ _ H3 (null_ended _)). destruct v; reflexivity.
Qed.
Lemma view_stop_run t e b old : stops_view t e -> ended_at t b -> exists v s, read_view old (on t b) = (v, s) /\ dead s e.
Proof.
  intros H He. unfold read_view.
  assert (D : forall s, dead s e -> dead (snd (get_unsigned (vw_line old) (snd (get_word (vw_font old) s)))) e) by (intros s D; apply dead_unsigned, dead_word, D).
  destruct H as [[H ->]|[(w & r1 & H1 & H2 & ->)|(w & r1 & f & r2 & H1 & H2 & H3)]].
  - destruct (blank_run t b (vw_word old) H He) as (w & s & -> & X). specialize (D s X). destruct (get_word (vw_font old) s) as [f s2]. cbn [snd] in D. destruct (get_unsigned (vw_line old) s2) as [l s3]. eauto.
  - rewrite (word_run _ _ _ _ _ H1 He). destruct (blank_run r1 _ (vw_font old) H2 (null_ended _)) as (f & s & -> & X). apply (dead_unsigned (vw_line old)) in X. destruct (get_unsigned (vw_line old) s) as [l s3]. eauto.
  - rewrite (word_run _ _ _ _ _ H1 He), (word_run _ _ _ _ _ H2 (null_ended _)). destruct (stop_run r2 e _ (vw_line old) H3 (null_ended _)) as (l & s & -> & X). eauto.
Qed.
Lemma view_cases t : (exists v r, starts_view t v r) \/ exists b, stops_view t b.
Proof.
  destruct (word_cases t) as [(w & r1 & H1)|H]; [|right; exists true; left; auto]. destruct (word_cases r1) as [(f & r2 & H2)|H]; [|right; exists true; right; left; eauto].
  destruct (number_cases' r2) as [(l & r & H3)|[b H3]]; [left; exists (mkview w f l), r, r1, r2; auto|right; exists b; right; right; exists w, r1, f, r2; auto].
Qed.
Lemma word_shorter t w r : starts_word t w r -> (List.length r < List.length t)%nat.
Proof. intros (p & _ & [N _] & -> & _). rewrite !app_length. destruct w; [congruence|]. cbn [List.length]. lia. Qed.
Lemma view_shorter t v r : starts_view t v r -> (List.length r < List.length t)%nat.
Proof. intros (r1 & r2 & H1 & H2 & H3). apply word_shorter in H1, H2. apply number_length in H3. lia. Qed.
Lemma views_cases : forall k t n, (List.length t <= k)%nat -> 0 <= n -> (exists vs r, views_in n t vs r) \/ exists b, views_stop n t b.
Proof.
  induction k as [|k IH]; intros t n L Hn; (destruct (Z.eq_dec n 0) as [->|Nz]; [left; exists [], t; constructor|]);
    (destruct (view_cases t) as [(v & r & H)|[b H]]; [|right; exists b; constructor; [lia|exact H]]); pose proof (view_shorter _ _ _ H).
  - lia.
  - replace n with (n - 1 + 1) by lia. destruct (IH r (n - 1)) as [(vs & r' & H')|[b H']]; [lia|lia| |].
    + left. exists (v :: vs), r'. econstructor; [lia|exact H|exact H'].
    + right. exists b. econstructor; [lia|exact H|exact H'].
Qed.
Lemma views_shorter n t vs r : views_in n t vs r -> (List.length r + List.length vs <= List.length t)%nat.
Proof. induction 1 as [t|n t v r vs r' Hn Hv H IH]; [cbn; lia|]. apply view_shorter in Hv. cbn [List.length]. lia. Qed.

Lemma views_body_run n vs0 t vs r : views_in n t vs r -> forall k i old b fuel, i + n = k -> ended_at t b -> (List.length vs < fuel)%nat ->
  exists b', ended_at r b' /\
  loop fuel (fun st : Z * list view * istream =>
    let '(i, vs, s) := st in
    if i <? k then
      let '(v, s') := read_view (nth (Z.to_nat i) old (mkview [] [] 0)) s in
      if is_ok s' then Ok (inl (i + 1, vs ++ [v], s')) else Ok (inr (vs, s'))
    else Ok (inr (vs, s))) (i, vs0, on t b) = Ok (vs0 ++ vs, on r b').
Proof.
  intros H. revert vs0. induction H as [t|n t v r vs r' Hn Hv H IH]; intros vs0 k i old b fuel Ei He Hf; (destruct fuel as [|fuel]; [inversion Hf|]); cbn [loop].
  - rewrite (proj2 (Z.ltb_ge i k)) by lia. cbn [bind]. rewrite app_nil_r. exists b. split; [exact He|reflexivity].
  - rewrite (proj2 (Z.ltb_lt i k)) by lia. rewrite (view_run _ _ _ _ _ Hv He). cbn [is_ok is_fail negb bind]. cbn [List.length] in Hf.
    destruct (IH (vs0 ++ [v]) k (i + 1) old (null r) fuel) as (b' & Hb' & L); [lia|apply null_ended|lia|]. exists b'. split; [exact Hb'|]. rewrite L, <- app_assoc. reflexivity.
Qed.
Lemma views_stop_run n t e : views_stop n t e -> forall vs0 k i old b fuel, i + n = k -> ended_at t b -> (List.length t < fuel)%nat ->
  exists vs s, dead s e /\
  loop fuel (fun st : Z * list view * istream =>
    let '(i, vs, s) := st in
    if i <? k then
      let '(v, s') := read_view (nth (Z.to_nat i) old (mkview [] [] 0)) s in
      if is_ok s' then Ok (inl (i + 1, vs ++ [v], s')) else Ok (inr (vs, s'))
    else Ok (inr (vs, s))) (i, vs0, on t b) = Ok (vs, s).
Proof.
  induction 1 as [n t e Hn Hv|n t v r e Hn Hv H IH]; intros vs0 k i old b fuel Ei He Hf; (destruct fuel as [|fuel]; [inversion Hf|]); cbn [loop]; rewrite (proj2 (Z.ltb_lt i k)) by lia.
  - destruct (view_stop_run t e b (nth (Z.to_nat i) old (mkview [] [] 0)) Hv He) as (v & s & -> & [D1 D2]). unfold is_ok. rewrite D1. cbn [negb bind]. exists vs0, s. split; [split; assumption|reflexivity].
  - rewrite (view_run _ _ _ _ _ Hv He). cbn [is_ok is_fail negb bind]. apply view_shorter in Hv. apply IH; [lia|apply null_ended|lia].
Qed.
Lemma views_stop_pos n t e : views_stop n t e -> 0 < n.
Proof. induction 1; lia. Qed.

(** * Pictures *)
Lemma split_at_app p r : split_at (Z.of_nat (List.length p)) (p ++ r) = (p, r).
Proof.
  induction p as [|c p IH]; [destruct r; reflexivity|]. cbn [app List.length split_at]. rewrite (proj2 (Z.leb_gt _ _)) by lia.
  replace (Z.of_nat (Datatypes.S (List.length p)) - 1) with (Z.of_nat (List.length p)) by lia. rewrite IH. reflexivity.
Qed.
Lemma split_at_short : forall l n, Z.of_nat (List.length l) < n -> split_at n l = (l, []).
Proof.
  induction l as [|c l IH]; intros n H; [reflexivity|]. cbn [split_at List.length] in *. rewrite (proj2 (Z.leb_gt _ _)) by lia. rewrite IH by lia. reflexivity.
Qed.
Lemma img_run t img r b old : starts_img t img r -> ended_at t b -> read_img old (on t b) = (img, on r false).
Proof.
  intros (r1 & c & H1 & H2 & H3) He. unfold read_img, read_bounds. rewrite (number_run' _ _ _ _ _ H1 He), (number_run' _ _ _ _ _ H2 (null_ended _)).
  cbn [is_ok is_fail negb null]. unfold skip_char. cbn [is_rest]. unfold set_rest. cbn [is_eof is_fail is_skipws].
  unfold read_bytes, sentry. cbn [is_eof is_fail is_rest orb negb andb]. unfold u32. rewrite <- H3, split_at_app.
  rewrite Z.ltb_irrefl. destruct img; reflexivity.
Qed.
Lemma img_stop_run t e b old : stops_img t e -> ended_at t b -> exists img s, read_img old (on t b) = (img, s) /\ dead s e.
Proof.
  intros H He. unfold read_img, read_bounds. destruct H as [H|[(w & r1 & H1 & H2)|[(w & h & r1 & H1 & H2 & ->)|(w & h & r1 & c & x & H1 & H2 & H3 & ->)]]].
  - destruct (stop_run t e b 0 H He) as (v & s & -> & D). apply (dead_unsigned 0) in D. destruct (get_unsigned 0 s) as [h s2]. cbn [snd] in D. unfold is_ok. rewrite (proj1 D). cbn [negb]. eauto.
  - rewrite (number_run' _ _ _ _ _ H1 He). destruct (stop_run r1 e _ 0 H2 (null_ended _)) as (v & s & -> & D). unfold is_ok. rewrite (proj1 D). cbn [negb]. eauto.
  - rewrite (number_run' _ _ _ _ _ H1 He), (number_run' _ _ _ _ _ H2 (null_ended _)). cbn [is_ok is_fail negb null]. unfold skip_char. cbn [is_rest].
    unfold read_bytes, sentry. cbn [is_eof is_fail orb]. eexists. eexists. split; [reflexivity|]. split; reflexivity.
  - rewrite (number_run' _ _ _ _ _ H1 He), (number_run' _ _ _ _ _ H2 (null_ended _)). cbn [is_ok is_fail negb null]. unfold skip_char. cbn [is_rest]. unfold set_rest. cbn [is_eof is_fail is_skipws].
    unfold read_bytes, sentry. cbn [is_eof is_fail is_rest orb negb andb]. unfold u32. rewrite split_at_short by exact H3. rewrite (proj2 (Z.ltb_lt _ _) H3). eexists. eexists. split; [reflexivity|]. split; reflexivity.
Qed.
Lemma split_length (x : list Z) n : 0 <= n <= Z.of_nat (List.length x) -> exists p r, x = p ++ r /\ Z.of_nat (List.length p) = n.
Proof.
  intros H. exists (firstn (Z.to_nat n) x), (skipn (Z.to_nat n) x). split; [symmetry; apply firstn_skipn|]. rewrite firstn_length. lia.
Qed.
Lemma img_cases t : (exists img r, starts_img t img r) \/ exists b, stops_img t b.
Proof.
  destruct (number_cases' t) as [(w & r1 & H1)|[b H]]; [|right; exists b; left; exact H]. destruct (number_cases' r1) as [(h & r2 & H2)|[b H]]; [|right; exists b; right; left; eauto].
  destruct r2 as [|c x]; [right; exists true; right; right; left; exists w, h, r1; auto|]. destruct (Z.ltb_spec (Z.of_nat (List.length x)) ((w * h) mod 4294967296)) as [L|L].
  - right. exists true. right. right. right. exists w, h, r1, c, x. auto.
  - left. destruct (split_length x ((w * h) mod 4294967296)) as (p & r & -> & Hp); [split; [apply Z.mod_pos_bound; lia|exact L]|]. exists (mkimage w h p), r, r1, c. cbn [iw ih idata]. auto.
Qed.
Lemma img_shorter t img r : starts_img t img r -> (List.length r < List.length t)%nat.
Proof. intros (r1 & c & H1 & H2 & _). apply number_length in H1, H2. cbn [List.length] in H2. rewrite app_length in H2. lia. Qed.

(** * Glyphs *)
Lemma glyphs_text_exist : forall k t, (List.length t <= k)%nat -> exists gs b, glyphs_text t gs b.
Proof.
  assert (St : forall t, (exists gs b, glyphs_text t gs b) \/ exists img r n r1 vs r2, starts_img t img r /\ starts_number r n r1 /\ views_in n r1 vs r2).
  { intros t. destruct (img_cases t) as [(img & r & H1)|[b H]]; [|left; exists [], b; apply gt_end, H].
    destruct (number_cases' r) as [(n & r1 & H2)|[b H]]; [|left; exists [], b; eapply gt_cut; eassumption].
    destruct (views_cases (List.length r1) r1 n (le_n _) (number_range _ _ _ H2)) as [(vs & r2 & H3)|[b H]]; [right; exists img, r, n, r1, vs, r2; auto|left; exists [], b; eapply gt_labels; eassumption]. }
  induction k as [|k IH]; intros t L; (destruct (St t) as [E|(img & r & n & r1 & vs & r2 & H1 & H2 & H3)]; [exact E|]);
    pose proof (img_shorter _ _ _ H1); pose proof (number_length _ _ _ H2); pose proof (views_shorter _ _ _ _ H3).
  - lia.
  - destruct (IH r2) as (gs & b & HG); [lia|]. exists (mkglyph img vs :: gs), b. econstructor; eassumption.
Qed.
Lemma glyphs_text_length t gs b : glyphs_text t gs b -> (List.length gs <= List.length t)%nat.
Proof.
  induction 1 as [t b H|t img r b H1 H2|t img r n r1 b H1 H2 H3|t img r n r1 vs r2 gs b H1 H2 H3 H IH]; cbn [List.length]; try lia.
  apply img_shorter in H1. apply number_length in H2. apply views_shorter in H3. lia.
Qed.

Lemma read_glyphs_any text gs b : glyphs_text text gs b -> exists s, read_glyphs (open_stream text) = Ok (gs, s) /\ is_eof s = b.
Proof.
  intros HG. unfold read_glyphs, open_stream. match goal with |- context [loop ?x ?y _] => set (fuel := x); set (body := y) end.
  assert (Hf : (List.length gs < fuel)%nat) by (unfold fuel; cbn [is_rest]; pose proof (glyphs_text_length _ _ _ HG); lia). clearbody fuel.
  assert (M : forall t gs b, glyphs_text t gs b -> forall old done b0 fuel, ended_at t b0 -> (List.length gs < fuel)%nat ->
    exists s, loop fuel body (old, done, on t b0) = Ok (done ++ gs, s) /\ is_eof s = b).
  { clear text gs b HG fuel Hf.
    induction 1 as [t b H|t img r b H1 H2|t img r n r1 b H1 H2 H3|t img r n r1 vs r2 gs b H1 H2 H3 H IH]; intros old done b0 fuel He Hf;
      (destruct fuel as [|fuel]; [inversion Hf|]); cbn [loop]; unfold body at 1; unfold read_glyph at 1; cbn [gl_img gl_views].
    - destruct (img_stop_run t b b0 (mkimage 0 0 []) H He) as (img & s & -> & [D1 D2]). unfold is_ok at 1. rewrite D1. cbn [negb bind]. unfold is_ok. rewrite D1. cbn [negb bind]. rewrite app_nil_r. eauto.
    - rewrite (img_run _ _ _ _ _ H1 He). cbn [is_ok is_fail negb]. unfold read_views. destruct (stop_run r b false 0 H2 ltac:(intros X; discriminate X)) as (v & s & -> & [D1 D2]).
      unfold is_ok. rewrite D1. cbn [negb bind]. rewrite D1. cbn [negb bind]. rewrite app_nil_r. eauto.
    - rewrite (img_run _ _ _ _ _ H1 He). cbn [is_ok is_fail negb]. unfold read_views. rewrite (number_run' r n r1 false 0 H2 ltac:(intros X; discriminate X)). cbn [is_ok is_fail negb is_rest].
      destruct (views_stop_run n r1 b H3 [] n 0 old (null r1) (S (S (List.length r1)))) as (vs & s & [D1 D2] & L); [lia|apply null_ended|lia|].
      rewrite L. cbn [bind]. unfold is_ok. rewrite D1. cbn [negb bind]. rewrite app_nil_r. eauto.
    - rewrite (img_run _ _ _ _ _ H1 He). cbn [is_ok is_fail negb]. unfold read_views. rewrite (number_run' r n r1 false 0 H2 ltac:(intros X; discriminate X)). cbn [is_ok is_fail negb is_rest].
      pose proof (views_shorter _ _ _ _ H3).
      destruct (views_body_run n [] r1 vs r2 H3 n 0 old (null r1) (S (S (List.length r1)))) as (b' & Hb' & L); [lia|apply null_ended|lia|].
      rewrite L. cbn [bind is_ok is_fail negb gl_views app]. cbn [List.length] in Hf.
      match goal with |- context [loop fuel body (?o, ?d, _)] => destruct (IH o d b' fuel Hb' ltac:(lia)) as (s & -> & Es) end. exists s. rewrite <- app_assoc. auto. }
  destruct (M text gs b HG [] [] false fuel ltac:(intros X; discriminate X) Hf) as (s & L & Es). exists s. split; [exact L|exact Es].
Qed.

(** The images that are read. *)
Lemma glyphs_text_sizes text gs b : glyphs_text text gs b -> Forall (fun g => Z.of_nat (List.length (idata (gl_img g))) = (iw (gl_img g) * ih (gl_img g)) mod 4294967296) gs.
Proof. induction 1 as [t b H|t img r b H1 H2|t img r n r1 b H1 H2 H3|t img r n r1 vs r2 gs b H1 H2 H3 H IH]; constructor; [|exact IH]. destruct H1 as (r0 & c & _ & _ & E). exact E. Qed.

Lemma glyph_text_outcome text : exists gs b, glyphs_text text gs b /\ (forall gs' b', glyphs_text text gs' b' -> gs = gs' /\ b = b') /\
  (exists s, read_glyphs (open_stream text) = Ok (gs, s) /\ is_eof s = b) /\
  load_file read_glyphs text = (if b then Ok gs else Throw ExReadFile).
Proof.
  destruct (glyphs_text_exist _ text (le_n _)) as (gs & b & H). exists gs, b. split; [exact H|]. destruct (read_glyphs_any _ _ _ H) as (s & E & Es). split.
  - intros gs' b' H'. destruct (read_glyphs_any _ _ _ H') as (s' & E' & Es'). rewrite E in E'. injection E' as <- <-. split; [reflexivity|]. rewrite <- Es, <- Es'. reflexivity.
  - split; [eauto|]. unfold load_file. rewrite E. cbn [bind]. rewrite Es. reflexivity.
Qed.

(** * write_datas *)
Definition at_text (t : list Z) (s : istream) : Prop := (exists b, s = on t b /\ ended_at t b) \/ (dead s true /\ t = []).
Lemma dead_line s b : dead s b -> dead (ignore_line s) b.
Proof. intros [F E]. unfold ignore_line. rewrite sentry_bad by (rewrite F; apply orb_true_r). split; [apply set_state_fail|]. cbn. rewrite E. apply orb_false_r. Qed.
Lemma line_at t r s : next_line t r -> at_text t s -> at_text r (ignore_line s).
Proof.
  intros Hn H. assert (K : t = [] -> r = []) by (intros ->; apply next_line_length in Hn; destruct r; [reflexivity|cbn in Hn; lia]).
  destruct H as [(b & -> & He)|[D ->]]; [|right; split; [apply dead_line, D|apply K; reflexivity]]. destruct b.
  - right. rewrite (He eq_refl) in *. split; [split; reflexivity|apply K; reflexivity].
  - left. apply next_line_run, Hn.
Qed.
Lemma lines_at n t r : after_lines n t r -> forall s, at_text t s -> at_text r (ignore_lines (Z.to_nat n) s).
Proof.
  induction 1 as [t|n t r r' Hn Hl H IH]; intros s Hs; [exact Hs|]. replace (Z.to_nat (n + 1)) with (Datatypes.S (Z.to_nat n)) by lia. cbn [ignore_lines]. apply IH, (line_at _ _ _ Hl Hs).
Qed.
Lemma lines_shorter n t r : after_lines n t r -> (List.length r <= List.length t)%nat.
Proof. induction 1 as [t|n t r r' Hn Hl H IH]; [lia|]. apply next_line_length in Hl. lia. Qed.
Lemma lines_exist : forall n t, exists r, after_lines (Z.of_nat n) t r.
Proof.
  induction n as [|n IH]; intros t; [exists t; constructor|]. destruct (next_line_cases t) as (r & _ & Hn & _). destruct (IH r) as (r' & H). exists r'.
  replace (Z.of_nat (Datatypes.S n)) with (Z.of_nat n + 1) by lia. econstructor; [lia|exact Hn|exact H].
Qed.
Lemma dead_bounds s b : dead s b -> forall old, exists img s', read_img old s = (img, s') /\ dead s' b.
Proof.
  intros D old. unfold read_img, read_bounds. apply (dead_unsigned 0) in D. destruct (get_unsigned 0 s) as [w s1]. cbn [snd] in D. apply (dead_unsigned 0) in D. destruct (get_unsigned 0 s1) as [h s2]. cbn [snd] in D.
  unfold is_ok. rewrite (proj1 D). cbn [negb]. eauto.
Qed.
Lemma number_nil n r : ~ starts_number [] n r.
Proof. intros H. apply number_length in H. cbn in H. lia. Qed.
Lemma pictures_nil imgs b : pictures_text [] imgs b -> imgs = [] /\ b = true.
Proof.
  intros H. inversion H as [t b0 [[_ K]|[(w & r1 & H1 & _)|[(w & h & r1 & H1 & _)|(w & h & r1 & c & x & H1 & _)]]]|t img r b0 H1|t img r n r1 r2 is b0 H1]; subst; try (destruct (number_nil _ _ H1)).
  - split; [reflexivity|]. apply K. exists [], [], []. split; [intros c []|]. split; [split; [auto|intros c []]|reflexivity].
  - apply img_shorter in H1. cbn in H1. lia.
  - apply img_shorter in H1. cbn in H1. lia.
Qed.
Lemma pictures_exist : forall k t, (List.length t <= k)%nat -> exists imgs b, pictures_text t imgs b.
Proof.
  assert (St : forall t, (exists imgs b, pictures_text t imgs b) \/ exists img r n r1 r2, starts_img t img r /\ starts_number r n r1 /\ after_lines (n + 1) r1 r2).
  { intros t. destruct (img_cases t) as [(img & r & H1)|[b H]]; [|left; exists [], b; apply pt_end, H].
    destruct (number_cases' r) as [(n & r1 & H2)|[b H]]; [|left; exists [], b; eapply pt_cut; eassumption].
    pose proof (number_range _ _ _ H2). destruct (lines_exist (Z.to_nat (n + 1)) r1) as (r2 & H3). rewrite Z2Nat.id in H3 by lia. right. exists img, r, n, r1, r2. auto. }
  induction k as [|k IH]; intros t L; (destruct (St t) as [E|(img & r & n & r1 & r2 & H1 & H2 & H3)]; [exact E|]);
    pose proof (img_shorter _ _ _ H1); pose proof (number_length _ _ _ H2); pose proof (lines_shorter _ _ _ H3).
  - lia.
  - destruct (IH r2) as (gs & b & HG); [lia|]. exists (img :: gs), b. econstructor; eassumption.
Qed.
Lemma pictures_length t imgs b : pictures_text t imgs b -> (List.length imgs <= List.length t)%nat.
Proof.
  induction 1 as [t b H|t img r b H1 H2|t img r n r1 r2 imgs b H1 H2 H3 H IH]; cbn [List.length]; try lia.
  apply img_shorter in H1. apply number_length in H2. apply lines_shorter in H3. lia.
Qed.
Section Datas.
Context (junk : Z -> Z) (zsort : list Z -> list Z).
Lemma pictures_loop t imgs b : pictures_text t imgs b -> forall fuel img d s, at_text t s -> (List.length imgs < fuel)%nat ->
  ('(d', s) <- loop fuel (datas_body junk zsort) (img, d, s) ;; Ok (if is_eof s then Some (write_datas (d_cols d')) else None)) =
  (d' <- datas_load_all junk zsort all_strategies d imgs ;; Ok (if b then Some (write_datas (d_cols d')) else None)).
Proof.
  assert (DD : forall fuel img d s, dead s true -> ('(d', s) <- loop (S fuel) (datas_body junk zsort) (img, d, s) ;; Ok (if is_eof s then Some (write_datas (d_cols d')) else None)) =
    Ok (Some (write_datas (d_cols d)))).
  { intros fuel img d s D. cbn [loop]. unfold datas_body at 1. destruct (dead_bounds s true D img) as (img' & s1 & -> & D1). apply (dead_unsigned 0) in D1.
    destruct (get_unsigned 0 s1) as [n s2]. cbn [snd] in D1. unfold is_ok. rewrite (proj1 D1). cbn [negb bind]. rewrite (proj2 D1). reflexivity. }
  induction 1 as [t b H|t img0 r b H1 H2|t img0 r n r1 r2 imgs b H1 H2 H3 H IH]; intros fuel img d s Hs Hf; (destruct fuel as [|fuel]; [inversion Hf|]).
  - destruct Hs as [(b0 & -> & He)|[D ->]].
    2: { rewrite DD by exact D. destruct (pictures_nil [] b (pt_end _ _ H)) as [_ ->]. reflexivity. }
    cbn [loop]. unfold datas_body at 1. destruct (img_stop_run t b b0 img H He) as (img' & s1 & -> & D1). apply (dead_unsigned 0) in D1.
    destruct (get_unsigned 0 s1) as [n s2]. cbn [snd] in D1. unfold is_ok. rewrite (proj1 D1). cbn [negb bind]. rewrite (proj2 D1). destruct b; reflexivity.
  - destruct Hs as [(b0 & -> & He)|[D ->]]; [|apply img_shorter in H1; cbn in H1; lia].
    cbn [loop]. unfold datas_body at 1. rewrite (img_run _ _ _ _ _ H1 He). destruct (stop_run r b false 0 H2 ltac:(intros X; discriminate X)) as (v & s1 & -> & [D1 D2]).
    unfold is_ok. rewrite D1. cbn [negb bind]. rewrite D2. destruct b; reflexivity.
  - destruct Hs as [(b0 & -> & He)|[D ->]]; [|apply img_shorter in H1; cbn in H1; lia].
    cbn [loop]. unfold datas_body at 1. rewrite (img_run _ _ _ _ _ H1 He), (number_run' r n r1 false 0 H2 ltac:(intros X; discriminate X)). cbn [is_ok is_fail negb].
    cbn [datas_load_all]. destruct (datas_load junk zsort all_strategies d img0) as [d1| | |]; cbn [bind]; [|reflexivity..].
    apply IH; [|cbn [List.length] in Hf; lia].
    pose proof (number_range _ _ _ H2). assert (A : at_text r1 (on r1 (null r1))) by (left; exists (null r1); split; [reflexivity|apply null_ended]).
    pose proof (lines_at _ _ _ H3 _ A) as L. replace (Z.to_nat (n + 1)) with (Datatypes.S (Z.to_nat n)) in L by lia. exact L.
Qed.
End Datas.

(** * normalize_glyphs *)
Lemma files_read disk names r : files_text disk names r -> forall gs0, read_named_files disk names gs0 = Ok (match r with inl gs => inl (gs0 ++ gs) | inr c => inr c end).
Proof.
  induction 1 as [|n names E|n names text gs E H|n names text gs code E H _ IH|n names text gs gs' E H _ IH]; intros gs0; cbn [read_named_files].
  - rewrite app_nil_r. reflexivity.
  - rewrite E. reflexivity.
  - rewrite E. destruct (read_glyphs_any _ _ _ H) as (s & -> & Es). cbn [bind]. rewrite Es. reflexivity.
  - rewrite E. destruct (read_glyphs_any _ _ _ H) as (s & -> & Es). cbn [bind]. rewrite Es. apply IH.
  - rewrite E. destruct (read_glyphs_any _ _ _ H) as (s & -> & Es). cbn [bind]. rewrite Es. rewrite IH, <- app_assoc. reflexivity.
Qed.
Lemma files_exist disk names : exists r, files_text disk names r.
Proof.
  induction names as [|n names (r & H)]; [eexists; constructor|]. destruct (disk n) as [text|] eqn:E; [|exists (inr 2); now constructor].
  destruct (glyphs_text_exist _ text (le_n _)) as (gs & b & G). destruct b; [|exists (inr 5); eapply ft_refused; eassumption].
  destruct r as [gs'|c]; [exists (inl (gs ++ gs')); eapply ft_read; eassumption|exists (inr c); eapply ft_stop; eassumption].
Qed.

(** * Files of word lines *)
Lemma lines_four t a c m e r b old : starts_numbers t [a; c; m; e] r -> ended_at t b -> exists b', ended_at r b' /\
  read_lines old (on t b) = (mkwl (a mod 8) (c mod 8) (m mod 8) (e mod 8), on r b').
Proof.
  intros H He. inversion H as [|t1 n1 r1 ns1 r1' H1 H2]; subst. inversion H2 as [|t2 n2 r2 ns2 r2' H3 H4]; subst. inversion H4 as [|t3 n3 r3 ns3 r3' H5 H6]; subst.
  inversion H6 as [|t4 n4 r4 ns4 r4' H7 H8]; subst. inversion H8; subst. unfold read_lines.
  rewrite (number_run' _ _ _ _ _ H1 He), (number_run' _ _ _ _ _ H3 (null_ended _)), (number_run' _ _ _ _ _ H5 (null_ended _)), (number_run' _ _ _ _ _ H7 (null_ended _)).
  exists (null r). split; [apply null_ended|reflexivity].
Qed.
Fixpoint get_numbers (k : nat) (s : istream) : istream := match k with O => s | S k' => get_numbers k' (snd (get_unsigned 0 s)) end.
Lemma dead_numbers k : forall s b, dead s b -> dead (get_numbers k s) b.
Proof. induction k as [|k IH]; intros s b D; [exact D|]. cbn [get_numbers]. apply IH, dead_unsigned, D. Qed.
Lemma stops_numbers_run k t e : stops_numbers k t e -> forall b, ended_at t b -> dead (get_numbers k (on t b)) e.
Proof.
  induction 1 as [k t e H|k t n r e H1 H IH]; intros b He; cbn [get_numbers].
  - destruct (stop_run t e b 0 H He) as (v & s & -> & D). cbn [snd]. apply dead_numbers, D.
  - rewrite (number_run' _ _ _ _ _ H1 He). cbn [snd]. apply IH, null_ended.
Qed.
Lemma read_lines_numbers old s : snd (read_lines old s) = get_numbers 4 s.
Proof.
  unfold read_lines. cbn [get_numbers]. destruct (get_unsigned 0 s) as [a s1]. destruct (get_unsigned 0 s1) as [c s2] eqn:E2. destruct (get_unsigned 0 s2) as [m s3] eqn:E3. destruct (get_unsigned 0 s3) as [e s4] eqn:E4.
  cbn [snd]. rewrite E2. cbn [snd]. rewrite E3. cbn [snd]. rewrite E4. reflexivity.
Qed.
Lemma numbers_cases : forall k t, (exists ns r, starts_numbers t ns r /\ List.length ns = k /\ (List.length r <= List.length t)%nat) \/ exists b, stops_numbers k t b.
Proof.
  induction k as [|k IH]; intros t; [left; exists [], t; split; [constructor|auto]|]. destruct (number_cases' t) as [(n & r & H)|[b H]]; [|right; exists b; constructor; exact H].
  pose proof (number_length _ _ _ H). destruct (IH r) as [(ns & r' & H1 & H2 & H3)|[b H1]].
  - left. exists (n :: ns), r'. split; [econstructor; eassumption|]. cbn [List.length]. lia.
  - right. exists b. econstructor; eassumption.
Qed.
Lemma lines_text_exist : forall k t, (List.length t <= k)%nat -> exists ls b, lines_text t ls b.
Proof.
  induction k as [|k IH]; intros t L; (destruct (word_cases t) as [(w & r & H1)|H]; [|exists [], true; constructor; exact H]); pose proof (word_shorter _ _ _ H1); [lia|].
  destruct (numbers_cases 4 r) as [(ns & r' & H2 & H3 & H4)|[b H2]]; [|exists [], b; eapply lt_cut; eassumption].
  destruct (IH r') as (ls & b & HL); [lia|]. destruct (Z.leb_spec (Z.of_nat (List.length w)) 8) as [S|S].
  - destruct ns as [|a [|c [|m [|e [|x ns]]]]]; try discriminate H3. eexists. exists b. eapply lt_kept; eassumption.
  - exists ls, b. eapply lt_dropped; eassumption.
Qed.
Lemma read_lines_any text ls b : lines_text text ls b -> exists s, read_words_lines (open_stream text) = Ok (ls, s) /\ is_eof s = b.
Proof.
  intros HL. unfold read_words_lines, open_stream. cbn [is_rest]. match goal with |- context [loop _ ?y _] => set (body := y) end.
  assert (M : forall t ls b, lines_text t ls b -> forall wl done b0 fuel, ended_at t b0 -> (List.length t < fuel)%nat ->
    exists s, loop fuel body (wl, done, on t b0) = Ok (done ++ ls, s) /\ is_eof s = b).
  { clear text ls b HL.
    assert (NS : forall t ns r, starts_numbers t ns r -> (List.length r <= List.length t)%nat) by (induction 1 as [t|t n r ns r' H1 H IH]; [lia|apply number_length in H1; lia]).
    induction 1 as [t H|t w r b H1 H2|t w r a c m e r' ls b H1 H2 HS H IH|t w r ns r' ls b H1 H2 HN HS H IH]; intros wl done b0 fuel He Hf; (destruct fuel as [|fuel]; [inversion Hf|]); cbn [loop]; unfold body at 1.
    - destruct (blank_run t b0 [] H He) as (w & s & -> & D). pose proof (read_lines_numbers wl s) as R. destruct (read_lines wl s) as [wl' s']. cbn [snd] in R. subst s'.
      apply (dead_numbers 4) in D. unfold is_ok. rewrite (proj1 D). cbn [negb bind]. rewrite app_nil_r. eexists. split; [reflexivity|apply D].
    - rewrite (word_run _ _ _ _ _ H1 He). pose proof (read_lines_numbers wl (on r (null r))) as R. destruct (read_lines wl (on r (null r))) as [wl' s']. cbn [snd] in R. subst s'.
      pose proof (stops_numbers_run _ _ _ H2 _ (null_ended _)) as D. unfold is_ok. rewrite (proj1 D). cbn [negb bind]. rewrite app_nil_r. eexists. split; [reflexivity|apply D].
    - rewrite (word_run _ _ _ _ _ H1 He). destruct (lines_four _ _ _ _ _ _ _ wl H2 (null_ended _)) as (b' & Hb' & ->). cbn [is_ok is_fail negb bind]. unfold vsize. rewrite (proj2 (Z.leb_le _ _) HS).
      apply word_shorter in H1. apply NS in H2. match goal with |- context [loop fuel body (?x, ?d, _)] => destruct (IH x d b' fuel Hb' ltac:(lia)) as (s & -> & Es) end. exists s. rewrite <- app_assoc. auto.
    - rewrite (word_run _ _ _ _ _ H1 He). destruct ns as [|a [|c [|m [|e [|x ns]]]]]; try discriminate HN.
      destruct (lines_four _ _ _ _ _ _ _ wl H2 (null_ended _)) as (b' & Hb' & ->). cbn [is_ok is_fail negb bind]. unfold vsize. rewrite (proj2 (Z.leb_gt _ _) HS).
      apply word_shorter in H1. apply NS in H2. match goal with |- context [loop fuel body (?x, ?d, _)] => destruct (IH x d b' fuel Hb' ltac:(lia)) as (s & -> & Es) end. exists s. auto. }
  destruct (M text ls b HL (mkwl 0 0 0 0) [] false (S (S (List.length text))) ltac:(intros X; discriminate X) ltac:(lia)) as (s & L & Es). exists s. split; [exact L|exact Es].
Qed.
Lemma lines_outcome text : exists ls b, lines_text text ls b /\ (forall ls' b', lines_text text ls' b' -> ls = ls' /\ b = b') /\
  load_file read_words_lines text = (if b then Ok ls else Throw ExReadFile).
Proof.
  destruct (lines_text_exist _ text (le_n _)) as (ls & b & H). exists ls, b. split; [exact H|]. destruct (read_lines_any _ _ _ H) as (s & E & Es). split.
  - intros ls' b' H'. destruct (read_lines_any _ _ _ H') as (s' & E' & Es'). rewrite E in E'. injection E' as <- <-. split; [reflexivity|]. rewrite <- Es, <- Es'. reflexivity.
  - unfold load_file. rewrite E. cbn [bind]. rewrite Es. reflexivity.
Qed.

Lemma write_datas_texts text : (exists imgs b, pictures_text text imgs b) /\ forall junk zsort cx imgs b, pictures_text text imgs b ->
  write_datas_file junk zsort cx text =
  (d <- datas_load_all junk zsort all_strategies (mkdatas (repeat [] (List.length all_strategies)) cx) imgs ;; Ok (if b then Some (write_datas (d_cols d)) else None)).
Proof.
  split; [exact (pictures_exist _ text (le_n _))|]. intros junk zsort cx imgs b H. unfold write_datas_file.
  apply (pictures_loop junk zsort text imgs b H); [left; exists false; split; [reflexivity|intros X; discriminate X]|]. pose proof (pictures_length _ _ _ H). lia.
Qed.
Lemma normalize_texts disk name names : (exists r, files_text disk (name :: names) r) /\ forall r, files_text disk (name :: names) r -> forall sort sort_views prog,
  normalize_main sort sort_views disk (prog :: name :: names) =
  match r with inl gs => out <- normalize sort sort_views gs ;; Ok (write_glyphs out, Exits 0) | inr code => Ok ([], Exits code) end.
Proof.
  split; [apply files_exist|]. intros r H sort sort_views prog. unfold normalize_main. rewrite (files_read _ _ _ H []). cbn [bind app]. destruct r; reflexivity.
Qed.
