(** Normalising a list of glyphs. *)
From Verif Require Import Base BaseProofs SortModel SortProofs ImageModel ImageSpec ImageProofs DatasModel GlyphIoModel TrieModel TrieSpec TrieProofs FlatTrieProofs DictionaryProofs NormModel NormSpec.
From Coq Require Import Sorted Permutation.

Lemma total_strict_weak {A} (lt : A -> A -> bool) l : (forall a, lt a a = false) -> (forall a b c, lt a b = true -> lt b c = true -> lt a c = true) ->
  (forall a b, In a l -> In b l -> lt a b = false -> lt b a = false -> a = b) -> strict_weak lt l.
Proof.
  intros I T E. split; [|split]; [intros; apply I|intros a b c _ _ _; apply T|]. intros a b c Ha Hb Hc H1 H2. destruct (lt a c) eqn:H3; [|reflexivity].
  destruct (lt b a) eqn:H4; [rewrite (T b a c H4 H3) in H2; discriminate H2|]. rewrite (E a b Ha Hb H1 H4) in H3. congruence.
Qed.

(** * Views *)
Lemma list_ltb_false_eq a b : list_ltb Z.ltb a b = false -> list_ltb Z.ltb b a = false -> a = b.
Proof. intros H1 H2. destruct (lex_total a b) as [L|[E|L]]; [|exact E|]; apply list_ltb_lex in L; congruence. Qed.
Lemma list_ltb_irrefl a : list_ltb Z.ltb a a = false.
Proof. destruct (list_ltb_strict_weak [a]) as [I _]. apply I. left. reflexivity. Qed.
Lemma list_ltb_trans a b c : list_ltb Z.ltb a b = true -> list_ltb Z.ltb b c = true -> list_ltb Z.ltb a c = true.
Proof. rewrite !list_ltb_lex. apply lex_trans. Qed.
Lemma view_less_iff a b : view_less a b = true <-> label_before a b.
Proof.
  unfold view_less, label_before.
  assert (NL : forall x y, lex_lt x y -> lex_lt y x -> False).
  { intros x y H1 H2. apply list_ltb_lex in H1, H2. pose proof (list_ltb_trans x y x H1 H2). rewrite list_ltb_irrefl in H. discriminate H. }
  assert (IR : forall x, lex_lt x x -> False) by (intros x H; exact (NL x x H H)).
  destruct (list_ltb Z.ltb (vw_word a) (vw_word b)) eqn:E1; [apply list_ltb_lex in E1; tauto|].
  assert (N1 : ~ lex_lt (vw_word a) (vw_word b)) by (rewrite <- list_ltb_lex; congruence).
  destruct (list_ltb Z.ltb (vw_word b) (vw_word a)) eqn:E2.
  { apply list_ltb_lex in E2. split; [discriminate|]. intros [H|[H _]]; [tauto|rewrite H in E2; destruct (IR _ E2)]. }
  pose proof (list_ltb_false_eq _ _ E1 E2) as Ew.
  destruct (list_ltb Z.ltb (vw_font a) (vw_font b)) eqn:E3; [apply list_ltb_lex in E3; tauto|].
  assert (N3 : ~ lex_lt (vw_font a) (vw_font b)) by (rewrite <- list_ltb_lex; congruence).
  destruct (list_ltb Z.ltb (vw_font b) (vw_font a)) eqn:E4.
  { apply list_ltb_lex in E4. split; [discriminate|]. intros [H|[_ [H|[H _]]]]; try tauto. rewrite H in E4. destruct (IR _ E4). }
  pose proof (list_ltb_false_eq _ _ E3 E4) as Ef. rewrite Z.ltb_lt. tauto.
Qed.
Lemma view_less_strict_weak l : strict_weak view_less l.
Proof.
  assert (IR : forall x, lex_lt x x -> False) by (intros x H; apply list_ltb_lex in H; rewrite list_ltb_irrefl in H; discriminate H).
  apply total_strict_weak.
  - intros a. destruct (view_less a a) eqn:E; [|reflexivity]. apply view_less_iff in E. destruct E as [E|[_ [E|[_ E]]]]; [destruct (IR _ E)|destruct (IR _ E)|lia].
  - intros a b c H1 H2. apply view_less_iff in H1, H2. apply view_less_iff. unfold label_before in *.
    destruct H1 as [H1|[W1 [H1|[F1 H1]]]], H2 as [H2|[W2 [H2|[F2 H2]]]]; rewrite ?W1, ?F1 in *; rewrite ?W2, ?F2 in *; try tauto;
      try (left; eapply lex_trans; eassumption); try (right; split; [reflexivity|]; left; eapply lex_trans; eassumption).
    right. split; [reflexivity|]. right. split; [reflexivity|lia].
  - intros a b _ _ H1 H2. destruct a as [w f n], b as [w' f' n']. unfold view_less in *. cbn [vw_word vw_font vw_line] in *.
    destruct (list_ltb Z.ltb w w') eqn:E1, (list_ltb Z.ltb w' w) eqn:E2; try discriminate.
    destruct (list_ltb Z.ltb f f') eqn:E3, (list_ltb Z.ltb f' f) eqn:E4; try discriminate.
    rewrite (list_ltb_false_eq _ _ E1 E2), (list_ltb_false_eq _ _ E3 E4). f_equal. lia.
Qed.
Lemma view_eqb_eq a b : view_eqb a b = true <-> a = b.
Proof.
  unfold view_eqb. rewrite !andb_true_iff, !list_eqb_eq, Z.eqb_eq. destruct a, b. cbn. split; [intros ((-> & ->) & ->); reflexivity|intros E; injection E as -> -> ->; auto].
Qed.
Lemma unique_views_In l v : In v (unique_views l) <-> In v l.
Proof.
  induction l as [|a l IH]; [reflexivity|]. cbn [unique_views In]. rewrite <- IH. destruct (unique_views l) as [|b r]; [reflexivity|].
  destruct (view_eqb a b) eqn:E; [|reflexivity]. apply view_eqb_eq in E. subst b. cbn [In]. tauto.
Qed.

Lemma unique_views_length l : (List.length (unique_views l) <= List.length l)%nat.
Proof.
  induction l as [|a l IH]; [apply Nat.le_refl|]. cbn [unique_views]. destruct (unique_views l) as [|b r]; cbn [List.length] in *; [lia|].
  destruct (view_eqb a b); cbn [List.length]; lia.
Qed.
Lemma view_less_total a b : view_less a b = false -> view_less b a = false -> a = b.
Proof.
  intros H1 H2. destruct a as [w f n], b as [w' f' n']. unfold view_less in *. cbn [vw_word vw_font vw_line] in *.
  destruct (list_ltb Z.ltb w w') eqn:E1, (list_ltb Z.ltb w' w) eqn:E2; try discriminate.
  destruct (list_ltb Z.ltb f f') eqn:E3, (list_ltb Z.ltb f' f) eqn:E4; try discriminate.
  rewrite (list_ltb_false_eq _ _ E1 E2), (list_ltb_false_eq _ _ E3 E4). f_equal. lia.
Qed.
Lemma StronglySorted_iff {A} (R R' : A -> A -> Prop) l : (forall a b, R a b <-> R' a b) -> (StronglySorted R l <-> StronglySorted R' l).
Proof.
  intros E. split; induction 1 as [|a l HS IH F]; constructor; try assumption; (eapply Forall_impl; [|exact F]); intros b Hb; now apply E.
Qed.
Lemma increasing_views_iff l : increasing_views l <-> StronglySorted (fun a b => view_less a b = true) l.
Proof. apply StronglySorted_iff. intros a b. symmetry. apply view_less_iff. Qed.
Lemma unique_views_sorted l : sorted_by view_less l -> increasing_views (unique_views l).
Proof.
  rewrite increasing_views_iff. unfold sorted_by. induction 1 as [|a l HS IH F]; [constructor|]. cbn [unique_views].
  assert (G : forall w, In w (unique_views l) -> a = w \/ view_less a w = true).
  { intros w Hw. rewrite unique_views_In in Hw. rewrite Forall_forall in F. specialize (F w Hw). destruct (view_less a w) eqn:E; [right; reflexivity|left; exact (view_less_total a w E F)]. }
  destruct (unique_views l) as [|b r] eqn:Eu; [repeat constructor|]. inversion IH as [|? ? S1 F1]; subst.
  destruct (view_eqb a b) eqn:E.
  - apply view_eqb_eq in E. subst b. constructor; assumption.
  - assert (Lab : view_less a b = true). { destruct (G b (or_introl eq_refl)) as [Q|Q]; [|exact Q]. apply view_eqb_eq in Q. congruence. }
    constructor; [constructor; assumption|]. constructor; [exact Lab|]. rewrite Forall_forall in *. intros w Hw.
    destruct (view_less_strict_weak [a; b; w]) as (_ & T & _). apply (T a b w); cbn; auto.
Qed.

(** * Images *)
Definition wfg (g : glyph) : Prop := full_image (gl_img g).
Definition before (a b : glyph) : Prop := picture_before (gl_img a) (gl_img b).
Lemma glyph_less_iff a b : wfg a -> wfg b -> (glyph_less a b = true <-> before a b).
Proof.
  intros Ha Hb. unfold glyph_less. rewrite image_compare_ok by assumption. unfold before. rewrite <- img_cmp_before by assumption. destruct (img_cmp_vals (gl_img a) (gl_img b)) as [-> | [-> | ->]]; cbn; split; congruence.
Qed.
Lemma before_trans a b c : wfg a -> wfg b -> wfg c -> before a b -> before b c -> before a c.
Proof. intros Ha Hb Hc. unfold before. rewrite <- !img_cmp_before by assumption. apply img_cmp_trans; assumption. Qed.
Lemma before_cases a b : wfg a -> wfg b -> before a b \/ gl_img a = gl_img b \/ before b a.
Proof.
  intros Ha Hb. unfold before. rewrite <- !img_cmp_before, <- (img_cmp_eq (gl_img a)) by assumption. rewrite (img_cmp_antisym (gl_img a) (gl_img b)).
  destruct (img_cmp_vals (gl_img a) (gl_img b)) as [-> | [-> | ->]]; auto.
Qed.
Lemma before_irrefl a b : wfg a -> wfg b -> before a b -> gl_img a <> gl_img b.
Proof. intros Ha Hb. unfold before. rewrite <- img_cmp_before, <- (img_cmp_eq (gl_img a)) by assumption. intros ->. discriminate. Qed.
Lemma before_asym a b : wfg a -> wfg b -> before a b -> ~ before b a.
Proof. intros Ha Hb H1 H2. exact (before_irrefl a a Ha Ha (before_trans a b a Ha Hb Ha H1 H2) eq_refl). Qed.
Lemma glyph_strict_weak l : Forall wfg l -> strict_weak glyph_less l.
Proof.
  intros H. rewrite Forall_forall in H. split; [|split].
  - intros a Ha. destruct (glyph_less a a) eqn:E; [|reflexivity]. apply glyph_less_iff in E; auto. destruct (before_irrefl a a); auto.
  - intros a b c Ha Hb Hc. rewrite !glyph_less_iff by auto. apply before_trans; auto.
  - intros a b c Ha Hb Hc H1 H2. destruct (glyph_less a c) eqn:H3; [exfalso|reflexivity]. apply glyph_less_iff in H3; auto.
    destruct (before_cases a b) as [L|[E|L]]; auto.
    + apply glyph_less_iff in L; auto. congruence.
    + unfold before in H3. rewrite E in H3. apply (glyph_less_iff b c) in H3; auto. congruence.
    + assert (K : before b c) by (apply (before_trans b a c); auto). apply glyph_less_iff in K; auto. congruence.
Qed.
Lemma same_before a b c : gl_img a = gl_img b -> before a c -> before b c.
Proof. unfold before. intros ->. auto. Qed.

(** The sorted list: not decreasing. *)
Definition below (a b : glyph) : Prop := gl_img a = gl_img b \/ before a b.
Lemma sorted_below l : Forall wfg l -> sorted_by glyph_less l -> StronglySorted below l.
Proof.
  intros W. unfold sorted_by. induction 1 as [|a l HS IH F]; [constructor|]. inversion W as [|? ? Wa Wl]; subst. constructor; [apply IH, Wl|].
  rewrite Forall_forall in *. intros b Hb. specialize (F b Hb). destruct (before_cases a b) as [L|[E|L]]; auto; [right; exact L|left; exact E|].
  apply glyph_less_iff in L; auto. congruence.
Qed.

(** * adjacent_find *)
Lemma adjacent_ok gs : Forall wfg gs -> StronglySorted below gs -> forall fuel rest done, gs = done ++ rest -> (List.length rest < fuel)%nat ->
  StronglySorted before done -> (forall a b, In a done -> In b rest -> before a b) ->
  exists d2 r2, adjacent fuel gs (vsize done) = Ok (vsize d2) /\ gs = d2 ++ r2 /\ StronglySorted before d2 /\ (forall a b, In a d2 -> In b r2 -> before a b) /\
    (r2 = [] \/ exists g h t, r2 = g :: h :: t /\ gl_img g = gl_img h).
Proof.
  intros W HS. induction fuel as [|f IH]; intros rest done E Hf Hd Hdr; [lia|]. cbn [adjacent].
  destruct rest as [|g rest].
  - rewrite app_nil_r in E. rewrite E, Z.eqb_refl. exists done, []. split; [reflexivity|]. split; [rewrite app_nil_r; reflexivity|]. split; [exact Hd|split; [intros a b _ []|left; reflexivity]].
  - assert (Ev : vsize gs = vsize done + 1 + vsize rest) by (rewrite E, vsize_app, vsize_cons; lia). pose proof (vsize_nonneg rest).
    destruct (Z.eqb_spec (vsize done) (vsize gs)); [lia|].
    assert (Hd2 : StronglySorted before (done ++ [g])).
    { assert (G : forall l : list glyph, (forall a, In a l -> before a g) -> StronglySorted before l -> StronglySorted before (l ++ [g])).
      { induction l as [|x l IHl]; intros Hx Hl; cbn [app]; [repeat constructor|]. inversion Hl; subst. constructor; [apply IHl; [intros a Ha; apply Hx; right; exact Ha|assumption]|].
        apply Forall_app. split; [assumption|]. constructor; [apply Hx; left; reflexivity|constructor]. }
      apply G; [intros a Ha; apply Hdr; [exact Ha|left; reflexivity]|exact Hd]. }
    destruct rest as [|h rest].
    + change (vsize (@nil glyph)) with 0 in Ev. destruct (Z.eqb_spec (vsize done + 1) (vsize gs)); [|lia]. exists gs, []. split; [reflexivity|]. split; [rewrite app_nil_r; reflexivity|].
      split; [rewrite E; exact Hd2|split; [intros a b _ []|left; reflexivity]].
    + destruct (Z.eqb_spec (vsize done + 1) (vsize gs)); [rewrite vsize_cons in Ev; pose proof (vsize_nonneg rest); lia|].
      rewrite E. rewrite rd_mid by reflexivity. cbn [bind].
      replace (done ++ g :: h :: rest) with ((done ++ [g]) ++ h :: rest) by (rewrite <- app_assoc; reflexivity).
      rewrite rd_mid by (rewrite vsize_app; reflexivity). cbn [bind].
      rewrite Forall_forall in W. assert (Wg : wfg g) by (apply W; rewrite E; apply in_or_app; right; left; reflexivity).
      assert (Wh : wfg h) by (apply W; rewrite E; apply in_or_app; right; right; left; reflexivity).
      rewrite image_eq_ok by assumption. cbn [bind]. destruct (Z.eqb_spec (img_cmp (gl_img g) (gl_img h)) 0) as [C|C].
      * exists done, (g :: h :: rest). split; [reflexivity|]. split; [rewrite <- app_assoc; reflexivity|]. split; [exact Hd|]. split; [exact Hdr|]. right. exists g, h, rest. split; [reflexivity|]. now apply img_cmp_eq.
      * replace (vsize done + 1) with (vsize (done ++ [g])) by (rewrite vsize_app; reflexivity).
        replace ((done ++ [g]) ++ h :: rest) with gs by (rewrite E, <- app_assoc; reflexivity).
        apply (IH (h :: rest)); [rewrite E, <- app_assoc; reflexivity|cbn in *; lia|exact Hd2|].
        intros a b Ha Hb. apply in_app_or in Ha. destruct Ha as [Ha|[<-|[]]]; [apply Hdr; [exact Ha|right; exact Hb]|].
        assert (SG : StronglySorted below (g :: h :: rest)).
        { rewrite E in HS. clear - HS. induction done as [|x done IHd]; [exact HS|]. cbn [app] in HS. inversion HS; subst. auto. }
        inversion SG as [|? ? SG' F]; subst. rewrite Forall_forall in F. inversion SG' as [|? ? SG'' F']; subst. rewrite Forall_forall in F'.
        assert (Bgh : before g h). { destruct (F h (or_introl eq_refl)) as [Q|Q]; [|exact Q]. exfalso. apply C. apply img_cmp_eq; assumption. }
        destruct Hb as [<-|Hb]; [exact Bgh|]. assert (Wb : wfg b) by (apply W; apply in_or_app; right; right; right; exact Hb).
        destruct (F' b Hb) as [Q|Q]; [unfold before; rewrite <- Q; exact Bgh|apply (before_trans g h b); auto].
Qed.

(** * The loop *)
Lemma gather_ok : forall eqs fuel pre more views, (List.length eqs < fuel)%nat ->
  gather fuel (pre ++ eqs ++ more) (vsize pre) (vsize pre + vsize eqs) views = Ok (views ++ flat_map gl_views eqs).
Proof.
  induction eqs as [|g eqs IH]; intros fuel pre more views Hf; (destruct fuel as [|f]; [cbn in Hf; lia|]); cbn [gather].
  - change (vsize (@nil glyph)) with 0. rewrite Z.add_0_r, Z.ltb_irrefl. cbn. rewrite app_nil_r. reflexivity.
  - rewrite vsize_cons. pose proof (vsize_nonneg eqs). rewrite (proj2 (Z.ltb_lt _ _)) by lia. cbn [app]. rewrite rd_mid by reflexivity. cbn [bind].
    replace (pre ++ g :: eqs ++ more) with ((pre ++ [g]) ++ eqs ++ more) by (rewrite <- app_assoc; reflexivity).
    replace (vsize pre + 1) with (vsize (pre ++ [g])) by (rewrite vsize_app; reflexivity).
    replace (vsize pre + (1 + vsize eqs)) with (vsize (pre ++ [g]) + vsize eqs) by (rewrite vsize_app, vsize_cons; change (vsize (@nil glyph)) with 0; lia).
    rewrite IH by (cbn in Hf; lia). cbn [flat_map]. rewrite <- app_assoc. reflexivity.
Qed.
Lemma split_equal g : wfg g -> forall rest, Forall wfg rest -> StronglySorted below (g :: rest) ->
  exists eqs more, rest = eqs ++ more /\ (forall x, In x eqs -> gl_img x = gl_img g) /\ (forall x, In x more -> before g x).
Proof.
  intros Wg. induction rest as [|h rest IH]; intros W HS; [exists [], []; split; [reflexivity|]; split; intros x []|].
  inversion W as [|? ? Wh Wr]; subst. inversion HS as [|? ? HS' F]; subst. inversion F as [|? ? B F']; subst.
  destruct B as [B|B].
  - destruct IH as (eqs & more & -> & H1 & H2); [exact Wr|inversion HS'; subst; constructor; assumption|].
    exists (h :: eqs), more. split; [reflexivity|]. split; [intros x [<-|Hx]; [symmetry; exact B|apply H1, Hx]|exact H2].
  - exists [], (h :: rest). split; [reflexivity|]. split; [intros x []|]. inversion HS' as [|? ? HS'' F'']; subst. rewrite Forall_forall in F'', Wr.
    intros x [<-|Hx]; [exact B|]. destruct (F'' x Hx) as [Q|Q]; [unfold before; rewrite <- Q; exact B|apply (before_trans g h x); auto].
Qed.
Lemma upper_ok pre g eqs more : wfg g -> Forall wfg (eqs ++ more) -> (forall x, In x eqs -> gl_img x = gl_img g) -> (forall x, In x more -> before g x) ->
  let gs := pre ++ g :: eqs ++ more in
  partition_point (fun i => a <- rd gs i ;; c <- image_compare (gl_img g) (gl_img a) ;; Ok (negb (c <? 0))) (vsize pre + 1) (vsize gs) = Ok (vsize pre + 1 + vsize eqs).
Proof.
  intros Wg W H1 H2 gs. assert (Eg : gs = (pre ++ [g]) ++ eqs ++ more) by (unfold gs; rewrite <- app_assoc; reflexivity).
  assert (Ev : vsize gs = vsize pre + 1 + vsize eqs + vsize more) by (rewrite Eg, !vsize_app; change (vsize [g]) with 1; lia).
  pose proof (vsize_nonneg eqs). pose proof (vsize_nonneg more). pose proof (vsize_nonneg pre).
  destruct (partition_point_ok (fun i => a <- rd gs i ;; c <- image_compare (gl_img g) (gl_img a) ;; Ok (negb (c <? 0)))
    (fun i => i <? vsize pre + 1 + vsize eqs) (vsize pre + 1) (vsize gs)) as (r & -> & Hr & T & F).
  - lia.
  - intros i Hi. rewrite Forall_forall in W.
    destruct (nth_error (eqs ++ more) (Z.to_nat (i - (vsize pre + 1)))) as [x|] eqn:Ex.
    + assert (Er : rd gs i = Ok x).
      { apply rd_ok; [lia|]. rewrite Eg, nth_error_app2; [|rewrite app_length; cbn; unfold vsize in *; lia]. rewrite <- Ex. f_equal. rewrite app_length. cbn. unfold vsize in *. lia. }
      rewrite Er. cbn [bind]. assert (Wx : wfg x) by (apply W; apply nth_error_In in Ex; exact Ex). rewrite image_compare_ok by assumption. cbn [bind]. f_equal.
      destruct (Z.ltb_spec i (vsize pre + 1 + vsize eqs)) as [L|L].
      * rewrite nth_error_app1 in Ex by (unfold vsize in *; lia). apply nth_error_In in Ex. specialize (H1 x Ex). symmetry in H1. apply img_cmp_eq in H1; [|assumption..]. rewrite H1. reflexivity.
      * rewrite nth_error_app2 in Ex by (unfold vsize in *; lia). apply nth_error_In in Ex. specialize (H2 x Ex). unfold before in H2. apply img_cmp_before in H2; [|assumption..]. rewrite H2. reflexivity.
    + exfalso. apply nth_error_None in Ex. rewrite app_length in Ex. unfold vsize in *. lia.
  - intros i j _ Hij _ Hj. lia.
  - f_equal. destruct (Z.lt_trichotomy r (vsize pre + 1 + vsize eqs)) as [L|[E|L]]; [|exact E|].
    + specialize (F r ltac:(lia)). cbn in F. lia.
    + specialize (T (vsize pre + 1 + vsize eqs) ltac:(lia)). cbn in T. lia.
Qed.

Section Loop.
Context (sort_views : list view -> list view) (HV : is_std_sort view_less sort_views) (last : Z).
Definition body := (fun '(gs, first, first2) =>
       if first =? last then Ok (inr (firstn (Z.to_nat first2) gs))
       else
         g <- rd gs first ;;
         pos <- partition_point (fun i => a <- rd gs i ;; c <- image_compare (gl_img g) (gl_img a) ;; Ok (negb (c <? 0))) (first + 1) last ;;
         gs <- wr gs first (moved_from g) ;;
         gs <- wr gs first2 g ;;
         views <- gather (S (List.length gs)) gs (first + 1) pos (gl_views g) ;;
         gs <- wr gs first2 (mkglyph (gl_img g) (unique_views (sort_views views))) ;;
         Ok (inl (gs, Z.max (first + 1) pos, first2 + 1))) : list glyph * Z * Z -> res (list glyph * Z * Z + list glyph).

Lemma body_step done junk g eqs more : vsize (done ++ junk ++ g :: eqs ++ more) = last -> wfg g -> Forall wfg (eqs ++ more) ->
  (forall x, In x eqs -> gl_img x = gl_img g) -> (forall x, In x more -> before g x) ->
  exists junk', vsize junk' = vsize junk + vsize eqs /\ body (done ++ junk ++ g :: eqs ++ more, vsize done + vsize junk, vsize done) =
    Ok (inl ((done ++ [mkglyph (gl_img g) (unique_views (sort_views (gl_views g ++ flat_map gl_views eqs)))]) ++ junk' ++ more,
        vsize (done ++ [g]) + vsize junk', vsize (done ++ [g]))).
Proof.
  intros El Wg W H1 H2. pose proof (vsize_nonneg done). pose proof (vsize_nonneg junk). pose proof (vsize_nonneg eqs). pose proof (vsize_nonneg more).
  unfold body. assert (Ev : last = vsize done + vsize junk + 1 + vsize eqs + vsize more) by (rewrite <- El, !vsize_app, vsize_cons, vsize_app; lia).
  destruct (Z.eqb_spec (vsize done + vsize junk) last); [lia|].
  replace (done ++ junk ++ g :: eqs ++ more) with ((done ++ junk) ++ g :: eqs ++ more) in * by (rewrite <- app_assoc; reflexivity).
  rewrite rd_mid by (rewrite vsize_app; reflexivity). cbn [bind].
  replace (vsize done + vsize junk) with (vsize (done ++ junk)) by apply vsize_app.
  rewrite <- El. rewrite (upper_ok (done ++ junk) g eqs more Wg W H1 H2). cbn [bind].
  rewrite wr_mid by reflexivity. cbn [bind].
  set (new := mkglyph (gl_img g) (unique_views (sort_views (gl_views g ++ flat_map gl_views eqs)))).
  assert (GA : exists junk0, vsize junk0 = vsize junk /\ wr ((done ++ junk) ++ moved_from g :: eqs ++ more) (vsize done) g = Ok ((done ++ g :: junk0) ++ eqs ++ more) /\
     forall x, wr ((done ++ g :: junk0) ++ eqs ++ more) (vsize done) x = Ok (done ++ x :: junk0 ++ eqs ++ more)).
  { destruct junk as [|j junk].
    - exists []. split; [reflexivity|]. rewrite app_nil_r, wr_mid by reflexivity. rewrite <- app_assoc. split; [reflexivity|]. intros x. cbn [app]. rewrite wr_mid by reflexivity. reflexivity.
    - exists (junk ++ [moved_from g]). split; [rewrite vsize_app, !vsize_cons; change (vsize (@nil glyph)) with 0; lia|].
      rewrite <- app_assoc. cbn [app]. rewrite wr_mid by reflexivity. rewrite <- !app_assoc. cbn [app]. rewrite <- ?app_assoc. split; [reflexivity|]. intros x.
      rewrite wr_mid by reflexivity. rewrite <- ?app_assoc. reflexivity. }
  destruct GA as (junk0 & Ej & -> & E2). cbn [bind].
  replace (vsize (done ++ junk) + 1) with (vsize (done ++ g :: junk0)) by (rewrite !vsize_app, vsize_cons; lia).
  rewrite gather_ok by (rewrite !app_length; lia). cbn [bind]. rewrite E2. cbn [bind]. fold new.
  exists (junk0 ++ eqs). split; [rewrite vsize_app; lia|]. do 2 f_equal. f_equal; [f_equal|].
  - rewrite <- !app_assoc. reflexivity.
  - rewrite !vsize_app, !vsize_cons. change (vsize (@nil glyph)) with 0. lia.
  - rewrite vsize_app. reflexivity.
Qed.
Lemma loop_ok : forall fuel done junk rest, vsize (done ++ junk ++ rest) = last -> (List.length rest < fuel)%nat ->
  Forall wfg done -> Forall wfg rest -> StronglySorted below rest -> StronglySorted before done -> (forall a b, In a done -> In b rest -> before a b) ->
  exists out, loop fuel body (done ++ junk ++ rest, vsize done + vsize junk, vsize done) = Ok out /\ Forall wfg out /\
    (exists tl, out = done ++ tl /\ Forall (fun g => increasing_views (gl_views g)) tl) /\ StronglySorted before out /\
    (forall img, has_image out img <-> has_image (done ++ rest) img) /\ (forall img v, labelled out img v <-> labelled (done ++ rest) img v) /\
    (List.length out <= List.length (done ++ rest))%nat /\ (List.length (flat_map gl_views out) <= List.length (flat_map gl_views (done ++ rest)))%nat.
Proof.
  induction fuel as [|f IH]; intros done junk rest El Hf Wd Wr Sr Sd Hdr; [lia|]. cbn [loop].
  destruct rest as [|g rest].
  - unfold body at 1. rewrite (proj2 (Z.eqb_eq _ _)) by (rewrite <- El, !vsize_app; change (vsize (@nil glyph)) with 0; lia).
    exists done. split; [|split; [exact Wd|split; [exists []; split; [symmetry; apply app_nil_r|constructor]|]; split; [exact Sd|rewrite app_nil_r; split; [reflexivity|split; [intros; reflexivity|split; apply Nat.le_refl]]]]].
    f_equal. unfold vsize. rewrite Nat2Z.id, firstn_app, firstn_all, Nat.sub_diag. cbn [firstn]. apply app_nil_r.
  - inversion Wr as [|? ? Wg Wr']; subst.
    destruct (split_equal g Wg rest Wr' Sr) as (eqs & more & -> & H1 & H2).
    destruct (body_step done junk g eqs more El Wg Wr' H1 H2) as (junk' & Ej & E). rewrite E.
    set (new := mkglyph (gl_img g) (unique_views (sort_views (gl_views g ++ flat_map gl_views eqs)))) in *.
    assert (Enew : vsize (done ++ [new]) = vsize (done ++ [g])) by (rewrite !vsize_app; reflexivity). rewrite <- Enew.
    assert (Wnew : wfg new) by exact Wg.
    assert (Wm : Forall wfg more) by (apply Forall_app in Wr'; exact (proj2 Wr')).
    assert (VN : forall v, In v (gl_views new) <-> exists x, In x (g :: eqs) /\ In v (gl_views x)).
    { intros v. cbn [new gl_views]. rewrite unique_views_In. destruct (HV (gl_views g ++ flat_map gl_views eqs) (view_less_strict_weak _)) as [P _].
      transitivity (In v (flat_map gl_views (g :: eqs))); [|apply in_flat_map]. cbn [flat_map]. split; apply Permutation_in; [apply Permutation_sym; exact P|exact P]. }
    rewrite Enew. rewrite <- Enew.
    destruct (IH (done ++ [new]) junk' more) as (out & Eo & Wo & Vo & So & Io & Lo & Co & Cv).
    + rewrite <- El, !vsize_app, !vsize_cons, !vsize_app. change (vsize (@nil glyph)) with 0. lia.
    + cbn [List.length] in Hf. rewrite app_length in Hf. lia.
    + apply Forall_app. split; [exact Wd|]. constructor; [exact Wnew|constructor].
    + exact Wm.
    + inversion Sr as [|? ? Sr' _]; subst. clear - Sr'. induction eqs as [|x eqs IHe]; [exact Sr'|]. cbn [app] in Sr'. inversion Sr'; subst. auto.
    + assert (G : forall l : list glyph, (forall a, In a l -> before a new) -> StronglySorted before l -> StronglySorted before (l ++ [new])).
      { induction l as [|x l IHl]; intros Hx Hl; cbn [app]; [repeat constructor|]. inversion Hl; subst. constructor; [apply IHl; [intros a Ha; apply Hx; right; exact Ha|assumption]|].
        apply Forall_app. split; [assumption|]. constructor; [apply Hx; left; reflexivity|constructor]. }
      apply G; [|exact Sd]. intros a Ha. exact (Hdr a g Ha (or_introl eq_refl)).
    + intros a b Ha Hb. apply in_app_or in Ha. destruct Ha as [Ha|[<-|[]]]; [apply Hdr; [exact Ha|right; apply in_or_app; right; exact Hb]|exact (H2 b Hb)].
    + exists out. split; [exact Eo|]. split; [exact Wo|]. split.
      { destruct Vo as (tl & -> & Ht). exists (new :: tl). split; [rewrite <- app_assoc; reflexivity|]. constructor; [|exact Ht].
        apply unique_views_sorted. apply (HV _ (view_less_strict_weak _)). }
      split; [exact So|].
      assert (SI : forall x, In x (g :: eqs) -> gl_img x = gl_img g) by (intros x [<-|Hx]; [reflexivity|apply H1, Hx]).
      split; [|split; [|split]].
      * intros img. rewrite Io. split; intros (x & Hx & Ex).
        -- rewrite <- app_assoc in Hx. apply in_app_or in Hx. destruct Hx as [Hx|[<-|Hx]].
           ++ exists x. split; [apply in_or_app; left; exact Hx|exact Ex].
           ++ exists g. split; [apply in_or_app; right; left; reflexivity|exact Ex].
           ++ exists x. split; [apply in_or_app; right; right; apply in_or_app; right; exact Hx|exact Ex].
        -- apply in_app_or in Hx. destruct Hx as [Hx|Hx].
           ++ exists x. split; [rewrite <- app_assoc; apply in_or_app; left; exact Hx|exact Ex].
           ++ replace (g :: eqs ++ more) with ((g :: eqs) ++ more) in Hx by reflexivity. apply in_app_or in Hx. destruct Hx as [Hx|Hx].
              ** exists new. split; [rewrite <- app_assoc; apply in_or_app; right; left; reflexivity|]. rewrite <- Ex. symmetry. exact (SI x Hx).
              ** exists x. split; [rewrite <- app_assoc; apply in_or_app; right; right; exact Hx|exact Ex].
      * intros img v. rewrite Lo. split; intros (x & Hx & Ex & Hv).
        -- rewrite <- app_assoc in Hx. apply in_app_or in Hx. destruct Hx as [Hx|[<-|Hx]].
           ++ exists x. split; [apply in_or_app; left; exact Hx|split; assumption].
           ++ apply VN in Hv. destruct Hv as (y & Hy & Hv). exists y. split; [apply in_or_app; right; replace (g :: eqs ++ more) with ((g :: eqs) ++ more) by reflexivity; apply in_or_app; left; exact Hy|].
              split; [rewrite (SI y Hy); exact Ex|exact Hv].
           ++ exists x. split; [apply in_or_app; right; right; apply in_or_app; right; exact Hx|split; assumption].
        -- apply in_app_or in Hx. destruct Hx as [Hx|Hx].
           ++ exists x. split; [rewrite <- app_assoc; apply in_or_app; left; exact Hx|split; assumption].
           ++ replace (g :: eqs ++ more) with ((g :: eqs) ++ more) in Hx by reflexivity. apply in_app_or in Hx. destruct Hx as [Hx|Hx].
              ** exists new. split; [rewrite <- app_assoc; apply in_or_app; right; left; reflexivity|]. split; [rewrite <- Ex; symmetry; exact (SI x Hx)|]. apply VN. exists x. split; assumption.
              ** exists x. split; [rewrite <- app_assoc; apply in_or_app; right; right; exact Hx|split; assumption].
      * rewrite !app_length in *. cbn [List.length] in *. rewrite app_length. lia.
      * rewrite !flat_map_app, !app_length in *. cbn [flat_map] in *. rewrite !app_length, flat_map_app, app_length in *. cbn [List.length] in Cv.
        assert (Un : (List.length (gl_views new) <= List.length (gl_views g) + List.length (flat_map gl_views eqs))%nat).
        { cbn [new gl_views]. destruct (HV (gl_views g ++ flat_map gl_views eqs) (view_less_strict_weak _)) as [P _].
          rewrite <- app_length, (Permutation_length P). apply unique_views_length. }
        lia.
Qed.
End Loop.

(** Splitting a sorted list at the first repeated image. *)
Lemma filter_none {A} (f : A -> bool) l : (forall x, In x l -> f x = false) -> filter f l = [].
Proof. induction l as [|x l IH]; intros H; cbn [filter]; [reflexivity|]. rewrite (H x (or_introl eq_refl)). apply IH. intros y Hy. apply H. right. exact Hy. Qed.
Lemma repeated_perm gs gs' img : Permutation gs gs' -> repeated gs img -> repeated gs' img.
Proof.
  unfold repeated. intros P H. enough (E : List.length (filter (fun g => if image_dec (gl_img g) img then true else false) gs) =
    List.length (filter (fun g => if image_dec (gl_img g) img then true else false) gs')) by congruence.
  clear H. induction P as [|x l l' _ IH|x y l|l l' l'' _ IH1 _ IH2]; [reflexivity| | |congruence]; cbn [filter].
  - destruct (image_dec (gl_img x) img); cbn [List.length]; congruence.
  - destruct (image_dec (gl_img x) img), (image_dec (gl_img y) img); reflexivity.
Qed.
Lemma once_in gs img a b : ~ repeated gs img -> In a gs -> In b gs -> gl_img a = img -> gl_img b = img -> a = b.
Proof.
  unfold repeated. set (f := fun g => if image_dec (gl_img g) img then true else false). intros N Ha Hb Ea Eb.
  assert (Ia : In a (filter f gs)) by (apply filter_In; split; [exact Ha|unfold f; destruct (image_dec (gl_img a) img); [reflexivity|contradiction]]).
  assert (Ib : In b (filter f gs)) by (apply filter_In; split; [exact Hb|unfold f; destruct (image_dec (gl_img b) img); [reflexivity|contradiction]]).
  destruct (filter f gs) as [|x [|y l]]; [contradiction| |cbn [List.length] in N; lia]. destruct Ia as [<-|[]], Ib as [<-|[]]. reflexivity.
Qed.
Lemma once_sorted d r img : Forall wfg (d ++ r) -> StronglySorted before d -> (forall a b, In a d -> In b r -> before a b) ->
  (exists g, In g d /\ gl_img g = img) -> ~ repeated (d ++ r) img.
Proof.
  intros W Sd Hdr (g & Hg & Eg). unfold repeated. set (f := fun g => if image_dec (gl_img g) img then true else false). rewrite filter_app.
  rewrite Forall_forall in W.
  assert (filter f r = []) as ->.
  { apply filter_none. intros x Hx. unfold f. destruct (image_dec (gl_img x) img) as [E|_]; [|reflexivity]. exfalso.
    apply (before_irrefl g x); [apply W, in_or_app; auto|apply W, in_or_app; auto|apply Hdr; assumption|congruence]. }
  rewrite app_nil_r. assert (W' : forall x, In x d -> wfg x) by (intros x Hx; apply W, in_or_app; auto). clear W Hdr Hg. induction Sd as [|x l HS IH F]; cbn [filter]; [cbn; lia|].
  rewrite Forall_forall in F. unfold f at 1. destruct (image_dec (gl_img x) img) as [E|E].
  - rewrite filter_none; [cbn; lia|]. intros y Hy. unfold f. destruct (image_dec (gl_img y) img) as [E'|_]; [|reflexivity]. exfalso.
    apply (before_irrefl x y); [apply W'; left; reflexivity|apply W'; right; exact Hy|apply F, Hy|congruence].
  - apply IH. intros y Hy. apply W'. right. exact Hy.
Qed.
Lemma repeated_has gs img : repeated gs img -> exists g, In g gs /\ gl_img g = img.
Proof.
  unfold repeated. set (f := fun g => if image_dec (gl_img g) img then true else false). destruct (filter f gs) as [|x l] eqn:E; [cbn; lia|]. intros _.
  assert (I : In x (filter f gs)) by (rewrite E; left; reflexivity). apply filter_In in I. destruct I as (I & F). exists x. split; [exact I|].
  unfold f in F. destruct (image_dec (gl_img x) img); [assumption|discriminate].
Qed.
Theorem normalize_ok sort sort_views glyphs : is_std_sort glyph_less sort -> is_std_sort view_less sort_views -> Forall wfg glyphs ->
  exists out, normalize sort sort_views glyphs = Ok out /\ increasing_images out /\
    (forall img, has_image out img <-> has_image glyphs img) /\ (forall img v, labelled out img v <-> labelled glyphs img v) /\
    (forall g, In g out -> (early glyphs (gl_img g) /\ In g glyphs) \/ (~ early glyphs (gl_img g) /\ increasing_views (gl_views g))) /\
    (List.length out <= List.length glyphs)%nat /\ (List.length (flat_map gl_views out) <= List.length (flat_map gl_views glyphs))%nat.
Proof.
  intros HG HV W. destruct (HG glyphs (glyph_strict_weak glyphs W)) as [P HS]. unfold normalize. cbv zeta. set (gs := sort glyphs) in *.
  assert (Wg : Forall wfg gs). { rewrite Forall_forall in *. intros x Hx. apply W. apply (Permutation_in _ (Permutation_sym P)). exact Hx. }
  destruct (adjacent_ok gs Wg (sorted_below gs Wg HS) (S (List.length gs)) gs [] eq_refl ltac:(lia) ltac:(constructor) ltac:(intros a b [])) as (d2 & r2 & Ea & Eg & Sd & Hdr & Rep).
  change (vsize (@nil glyph)) with 0 in Ea. rewrite Ea. cbn [bind]. pose proof Wg as Wall.
  rewrite Eg in Wg. apply Forall_app in Wg. destruct Wg as [Wd Wr].
  assert (Sr : StronglySorted below r2).
  { pose proof (sorted_below gs) as Q. rewrite Eg in Q, HS. specialize (Q ltac:(apply Forall_app; split; assumption) HS). clear - Q. induction d2 as [|x d2 IH]; [exact Q|]. cbn [app] in Q. inversion Q; subst. auto. }
  destruct (loop_ok sort_views HV (vsize gs) (S (List.length gs)) d2 [] r2) as (out & Eo & Wo & Vo & So & Io & Lo & Co & Cv); try assumption.
  - rewrite Eg. reflexivity.
  - rewrite Eg, app_length. lia.
  - cbn [app] in Eo. change (vsize (@nil glyph)) with 0 in Eo. rewrite Z.add_0_r, <- Eg in Eo. exists out. split; [exact Eo|]. split; [exact So|].
    rewrite <- Eg in Io, Lo, Co, Cv. split; [|split; [|split; [|split]]].
    + intros img. rewrite Io. unfold has_image. split; intros (x & Hx & E); exists x; (split; [|exact E]); revert Hx; apply Permutation_in; [apply Permutation_sym|]; exact P.
    + intros img v. rewrite Lo. unfold labelled. split; intros (x & Hx & E); exists x; (split; [|exact E]); revert Hx; apply Permutation_in; [apply Permutation_sym|]; exact P.
    + intros g Hg. destruct Vo as (tl & Et & Ht). rewrite Forall_forall in Wall, Ht. rewrite Et in Hg. apply in_app_or in Hg. destruct Hg as [Hg|Hg].
      * left. split; [|apply (Permutation_in _ (Permutation_sym P)); rewrite Eg; apply in_or_app; left; exact Hg].
        intros i Hi. apply (repeated_perm _ _ _ P) in Hi. rewrite Eg in Hi. destruct (repeated_has _ _ Hi) as (h & Hh & <-).
        apply in_app_or in Hh. destruct Hh as [Hh|Hh]; [|exact (Hdr g h Hg Hh)].
        exfalso. revert Hi. apply once_sorted; [rewrite <- Eg; now apply Forall_forall|exact Sd|exact Hdr|eauto].
      * right. split; [|exact (Ht g Hg)]. intros He.
        destruct Rep as [->|(x & y & t & -> & Exy)].
        { assert (Hi : has_image (d2 ++ []) (gl_img g)) by (rewrite <- Eg; apply Io; exists g; split; [rewrite Et; apply in_or_app; right; exact Hg|reflexivity]).
          destruct Hi as (z & Hz & Ez). rewrite app_nil_r in Hz. rewrite Et in So. clear - So Hz Ez Hg Wo Et.
          rewrite Forall_forall in Wo. apply (before_irrefl z g); [apply Wo; rewrite Et; apply in_or_app; auto|apply Wo; rewrite Et; apply in_or_app; auto| |exact Ez].
          clear Et Wo Ez. induction d2 as [|w d2 IH]; [contradiction|]. cbn [app] in So. inversion So as [|? ? So' F]; subst. rewrite Forall_forall in F.
          destruct Hz as [<-|Hz]; [apply F, in_or_app; right; exact Hg|exact (IH So' Hz)]. }
        assert (Rx : repeated glyphs (gl_img x)).
        { apply (repeated_perm gs); [apply Permutation_sym; exact P|]. rewrite Eg. unfold repeated. rewrite filter_app, app_length. cbn [filter].
          destruct (image_dec (gl_img x) (gl_img x)); [|contradiction]. destruct (image_dec (gl_img y) (gl_img x)); [|congruence]. cbn [List.length]. lia. }
        specialize (He _ Rx).
        (* g is not before x: it is after d2 in out, and has the image of a glyph of r2 *)
        assert (Hi : has_image gs (gl_img g)) by (apply Io; exists g; split; [rewrite Et; apply in_or_app; right; exact Hg|reflexivity]).
        destruct Hi as (z & Hz & Ez). rewrite Eg in Hz. apply in_app_or in Hz. rewrite Forall_forall in Wo.
        assert (Wg' : wfg g) by (apply Wo; rewrite Et; apply in_or_app; auto).
        destruct Hz as [Hz|Hz].
        -- rewrite Et in So. apply (before_irrefl z g); [apply Wall; rewrite Eg; apply in_or_app; auto|exact Wg'| |exact Ez].
           clear - So Hz Hg. induction d2 as [|w d2 IH]; [contradiction|]. cbn [app] in So. inversion So as [|? ? So' F]; subst. rewrite Forall_forall in F.
           destruct Hz as [<-|Hz]; [apply F, in_or_app; right; exact Hg|exact (IH So' Hz)].
        -- assert (Wx : wfg x) by (apply Wall; rewrite Eg; apply in_or_app; right; left; reflexivity).
           assert (Wz : wfg z) by (apply Wall; rewrite Eg; apply in_or_app; right; exact Hz).
           assert (Bzx : before z x) by (unfold before; rewrite Ez; exact He).
           destruct Hz as [<-|Hz]; [exact (before_irrefl _ _ Wx Wx Bzx eq_refl)|].
           inversion Sr as [|? ? _ F]; subst. rewrite Forall_forall in F. destruct (F z Hz) as [Q|Q].
           ++ apply (before_irrefl _ _ Wz Wx Bzx). now symmetry.
           ++ exact (before_asym _ _ Wx Wz Q Bzx).
    + rewrite (Permutation_length P). exact Co.
    + rewrite (Permutation_length (Permutation_flat_map gl_views P)). exact Cv.
Qed.
(** The result does not depend on the sorts. *)
Lemma sorted_images_unique l l' : StronglySorted before l -> StronglySorted before l' -> Forall wfg l -> Forall wfg l' ->
  (forall img, has_image l img <-> has_image l' img) -> map gl_img l = map gl_img l'.
Proof.
  intros H. revert l'. induction H as [|x l HS IH F]; intros l' H' W W' E.
  - destruct l' as [|y l']; [reflexivity|]. exfalso. destruct (proj2 (E (gl_img y)) (ex_intro _ y (conj (or_introl eq_refl) eq_refl))) as (z & [] & _).
  - destruct H' as [|y l' HS' F'].
    { exfalso. destruct (proj1 (E (gl_img x)) (ex_intro _ x (conj (or_introl eq_refl) eq_refl))) as (z & [] & _). }
    inversion W as [|? ? Wx Wl]; subst. inversion W' as [|? ? Wy Wl']; subst. rewrite Forall_forall in F, F', Wl, Wl'.
    assert (Exy : gl_img x = gl_img y).
    { destruct (proj1 (E (gl_img x)) (ex_intro _ x (conj (or_introl eq_refl) eq_refl))) as (z & [<-|Hz] & Ez); [congruence|].
      destruct (proj2 (E (gl_img y)) (ex_intro _ y (conj (or_introl eq_refl) eq_refl))) as (t & [<-|Ht] & Et); [congruence|].
      exfalso. pose proof (F t Ht) as B1. pose proof (F' z Hz) as B2. unfold before in B1, B2. rewrite Et in B1. rewrite Ez in B2.
      exact (before_asym x y Wx Wy B1 B2). }
    cbn [map]. rewrite Exy. f_equal. apply IH; [exact HS'|now apply Forall_forall|now apply Forall_forall|].
    intros img. split; intros (z & Hz & Ez).
    + destruct (proj1 (E img) (ex_intro _ z (conj (or_intror Hz) Ez))) as (t & [<-|Ht] & Et); [|exists t; auto].
      exfalso. apply (before_irrefl x z); [exact Wx|apply Wl, Hz|apply F, Hz|congruence].
    + destruct (proj2 (E img) (ex_intro _ z (conj (or_intror Hz) Ez))) as (t & [<-|Ht] & Et); [|exists t; auto].
      exfalso. apply (before_irrefl y z); [exact Wy|apply Wl', Hz|apply F', Hz|congruence].
Qed.
Lemma sorted_views_unique l l' : increasing_views l -> increasing_views l' -> (forall v, In v l <-> In v l') -> l = l'.
Proof.
  rewrite !increasing_views_iff.
  assert (I : forall v, view_less v v <> true) by (intros v; destruct (view_less_strict_weak [v]) as (A & _); rewrite (A v (or_introl eq_refl)); discriminate).
  assert (T : forall a b, view_less a b = true -> view_less b a = true -> False).
  { intros a b H1 H2. destruct (view_less_strict_weak [a; b]) as (_ & B & _). apply (I a). apply (B a b a); cbn; auto. }
  intros H. revert l'. induction H as [|x l HS IH F]; intros l' H' E.
  - destruct l' as [|y l']; [reflexivity|]. destruct (proj2 (E y) (or_introl eq_refl)).
  - destruct H' as [|y l' HS' F']; [destruct (proj1 (E x) (or_introl eq_refl))|]. rewrite Forall_forall in F, F'.
    assert (x = y) as ->.
    { destruct (proj1 (E x) (or_introl eq_refl)) as [->|Hx]; [reflexivity|]. destruct (proj2 (E y) (or_introl eq_refl)) as [->|Hy]; [reflexivity|].
      exfalso. exact (T x y (F y Hy) (F' x Hx)). }
    f_equal. apply IH; [exact HS'|]. intros v. split; intros Hv.
    + destruct (proj1 (E v) (or_intror Hv)) as [<-|]; [exfalso; exact (I _ (F _ Hv))|assumption].
    + destruct (proj2 (E v) (or_intror Hv)) as [<-|]; [exfalso; exact (I _ (F' _ Hv))|assumption].
Qed.
Lemma not_early_repeated gs img : early gs img -> (exists g, In g gs /\ gl_img g = img /\ wfg g) -> ~ repeated gs img.
Proof. intros H (g & _ & E & W) R. specialize (H _ R). rewrite <- E in H. exact (before_irrefl g g W W H eq_refl). Qed.
Lemma one_image o : StronglySorted before o -> Forall wfg o -> forall a b, In a o -> In b o -> gl_img a = gl_img b -> a = b.
Proof.
  intros So Wo. induction So as [|x o HS IH F]; [intros a b []|]. inversion Wo as [|? ? Wx Wo']; subst. rewrite Forall_forall in F.
  pose proof Wo' as Wf. rewrite Forall_forall in Wf.
  intros a b [<-|Ha] [<-|Hb] Eab; auto.
  - exfalso. exact (before_irrefl x b Wx (Wf b Hb) (F b Hb) Eab).
  - exfalso. apply (before_irrefl x a Wx (Wf a Ha) (F a Ha)). congruence.
Qed.
Lemma same_glyphs (l l' : list glyph) : map gl_img l = map gl_img l' -> (forall g g', In g l -> In g' l' -> gl_img g = gl_img g' -> g = g') -> l = l'.
Proof.
  revert l'. induction l as [|g out IH]; intros [|g' out'] E G; try discriminate; [reflexivity|].
  cbn [map] in E. injection E as E1 E2. rewrite (G g g' (or_introl eq_refl) (or_introl eq_refl) E1). f_equal. apply IH; [exact E2|].
  intros a b Ha Hb. apply G; right; assumption.
Qed.
Lemma image_wfg glyphs o : Forall wfg glyphs -> (forall img, has_image o img <-> has_image glyphs img) -> Forall wfg o.
Proof.
  intros W Ho. apply Forall_forall. intros g Hg. destruct (proj1 (Ho (gl_img g)) (ex_intro _ g (conj Hg eq_refl))) as (h & Hh & Eh).
  rewrite Forall_forall in W. unfold wfg. rewrite <- Eh. apply W, Hh.
Qed.
Lemma normalize_same sort sort_views sort' sort_views' glyphs glyphs' : is_std_sort glyph_less sort -> is_std_sort view_less sort_views ->
  is_std_sort glyph_less sort' -> is_std_sort view_less sort_views' -> Forall (fun g => full_image (gl_img g)) glyphs -> Permutation glyphs glyphs' ->
  normalize sort' sort_views' glyphs' = normalize sort sort_views glyphs.
Proof.
  intros H1 H2 H1' H2' W P. destruct (normalize_ok sort sort_views glyphs H1 H2 W) as (out & -> & So & Io & Lo & Vo & _).
  assert (W' : Forall wfg glyphs') by (rewrite Forall_forall in *; intros g Hg; apply W; apply (Permutation_in _ (Permutation_sym P)); exact Hg).
  destruct (normalize_ok sort' sort_views' glyphs' H1' H2' W') as (out' & -> & So' & Io' & Lo' & Vo' & _). f_equal. symmetry.
  assert (Pi : forall img, has_image glyphs img <-> has_image glyphs' img).
  { intros img. split; intros (g & Hg & E); exists g; (split; [|exact E]); revert Hg; apply Permutation_in; [exact P|apply Permutation_sym, P]. }
  assert (Pl : forall img v, labelled glyphs img v <-> labelled glyphs' img v).
  { intros img v. split; intros (g & Hg & E); exists g; (split; [|exact E]); revert Hg; apply Permutation_in; [exact P|apply Permutation_sym, P]. }
  assert (Pe : forall img, early glyphs img <-> early glyphs' img).
  { intros img. split; intros H i Hi; apply H; revert Hi; apply repeated_perm; [apply Permutation_sym|]; exact P. }
  pose proof (image_wfg glyphs out W Io) as Wo. pose proof (image_wfg glyphs' out' W' Io') as Wo'.
  apply same_glyphs; [apply sorted_images_unique; auto; intros img; rewrite Io, Io'; apply Pi|].
  intros g g' Hg Hg' Eg. rewrite Forall_forall in W.
  destruct (Vo g Hg) as [(He & Hi)|(He & Hi)], (Vo' g' Hg') as [(He' & Hi')|(He' & Hi')].
  - apply (Permutation_in _ (Permutation_sym P)) in Hi'.
    apply (once_in glyphs (gl_img g)); auto. apply not_early_repeated; [exact He|exists g; split; [exact Hi|split; [reflexivity|apply W, Hi]]].
  - rewrite <- Eg, <- Pe in He'. contradiction.
  - rewrite Eg, Pe in He. contradiction.
  - destruct g as [i l], g' as [i' l']. cbn [gl_img gl_views] in *. subst i'. f_equal. apply sorted_views_unique; [exact Hi|exact Hi'|].
    intros v. assert (L : labelled out i v <-> labelled out' i v) by (rewrite Lo, Lo'; apply Pl).
    assert (L1 : labelled out i v <-> In v l).
    { split; [|intros Hv; exists (mkglyph i l); auto]. intros (z & Hz & Ez & Hv). rewrite (one_image out So Wo z (mkglyph i l) Hz Hg Ez) in Hv. exact Hv. }
    assert (L2 : labelled out' i v <-> In v l').
    { split; [|intros Hv; exists (mkglyph i l'); auto]. intros (z & Hz & Ez & Hv). rewrite (one_image out' So' Wo' z (mkglyph i l') Hz Hg' Ez) in Hv. exact Hv. }
    tauto.
Qed.
(** Normalised glyphs are left as they are. *)
Lemma normalize_again sort sort_views out : is_std_sort glyph_less sort -> is_std_sort view_less sort_views ->
  Forall (fun g => full_image (gl_img g)) out -> increasing_images out -> normalize sort sort_views out = Ok out.
Proof.
  intros H1 H2 W So. destruct (normalize_ok sort sort_views out H1 H2 W) as (out' & -> & So' & Io & _ & Vo & _). f_equal.
  pose proof (image_wfg out out' W Io) as Wo'.
  apply same_glyphs; [now apply sorted_images_unique|]. intros g g' Hg Hg' Eg. destruct (Vo g Hg) as [(_ & Hi)|(He & _)].
  - apply (one_image out So W); assumption.
  - exfalso. apply He. intros i Hi. exfalso. destruct (repeated_has _ _ Hi) as (h & Hh & Eh). revert Hi.
    rewrite <- (app_nil_r out). apply once_sorted; [rewrite app_nil_r; exact W|exact So|intros a b _ []|eauto].
Qed.
Lemma normalize_pairs sort sort_views glyphs : is_std_sort glyph_less sort -> is_std_sort view_less sort_views ->
  Forall (fun g => full_image (gl_img g)) glyphs ->
  exists out, normalize sort sort_views glyphs = Ok out /\ increasing_images out /\
    (forall img, has_image out img <-> has_image glyphs img) /\ (forall img v, labelled out img v <-> labelled glyphs img v).
Proof. intros H1 H2 H3. destruct (normalize_ok sort sort_views glyphs H1 H2 H3) as (out & E & A & B & C & _). exists out. auto. Qed.
Lemma normalize_views sort sort_views glyphs : is_std_sort glyph_less sort -> is_std_sort view_less sort_views ->
  Forall (fun g => full_image (gl_img g)) glyphs ->
  exists out, normalize sort sort_views glyphs = Ok out /\
    (forall g, In g out -> (early glyphs (gl_img g) /\ In g glyphs) \/ (~ early glyphs (gl_img g) /\ increasing_views (gl_views g))).
Proof. intros H1 H2 H3. destruct (normalize_ok sort sort_views glyphs H1 H2 H3) as (out & E & _ & _ & _ & D & _). exists out. auto. Qed.
Lemma normalize_sizes sort sort_views glyphs : is_std_sort glyph_less sort -> is_std_sort view_less sort_views ->
  Forall (fun g => full_image (gl_img g)) glyphs ->
  exists out, normalize sort sort_views glyphs = Ok out /\ (List.length out <= List.length glyphs)%nat /\
    (List.length (flat_map gl_views out) <= List.length (flat_map gl_views glyphs))%nat.
Proof. intros H1 H2 H3. destruct (normalize_ok sort sort_views glyphs H1 H2 H3) as (out & E & _ & _ & _ & _ & D). exists out. auto. Qed.
