(** Learning and dictionaries. *)
From Verif Require Import Base BaseProofs SortModel SortProofs ImageModel ImageSpec ImageProofs BoxModel BoxSpec StreamModel DatasModel GlyphIoModel GlyphIoSpec GlyphIoProofs UtfModel UtfProofs DictIoModel TrieModel TrieSpec TrieProofs
  FlatTrieProofs DictionaryProofs DecodeSpec DecodeProofs NormModel NormSpec NormProofs LearnModel LearnSpec LearnProofs LearnProofs4 ShowModel ShowSpec ShowProofs ProgModel ProgSpec ProgProofs GlyphTextSpec GlyphTextProofs
  SameProofs3 PipelineModel PipelineSpec ChainSpec ChainProofs ComposeProofs TeachSpec TeachProofs.
From Coq Require Import Sorted Permutation.

(** * write_glyphs *)
Lemma learnt_order img font boxes ws gs : glyphs_for img font boxes ws gs -> in_order gs.
Proof. unfold in_order. induction 1 as [ws|boxes|b boxes w ws g gs (_ & Hv) _ IH]; constructor; [rewrite Hv; apply one_label_order|exact IH]. Qed.
Lemma written_unique gs gs' : Forall storable gs -> Forall storable gs' -> write_glyphs gs = write_glyphs gs' -> gs = gs'.
Proof.
  intros HS HS' E.
  destruct (read_good gs (Some (write_glyphs gs))) as (f & s & Ef & Er & _); [exists []; rewrite app_nil_r; repeat split; [exact HS|constructor]|].
  destruct (read_good gs' (Some (write_glyphs gs'))) as (f' & s' & Ef' & Er' & _); [exists []; rewrite app_nil_r; repeat split; [exact HS'|constructor]|]. congruence.
Qed.
Lemma file_glyphs_facts disk lum t gs : plain_text (snd t) -> file_glyphs disk lum t gs -> Forall storable gs /\ in_order gs.
Proof.
  destruct t as [[i tx] font]. cbn [snd]. intros Hf (img & text & boxes & ws & _ & _ & _ & _ & Hw & _ & Hg).
  split; [exact (learnt_storable img font boxes ws gs Hf (text_words_plain _ _ Hw) Hg)|exact (learnt_order _ _ _ _ _ Hg)].
Qed.
Lemma file_glyphs_unique disk lum t gs gs' : plain_text (snd t) -> file_glyphs disk lum t gs -> file_glyphs disk lum t gs' -> gs = gs'.
Proof.
  intros Hf H H'. pose proof (proj1 (file_glyphs_facts _ _ _ _ Hf H)) as HS. pose proof (proj1 (file_glyphs_facts _ _ _ _ Hf H')) as HS'.
  apply written_unique; [exact HS|exact HS'|]. destruct t as [[i tx] font].
  destruct H as (img & text & boxes & ws & Et & (b & Eb & Ei) & Hs & Es & Hw & _ & Hg). destruct H' as (img' & text' & boxes' & ws' & Et' & (b' & Eb' & Ei') & Hs' & Es' & Hw' & _ & Hg').
  assert (text' = text) as -> by congruence. assert (b' = b) as -> by congruence. assert (img' = img) as -> by congruence. assert (boxes' = boxes) as -> by congruence.
  destruct (learn_image_ok img text font boxes ws Hs Es Hw) as (l & Hl & El). destruct (learn_image_ok img text font boxes ws' Hs Es Hw') as (l' & Hl' & El').
  rewrite (glyphs_for_unique _ _ _ _ _ Hg l Hl), (glyphs_for_unique _ _ _ _ _ Hg' l' Hl'). congruence.
Qed.
Lemma good_glyphs disk lum l : (forall t, In t l -> plain_text (snd t) /\ exists gs, file_glyphs disk lum t gs) -> exists gss, Forall2 (file_glyphs disk lum) l gss /\
  Forall storable (List.concat gss) /\ in_order (List.concat gss) /\ forall g, In g (List.concat gss) <-> exists t gs, In t l /\ file_glyphs disk lum t gs /\ In g gs.
Proof.
  induction l as [|t l IH]; intros H.
  { exists []. split; [constructor|]. split; [constructor|]. split; [constructor|]. intros g. split; [intros []|intros (t & gs & [] & _)]. }
  destruct IH as (gss & F & A & B & C); [intros u Hu; apply H; now right|]. destruct (H t (or_introl eq_refl)) as (Hf & gs & Hg). destruct (file_glyphs_facts _ _ _ _ Hf Hg) as (HS & HO).
  exists (gs :: gss). split; [constructor; assumption|]. cbn [List.concat]. split; [apply Forall_app; now split|]. split; [unfold in_order in *; apply Forall_app; now split|].
  intros g. rewrite in_app_iff, C. split.
  - intros [Hi|(u & k & Hu & Hk & Hi)]; [exists t, gs|exists u, k]; cbn [In]; auto.
  - intros (u & k & [<-|Hu] & Hk & Hi); [left|right; eauto]. rewrite (file_glyphs_unique disk lum t gs k Hf Hg Hk). exact Hi.
Qed.
Lemma run_prints disk lum r : good_run disk lum r -> exists gs, (forall prog, write_glyphs_main disk (prog :: fst r ++ triples (snd r)) = Ok (write_glyphs gs, Exits 0)) /\
  Forall storable gs /\ in_order gs /\ forall g, In g gs <-> exists t l, In t (snd r) /\ file_glyphs disk lum t l /\ In g l.
Proof.
  destruct r as [opts l]. unfold good_run. cbn [fst snd]. intros (Hn & Ho & H). destruct (good_glyphs disk lum l H) as (gss & F & A & B & C). exists (List.concat gss). split; [|auto].
  intros prog. destruct Ho as [(-> & -> & X)|(t & v & -> & X & Y & ->)].
  - exact (write_main_ok disk prog l gss Hn X F).
  - exact (write_main_option disk prog t v l gss X Y Hn F).
Qed.
Lemma runs_print disk lum rs : Forall (good_run disk lum) rs -> exists gss, Forall2 (fun r gs => forall prog, write_glyphs_main disk (prog :: fst r ++ triples (snd r)) = Ok (write_glyphs gs, Exits 0)) rs gss /\
  Forall (Forall storable) gss /\ in_order (List.concat gss) /\ forall g, In g (List.concat gss) <-> exists t l, learns rs t /\ file_glyphs disk lum t l /\ In g l.
Proof.
  induction 1 as [|r rs H F (gss & P & A & B & C)].
  { exists []. split; [constructor|]. split; [constructor|]. split; [constructor|]. intros g. split; [intros []|intros (t & l & (r & [] & _) & _)]. }
  destruct (run_prints disk lum r H) as (gs & Pr & A' & B' & C'). exists (gs :: gss). split; [constructor; assumption|]. split; [constructor; assumption|]. cbn [List.concat].
  split; [unfold in_order in *; apply Forall_app; now split|]. intros g. rewrite in_app_iff, C, C'. unfold learns. split.
  - intros [(t & l & Ht & Hl)|(t & l & (r' & Hr & Ht) & Hl)]; exists t, l; (split; [|exact Hl]); [exists r|exists r']; cbn [In]; auto.
  - intros (t & l & (r' & [<-|Hr] & Ht) & Hl); [left; exists t, l; auto|right; exists t, l; split; [exists r'; auto|exact Hl]].
Qed.
Lemma written_files disk names gss : Forall2 (fun n gs => disk n = Some (write_glyphs gs)) names gss -> Forall (Forall storable) gss -> files_text disk names (inl (List.concat gss)).
Proof.
  induction 1 as [|n gs names gss E F IH]; intros HS; [constructor|]. inversion HS as [|? ? HS1 HS2]; subst. cbn [List.concat]. eapply ft_read; [exact E| |exact (IH HS2)].
  destruct (read_good gs (Some (write_glyphs gs))) as (f & s & Ef & Er & Es); [exists []; rewrite app_nil_r; repeat split; [exact HS1|constructor]|]. injection Ef as <-.
  destruct (glyph_text_outcome (write_glyphs gs)) as (l & b & G & _ & (s' & Er' & Es') & _). rewrite Er in Er'. injection Er' as <- <-. rewrite Es in Es'. now rewrite Es'.
Qed.
Section Sorts.
Context (sort sort' : list glyph -> list glyph) (sort_views sort_views' : list view -> list view).
Hypothesis (H1 : is_std_sort glyph_less sort).
Hypothesis (H1' : is_std_sort glyph_less sort').
Hypothesis (H2 : is_std_sort view_less sort_views).
Hypothesis (H2' : is_std_sort view_less sort_views').
Lemma Forall2_same {A B} (R : A -> B -> Prop) l : forall m, Forall2 R l m -> (m = [] <-> l = []).
Proof. intros m F. destruct F; split; congruence. Qed.
Lemma runs_taught disk lum rs rs' : Forall (good_run disk lum) rs -> Forall (good_run disk lum) rs' -> (forall t, learns rs t <-> learns rs' t) ->
  exists gfs gfs', let printed r gf := forall prog, write_glyphs_main disk (prog :: fst r ++ triples (snd r)) = Ok (gf, Exits 0) in
    Forall2 printed rs gfs /\ Forall2 printed rs' gfs' /\
    forall disk1 disk2 names names' prog prog', Forall2 (fun n gf => disk1 n = Some gf) names gfs -> Forall2 (fun n gf => disk2 n = Some gf) names' gfs' ->
      normalize_main sort sort_views disk1 (prog :: names) = normalize_main sort' sort_views' disk2 (prog' :: names').
Proof.
  intros G G' E. destruct (runs_print disk lum rs G) as (gss & P & A & B & C). destruct (runs_print disk lum rs' G') as (gss' & P' & A' & B' & C').
  exists (map write_glyphs gss), (map write_glyphs gss'). cbv zeta.
  assert (K : forall (R : run -> list glyph -> Prop) (Q : run -> list Z -> Prop) l m, (forall r gs, R r gs -> Q r (write_glyphs gs)) -> Forall2 R l m -> Forall2 Q l (map write_glyphs m)).
  { intros R Q l m I F. induction F; constructor; auto. }
  split; [revert P; apply K; auto|]. split; [revert P'; apply K; auto|]. clear K. intros disk1 disk2 names names' prog prog' F F'.
  assert (K : forall (d : list Z -> option (list Z)) l m, Forall2 (fun n gf => d n = Some gf) l (map write_glyphs m) -> Forall2 (fun n gs => d n = Some (write_glyphs gs)) l m).
  { intros d l m. revert l. induction m as [|x m IH]; intros l X; inversion X; subst; constructor; auto. }
  apply K in F, F'. clear K.
  assert (L : forall (d : list Z -> option (list Z)) l m n, Forall2 (fun n gs => d n = Some (write_glyphs gs)) l m -> Forall2 (fun (r : run) gs => forall prog, write_glyphs_main disk (prog :: fst r ++ triples (snd r)) = Ok (write_glyphs gs, Exits 0)) n m -> l = [] <-> n = []).
  { intros d l m n X Y. rewrite <- (Forall2_same _ _ _ X). apply (Forall2_same _ _ _ Y). }
  assert (N : names = [] <-> names' = []).
  { rewrite (L _ _ _ _ F P), (L _ _ _ _ F' P'). split; intros ->.
    - destruct rs' as [|r rs']; [reflexivity|]. inversion G' as [|? ? (Hr & _) _]; subst. destruct r as [o [|t l]]; cbn [snd] in Hr; [congruence|].
      destruct (proj2 (E t)) as (x & [] & _). exists (o, t :: l). cbn [In snd]; auto.
    - destruct rs as [|r rs]; [reflexivity|]. inversion G as [|? ? (Hr & _) _]; subst. destruct r as [o [|t l]]; cbn [snd] in Hr; [congruence|].
      destruct (proj1 (E t)) as (x & [] & _). exists (o, t :: l). cbn [In snd]; auto. }
  destruct names as [|n names]; [rewrite (proj1 N eq_refl); reflexivity|]. assert (Hn' : names' <> []) by (intros X; apply N in X; discriminate X).
  refine (normalize_names sort sort' sort_views sort_views' H1 H1' H2 H2' disk1 disk2 prog prog' (n :: names) names' _ _ _ Hn' (written_files _ _ _ F A) (written_files _ _ _ F' A') B B' _); [discriminate|].
  apply same_members. intros g. rewrite C, C'. split; intros (t & l & Ht & Hl); exists t, l; (split; [apply E; exact Ht|exact Hl]).
Qed.
(** A file that was normalised, with others. *)
Lemma normalised_storable gs out : Forall storable gs -> in_order out -> same_lessons out gs -> Z.of_nat (List.length (flat_map gl_views gs)) < 4294967296 -> Forall storable out.
Proof.
  intros HS O (Him & Hl) HB. unfold in_order in O. rewrite Forall_forall in HS, O. apply Forall_forall. intros g Hg.
  assert (L : forall v, In v (gl_views g) -> exists g', In g' gs /\ In v (gl_views g')).
  { intros v Hv'. destruct (proj1 (Hl (gl_img g) v)) as (g' & Hg' & _ & Hin); [exists g; auto|]. exists g'. auto. }
  split; [|split].
  - destruct (proj1 (Him (gl_img g))) as (g' & Hg' & <-); [exists g; auto|]. apply (HS g' Hg').
  - pose proof (NoDup_incl_length (increasing_views_NoDup _ (O g Hg)) (l' := flat_map gl_views gs)) as Len.
    assert (incl (gl_views g) (flat_map gl_views gs)) by (intros v Hv'; destruct (L v Hv') as (g' & A & B); apply in_flat_map; eauto).
    specialize (Len H). lia.
  - apply Forall_forall. intros v Hv'. destruct (L v Hv') as (g' & A & B). destruct (HS g' A) as (_ & _ & F). rewrite Forall_forall in F. exact (F v B).
Qed.
Lemma good_text (disk : list Z -> option (list Z)) n gs : glyph_file (disk n) gs -> exists text, disk n = Some text /\ glyphs_text text gs true.
Proof.
  intros X. destruct (read_good gs (disk n) X) as (f & s & Ef & Er & Es). exists f. split; [exact Ef|].
  destruct (glyph_text_outcome f) as (l & b & G & _ & (s' & Er' & Es') & _). rewrite Er in Er'. injection Er' as <- <-. rewrite Es in Es'. now rewrite Es'.
Qed.
Lemma good_files (disk d : list Z -> option (list Z)) ns ms : (forall n, In n ns -> d n = disk n) -> Forall2 (fun n gs => glyph_file (disk n) gs) ns ms -> files_text d ns (inl (List.concat ms)).
Proof.
  intros X Y. induction Y as [|n gs ns ms Y1 Y2 IH]; [constructor|]. destruct (good_text disk n gs Y1) as (text & Et & Gt). cbn [List.concat]. eapply ft_read; [rewrite X; [exact Et|now left]|exact Gt|].
  apply IH. intros m Hm. apply X. now right.
Qed.
Lemma concat_storable names gss (disk : list Z -> option (list Z)) : Forall2 (fun n gs => glyph_file (disk n) gs) names gss -> Forall storable (List.concat gss).
Proof. induction 1 as [|n gs names gss (t & _ & A & _) _ IH]; [constructor|]. cbn [List.concat]. apply Forall_app. now split. Qed.
Lemma normalised_added disk disk' names more name nf prog prog' prog2 gss gss' : names <> [] -> Forall2 (fun n gs => glyph_file (disk n) gs) names gss -> Forall2 (fun n gs => glyph_file (disk n) gs) more gss' ->
  in_order (List.concat gss) -> in_order (List.concat gss') -> Z.of_nat (List.length (flat_map gl_views (List.concat gss))) < 4294967296 ->
  normalize_main sort sort_views disk (prog :: names) = Ok (nf, Exits 0) -> disk' name = Some nf -> (forall n, In n more -> disk' n = disk n) ->
  normalize_main sort sort_views disk' (prog' :: name :: more) = normalize_main sort' sort_views' disk (prog2 :: names ++ more).
Proof.
  intros Hn F F' O O' HB En Ed Em.
  pose proof (good_files disk disk names gss (fun _ _ => eq_refl) F) as FT.
  pose proof (files_full _ _ _ FT _ eq_refl) as W. destruct (normalize_order sort sort_views _ H1 H2 W O) as (out & Eo & _ & Oo & Lo & _).
  pose proof (normalised_storable _ out (concat_storable _ _ _ F) Oo Lo HB) as HS.
  assert (nf = write_glyphs out) as ->.
  { destruct names as [|n names]; [congruence|]. rewrite (proj2 (normalize_texts disk n names) _ FT sort sort_views prog), Eo in En. cbn [bind] in En. congruence. }
  assert (FA : Forall2 (fun n gs => glyph_file (disk n) gs) (names ++ more) (gss ++ gss')) by now apply Forall2_app.
  pose proof (good_files disk disk _ _ (fun _ _ => eq_refl) FA) as FT2. rewrite concat_app in FT2.
  assert (FT1 : files_text disk' (name :: more) (inl (out ++ List.concat gss'))).
  { destruct (good_text (fun _ => Some (write_glyphs out)) name out) as (text & Et & Gt); [exists []; rewrite app_nil_r; repeat split; [exact HS|constructor]|]. injection Et as <-.
    eapply ft_read; [exact Ed|exact Gt|]. exact (good_files disk disk' more gss' Em F'). }
  assert (N2 : names ++ more <> []) by (destruct names; [congruence|discriminate]).
  refine (normalize_names sort sort' sort_views sort_views' H1 H1' H2 H2' disk' disk prog' prog2 (name :: more) (names ++ more) _ _ _ N2 FT1 FT2 _ _ _); [discriminate| | |].
  - unfold in_order in *. apply Forall_app. now split.
  - unfold in_order in *. apply Forall_app. now split.
  - apply same_lessons_app; [exact Lo|apply same_lessons_refl].
Qed.
End Sorts.

(** * Dictionaries *)
Lemma words_unique (l l' : list (list Z)) : StronglySorted lex_lt l -> StronglySorted lex_lt l' -> (forall w, In w l <-> In w l') -> l = l'.
Proof.
  assert (I : forall v, ~ lex_lt v v) by (intros v H; apply list_ltb_lex in H; rewrite list_ltb_irrefl in H; discriminate H).
  intros H. revert l'. induction H as [|x l HS IH F]; intros l' H' E.
  - destruct l' as [|y l']; [reflexivity|]. destruct (proj2 (E y) (or_introl eq_refl)).
  - destruct H' as [|y l' HS' F']; [destruct (proj1 (E x) (or_introl eq_refl))|]. rewrite Forall_forall in F, F'.
    assert (x = y) as ->.
    { destruct (proj1 (E x) (or_introl eq_refl)) as [->|Hx]; [reflexivity|]. destruct (proj2 (E y) (or_introl eq_refl)) as [->|Hy]; [reflexivity|].
      exfalso. exact (I x (lex_trans x y x (F y Hy) (F' x Hx))). }
    f_equal. apply IH; [exact HS'|]. intros v. split; intros Hv.
    + destruct (proj1 (E v) (or_intror Hv)) as [<-|]; [exfalso; exact (I _ (F _ Hv))|assumption].
    + destruct (proj2 (E v) (or_intror Hv)) as [<-|]; [exfalso; exact (I _ (F' _ Hv))|assumption].
Qed.
Lemma codes_or_ub words : (forall w, In w words -> (exists c, utf8_codes w = Ok c) \/ utf8_codes w = UB) ->
  (exists w, In w words /\ utf8_codes w = UB /\ map_res utf8_codes words = UB) \/ exists cs, map_res utf8_codes words = Ok cs /\ (forall w, In w words -> exists c, utf8_codes w = Ok c) /\ forall c, In c cs <-> exists w, In w words /\ utf8_codes w = Ok c.
Proof.
  induction words as [|w words IH]; intros H.
  { right. exists []. split; [reflexivity|]. split; [intros w []|]. intros c. split; [intros []|intros (w & [] & _)]. }
  cbn [map_res]. destruct (H w (or_introl eq_refl)) as [(c & E)|E]; rewrite E; [|left; exists w; cbn; auto]. cbn [bind].
  destruct IH as [(v & Hv & Ev & ->)|(cs & -> & Ha & Hc)]; [intros v Hv; apply H; now right|left; exists v; cbn; auto|]. right. exists (c :: cs). split; [reflexivity|].
  split; [intros v [<-|Hv]; [eauto|exact (Ha v Hv)]|].
  intros d. cbn [In]. rewrite Hc. split.
  - intros [<-|(v & Hv & Ev)]; [exists w; auto|exists v; auto].
  - intros (v & [<-|Hv] & Ev); [left; congruence|right; eauto].
Qed.
Lemma dictionary_words sort sort' before before' text text' after after' ls ls' : is_std_sort (list_ltb Z.ltb) sort -> is_std_sort (list_ltb Z.ltb) sort' ->
  (forall f, In f before -> f = None) -> (forall f, In f before' -> f = None) -> text_lines text ls -> text_lines text' ls' -> octets text -> octets text' -> (forall w, In w ls <-> In w ls') ->
  dictionary_of_files sort (before ++ Some text :: after) = dictionary_of_files sort' (before' ++ Some text' :: after').
Proof.
  intros Hs Hs' B B' T T' O O' E. unfold dictionary_of_files. rewrite (words_first before text ls after B T), (words_first before' text' ls' after' B' T'). cbn [bind]. unfold make_dictionary.
  assert (OL : forall t l, text_lines t l -> octets t -> forall w, In w l -> octets w).
  { intros t l (full & tail & -> & _ & ->) Ho w Hw. unfold octets in *. rewrite Forall_app in Ho. destruct Ho as (Ho1 & Ho2). apply in_app_iff in Hw as [Hw|Hw].
    - rewrite Forall_forall in *. intros c Hc. apply Ho1, in_flat_map. exists w. split; [exact Hw|apply in_app_iff; now left].
    - destruct tail as [|c0 tail]; [destruct Hw|]. destruct Hw as [<-|[]]. exact Ho2. }
  assert (UL : forall w, octets w -> (exists c, utf8_codes w = Ok c) \/ utf8_codes w = UB).
  { intros w Ow. destruct (decode_outcome w Ow) as (A & C & [(gs & G)|G]); [left; exists (values gs); exact (A gs G)|right; exact (C G)]. }
  destruct (codes_or_ub ls) as [(w & Hw & Ew & ->)|(cs & -> & Ha & Hc)]; [intros w Hw; apply UL, (OL text ls T O w Hw)| |];
    (destruct (codes_or_ub ls') as [(w' & Hw' & Ew' & ->)|(cs' & -> & Ha' & Hc')]; [intros v Hv; apply UL, (OL text' ls' T' O' v Hv)| |]).
  - reflexivity.
  - exfalso. destruct (Ha' w) as (c & Ec); [apply E, Hw|congruence].
  - exfalso. destruct (Ha w') as (c & Ec); [apply E, Hw'|congruence].
  - cbn [bind]. assert (uniq (sort cs) = uniq (sort' cs')) as ->; [|reflexivity].
    destruct (Hs cs (list_ltb_strict_weak cs)) as (P & S1). destruct (Hs' cs' (list_ltb_strict_weak cs')) as (P' & S2).
    apply words_unique; [exact (uniq_sorted _ S1)|exact (uniq_sorted _ S2)|]. intros c. rewrite !uniq_In.
    assert (M : forall (a b : list (list Z)), Permutation a b -> (In c a <-> In c b)) by (intros a b X; split; apply Permutation_in; [exact X|now symmetry]).
    rewrite <- (M _ _ P), <- (M _ _ P'), Hc, Hc'. split; intros (w & Hw & Ew); exists w; (split; [apply E; exact Hw|exact Ew]).
Qed.
