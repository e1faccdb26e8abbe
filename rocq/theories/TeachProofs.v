(** What is learnt depends on the pictures and their labels only. *)
From Verif Require Import Base BaseProofs SortModel SortProofs ImageModel ImageSpec ImageProofs BoxModel BoxSpec StreamModel DatasModel GlyphIoModel GlyphIoSpec GlyphIoProofs UtfModel TrieModel TrieSpec TrieProofs DictIoModel
  FlatTrieProofs DictionaryProofs DecodeSpec DecodeProofs NormModel NormSpec NormProofs LearnModel LearnSpec LearnProofs LearnProofs4 ShowModel ShowSpec ShowProofs ProgModel ProgSpec ProgProofs GlyphTextSpec GlyphTextProofs
  SameProofs3 PipelineModel PipelineSpec ChainSpec ChainProofs TeachSpec.
From Coq Require Import Sorted Permutation.

(** * Glyphs *)
Lemma same_lessons_refl gs : same_lessons gs gs.
Proof. split; reflexivity. Qed.
Lemma same_lessons_sym gs gs' : same_lessons gs gs' -> same_lessons gs' gs.
Proof. intros (A & B). split; intros; symmetry; [apply A|apply B]. Qed.
Lemma same_lessons_trans a b c : same_lessons a b -> same_lessons b c -> same_lessons a c.
Proof. intros (A & B) (A' & B'). split; intros; [rewrite A; apply A'|rewrite B; apply B']. Qed.
Lemma has_image_app a b i : has_image (a ++ b) i <-> has_image a i \/ has_image b i.
Proof.
  split.
  - intros (g & Hg & E). apply in_app_iff in Hg as [H|H]; [left|right]; exists g; auto.
  - intros [(g & Hg & E)|(g & Hg & E)]; exists g; (split; [apply in_app_iff; auto|exact E]).
Qed.
Lemma labelled_app a b i v : labelled (a ++ b) i v <-> labelled a i v \/ labelled b i v.
Proof.
  split.
  - intros (g & Hg & E). apply in_app_iff in Hg as [H|H]; [left|right]; exists g; auto.
  - intros [(g & Hg & E)|(g & Hg & E)]; exists g; (split; [apply in_app_iff; auto|exact E]).
Qed.
Lemma same_lessons_app a a' b b' : same_lessons a a' -> same_lessons b b' -> same_lessons (a ++ b) (a' ++ b').
Proof. intros (A & B) (A' & B'). split; intros; rewrite ?has_image_app, ?labelled_app, ?A, ?A', ?B, ?B'; reflexivity. Qed.
Lemma same_members gs gs' : (forall g, In g gs <-> In g gs') -> same_lessons gs gs'.
Proof. intros E. split; intros; split; intros (g & Hg & R); exists g; (split; [apply E; exact Hg|exact R]). Qed.

Lemma one_label_order w : increasing_views [w].
Proof. repeat constructor. Qed.
Lemma normalize_order sort sort_views glyphs : is_std_sort glyph_less sort -> is_std_sort view_less sort_views -> Forall (fun g => full_image (gl_img g)) glyphs ->
  in_order glyphs -> exists out, normalize sort sort_views glyphs = Ok out /\ increasing_images out /\ in_order out /\ same_lessons out glyphs /\ Forall (fun g => full_image (gl_img g)) out.
Proof.
  intros H1 H2 W O. destruct (normalize_pairs sort sort_views glyphs H1 H2 W) as (out & E & So & Io & Lo). destruct (normalize_views sort sort_views glyphs H1 H2 W) as (o & E' & Vo).
  assert (o = out) as -> by congruence. exists out. split; [exact E|]. split; [exact So|]. split; [|split; [split; assumption|exact (image_wfg glyphs out W Io)]].
  apply Forall_forall. intros g Hg. destruct (Vo g Hg) as [(_ & Hi)|(_ & Hi)]; [|exact Hi]. unfold in_order in O. rewrite Forall_forall in O. exact (O g Hi).
Qed.
Lemma same_result a b : increasing_images a -> increasing_images b -> Forall (fun g => full_image (gl_img g)) a -> Forall (fun g => full_image (gl_img g)) b -> in_order a -> in_order b ->
  same_lessons a b -> a = b.
Proof.
  intros Sa Sb Wa Wb Oa Ob (I & L). apply same_glyphs; [apply sorted_images_unique; auto|].
  unfold in_order in Oa, Ob. rewrite Forall_forall in Oa, Ob. intros g g' Hg Hg' Eg. specialize (Oa g Hg). specialize (Ob g' Hg').
  destruct g as [i l], g' as [i' l']. cbn [gl_img gl_views] in *. subst i'. f_equal. apply sorted_views_unique; [exact Oa|exact Ob|].
  intros v. specialize (L i v).
  assert (L1 : labelled a i v <-> In v l).
  { split; [|intros Hv; exists (mkglyph i l); auto]. intros (z & Hz & Ez & Hv). rewrite (one_image a Sa Wa z (mkglyph i l) Hz Hg Ez) in Hv. exact Hv. }
  assert (L2 : labelled b i v <-> In v l').
  { split; [|intros Hv; exists (mkglyph i l'); auto]. intros (z & Hz & Ez & Hv). rewrite (one_image b Sb Wb z (mkglyph i l') Hz Hg' Ez) in Hv. exact Hv. }
  tauto.
Qed.
Section Sorts.
Context (sort sort' : list glyph -> list glyph) (sort_views sort_views' : list view -> list view).
Hypothesis (H1 : is_std_sort glyph_less sort).
Hypothesis (H1' : is_std_sort glyph_less sort').
Hypothesis (H2 : is_std_sort view_less sort_views).
Hypothesis (H2' : is_std_sort view_less sort_views').
Lemma normalize_lessons gs gs' : Forall (fun g => full_image (gl_img g)) gs -> Forall (fun g => full_image (gl_img g)) gs' -> in_order gs -> in_order gs' ->
  (normalize sort sort_views gs = normalize sort' sort_views' gs' <-> same_lessons gs gs').
Proof.
  intros W W' O O'. destruct (normalize_order sort sort_views gs H1 H2 W O) as (out & -> & So & Oo & Lo & Wo). destruct (normalize_order sort' sort_views' gs' H1' H2' W' O') as (out' & -> & So' & Oo' & Lo' & Wo').
  split.
  - intros E. injection E as <-. exact (same_lessons_trans _ _ _ (same_lessons_sym _ _ Lo) Lo').
  - intros E. f_equal. apply same_result; auto. exact (same_lessons_trans _ _ _ Lo (same_lessons_trans _ _ _ E (same_lessons_sym _ _ Lo'))).
Qed.

(** * Files *)
Lemma normalize_names disk disk' prog prog' names names' gs gs' : names <> [] -> names' <> [] -> files_text disk names (inl gs) -> files_text disk' names' (inl gs') -> in_order gs -> in_order gs' ->
  same_lessons gs gs' -> normalize_main sort sort_views disk (prog :: names) = normalize_main sort' sort_views' disk' (prog' :: names').
Proof.
  intros Hn Hn' F F' O O' E. pose proof (files_full _ _ _ F _ eq_refl) as W. pose proof (files_full _ _ _ F' _ eq_refl) as W'.
  destruct names as [|n names]; [congruence|]. destruct names' as [|n' names']; [congruence|].
  rewrite (proj2 (normalize_texts disk n names) _ F sort sort_views prog), (proj2 (normalize_texts disk' n' names') _ F' sort' sort_views' prog'). cbv iota beta.
  now rewrite (proj2 (normalize_lessons gs gs' W W' O O') E).
Qed.
(** The same files, in another order. *)
Lemma text_unique text gs b gs' b' : glyphs_text text gs b -> glyphs_text text gs' b' -> gs = gs' /\ b = b'.
Proof.
  intros A B. destruct (glyph_text_outcome text) as (l & c & _ & U & _). destruct (U _ _ A) as (<- & <-). exact (U _ _ B).
Qed.
Lemma files_members disk names gs : files_text disk names (inl gs) ->
  (forall n, In n names -> exists text l, disk n = Some text /\ glyphs_text text l true) /\
  forall g, In g gs <-> exists n text l, In n names /\ disk n = Some text /\ glyphs_text text l true /\ In g l.
Proof.
  remember (inl gs) as r eqn:Er. intros F. revert gs Er.
  induction F as [|n names E|n names text l E H|n names text l code E H _ IH|n names text l l' E H F IH]; intros gs Er; try discriminate Er; injection Er as <-.
  - split; [intros n []|]. intros g. split; [intros []|intros (n & text & l & [] & _)].
  - destruct (IH l' eq_refl) as (A & B). split.
    + intros m [<-|Hm]; [eauto|exact (A m Hm)].
    + intros g. rewrite in_app_iff, B. split.
      * intros [Hg|(m & t & k & Hm & Em & Ht & Hg)]; [exists n, text, l|exists m, t, k]; cbn [In]; auto.
      * intros (m & t & k & [<-|Hm] & Em & Ht & Hg); [left|right; eauto 8]. assert (t = text) as -> by congruence. destruct (text_unique _ _ _ _ _ H Ht) as (-> & _). exact Hg.
Qed.
Lemma files_good disk names : (forall n, In n names -> exists text l, disk n = Some text /\ glyphs_text text l true) -> exists gs, files_text disk names (inl gs).
Proof.
  induction names as [|n names IH]; intros H; [exists []; constructor|]. destruct IH as (gs & F); [intros m Hm; apply H; now right|].
  destruct (H n (or_introl eq_refl)) as (text & l & E & G). exists (l ++ gs). eapply ft_read; eassumption.
Qed.
Lemma names_again disk prog prog' names names' gs : names <> [] -> (forall n, In n names <-> In n names') -> files_text disk names (inl gs) -> in_order gs ->
  normalize_main sort sort_views disk (prog :: names) = normalize_main sort' sort_views' disk (prog' :: names').
Proof.
  intros Hn E F O. destruct (files_members _ _ _ F) as (A & B).
  destruct (files_good disk names') as (gs' & F'); [intros n Hi; apply A, E, Hi|]. destruct (files_members _ _ _ F') as (A' & B').
  assert (M : forall g, In g gs <-> In g gs').
  { intros g. rewrite B, B'. split; intros (n & t & l & Hi & R); exists n, t, l; (split; [apply E; exact Hi|exact R]). }
  assert (O' : in_order gs') by (unfold in_order in *; rewrite Forall_forall in *; intros g Hg; apply O, M, Hg).
  assert (Hn' : names' <> []) by (intros ->; destruct names as [|n names]; [congruence|]; exact (proj1 (E n) (or_introl eq_refl))).
  exact (normalize_names disk disk prog prog' names names' gs gs' Hn Hn' F F' O O' (same_members _ _ M)).
Qed.
Lemma files_permuted disk names names' : Permutation names names' -> forall gs, files_text disk names (inl gs) -> exists gs', Permutation gs gs' /\ files_text disk names' (inl gs').
Proof.
  induction 1 as [|n l l' P IH|m n l|l l' l'' P IH P' IH']; intros gs F.
  - exists gs. split; [reflexivity|exact F].
  - inversion F as [| | | |? ? text a b E G F']; subst. destruct (IH b F') as (c & Pc & Fc). exists (a ++ c). split; [now apply Permutation_app_head|]. eapply ft_read; eassumption.
  - inversion F as [| | | |? ? text a b E G F']; subst. inversion F' as [| | | |? ? text' a' b' E' G' F'']; subst. exists (a' ++ a ++ b'). split; [rewrite !app_assoc; apply Permutation_app_tail, Permutation_app_comm|].
    eapply ft_read; [eassumption..|]. eapply ft_read; eassumption.
  - destruct (IH gs F) as (b & Pb & Fb). destruct (IH' b Fb) as (c & Pc & Fc). exists c. split; [now transitivity b|exact Fc].
Qed.
Lemma exits_zero disk prog n names out (s : list glyph -> list glyph) sv : normalize_main s sv disk (prog :: n :: names) = Ok (out, Exits 0) -> exists gs, files_text disk (n :: names) (inl gs).
Proof.
  intros E. destruct (normalize_texts disk n names) as ((r & Hr) & N). rewrite (N r Hr) in E. destruct r as [gs|code]; [eauto|]. exfalso. injection E as _ ->. clear N.
  remember (inr 0) as q eqn:Eq. induction Hr as [|? ? ?|? ? ? ? ? ?|? ? ? ? code ? ? F IH|? ? ? ? ? ? ? F IH]; try discriminate Eq. exact (IH Eq).
Qed.
Lemma names_permuted disk prog prog' names names' out : Permutation names names' ->
  (normalize_main sort sort_views disk (prog :: names) = Ok (out, Exits 0) <-> normalize_main sort' sort_views' disk (prog' :: names') = Ok (out, Exits 0)).
Proof.
  intros P. destruct names as [|n names]; [apply Permutation_nil in P; subst; split; discriminate|]. destruct names' as [|n' names']; [symmetry in P; apply Permutation_nil in P; discriminate|].
  assert (K : forall gs, files_text disk (n :: names) (inl gs) -> normalize_main sort sort_views disk (prog :: n :: names) = normalize_main sort' sort_views' disk (prog' :: n' :: names')).
  { intros gs F. destruct (files_permuted disk _ _ P gs F) as (gs' & Pg & F').
    rewrite (proj2 (normalize_texts disk n names) _ F sort sort_views prog), (proj2 (normalize_texts disk n' names') _ F' sort' sort_views' prog'). cbv iota beta.
    now rewrite (normalize_same sort sort_views sort' sort_views' gs gs' H1 H2 H1' H2' (files_full _ _ _ F _ eq_refl) Pg). }
  split; intros E.
  - destruct (exits_zero _ _ _ _ _ _ _ E) as (gs & F). rewrite <- (K gs F). exact E.
  - destruct (exits_zero _ _ _ _ _ _ _ E) as (gs' & F'). destruct (files_permuted disk _ _ (Permutation_sym P) gs' F') as (gs & _ & F). rewrite (K gs F). exact E.
Qed.
End Sorts.
