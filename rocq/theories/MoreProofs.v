From Verif Require Import Base BaseProofs SortModel ImageModel ImageSpec BoxModel BoxSpec StratModel StratSpec ZoneModel DatasModel DatasSpec DatasProofs TrieModel StreamModel GlyphIoModel IndexModel FloatModel FloatSpec FloatProofs
  RecogModel RecogSpec RecogProofs ExtractSpec Ocr6Model Ocr6Spec Ocr6Proofs Ocr6Proofs2 OcrProofs Ocr6Proofs3 Ocr6Proofs4 Ocr6Proofs5 Same6Spec SameProofs4 PipelineSpec Chain6Spec MoreSpec.
From Coq Require Import Sorted SpecFloat Permutation.

Lemma squeeze_head (l : list (list Z)) : hd_error (squeeze l) = hd_error l.
Proof.
  induction l as [|a l IH]; [reflexivity|]. destruct l as [|b l]; [reflexivity|]. cbn [squeeze]. destruct (list_eq_dec Z.eq_dec a b) as [->|N]; [exact IH|reflexivity].
Qed.
Lemma split_others {A} (l1 l2 : list A) g h : In h (l1 ++ l2) <-> exists j, j <> List.length l1 /\ nth_error (l1 ++ g :: l2) j = Some h.
Proof.
  rewrite in_app_iff. split.
  - intros [H|H]; apply In_nth_error in H as (k & Ek).
    + assert (k < List.length l1)%nat by (apply nth_error_Some; congruence). exists k. split; [lia|]. rewrite nth_error_app1 by lia. exact Ek.
    + exists (S (List.length l1 + k)). split; [lia|]. rewrite nth_error_app2 by lia. replace (S (List.length l1 + k) - List.length l1)%nat with (S k) by lia. exact Ek.
  - intros (j & Nj & E). destruct (Nat.lt_ge_cases j (List.length l1)) as [L|G].
    + left. rewrite nth_error_app1 in E by lia. exact (nth_error_In _ _ E).
    + right. rewrite nth_error_app2 in E by lia. destruct (j - List.length l1)%nat as [|k] eqn:K; [lia|]. cbn [nth_error] in E. exact (nth_error_In _ _ E).
Qed.

Section Rows.
Context (z : list Z -> list Z) (Hz : is_std_sort Z.ltb z) (gs : list glyph) (e : env6) (HB : built6 z gs e).
Local Notation N := (Z.of_nat (List.length (e6_words e))).
Local Notation zr := (r6_zones (e6_rt e)).
Context (im : image) (value : strategy -> Z) (Hv : forall s, In s simple_strategies -> seen6 zr im s (VNum (value s))).

Lemma near_row i g : 0 <= i < N -> (forall s v, In s all_strategies -> (cell6 (e6_cols e) s i v <-> true6 z (gl_img g) s v)) -> near6 z im g -> close6 (e6_cols e) N value i.
Proof.
  intros Hi Cg Ng. assert (Sv : forall s, In s simple_strategies -> seen6 z im s (VNum (value s))) by (intros s Hs; apply (seen_any z Hz gs e HB); now apply Hv).
  split; [exact Hi|]. split.
  - intros a Ha. apply Cg in Ha; [|now apply simple_in_all, first_simple]. pose proof (Ng first_feature _ a first_simple (Sv _ first_simple) Ha) as B.
    rewrite (proj2 (strategy_eqb_eq _ _) eq_refl) in B. lia.
  - intros s a Hs Ne Ha. apply Cg in Ha; [|now apply simple_in_all]. pose proof (Ng s _ a Hs (Sv _ Hs) Ha) as B.
    destruct (strategy_eqb s first_feature) eqn:E; [apply strategy_eqb_eq in E; congruence|]. lia.
Qed.
Lemma plausible_row i g : (forall s v, In s all_strategies -> (cell6 (e6_cols e) s i v <-> true6 z (gl_img g) s v)) -> (plausible6 zr im (e6_cols e) i <-> plausible_glyph6 z im g).
Proof.
  intros Cg. split; intros H s a b Hs Sa Tb; (apply (H s a b Hs); [now apply (seen_any z Hz gs e HB)|apply Cg; [now apply complex_all|exact Tb]]).
Qed.
Lemma alike_row i g : (forall s v, In s all_strategies -> (cell6 (e6_cols e) s i v <-> true6 z (gl_img g) s v)) -> (alike6 zr im (e6_cols e) i <-> alike_glyph6 z im g).
Proof.
  intros Cg. destruct zone_all as (Z1 & Z2 & _). split; intros (A & B); (split; [intros a b Sa Tb; apply A|intros a b Sa Tb; apply B]); try (now apply (seen_any z Hz gs e HB)); now apply Cg.
Qed.

(** A row with the glyphs of the other rows. *)
Lemma supported_row l1 g l2 : List.length (e6_words e) = List.length (l1 ++ g :: l2) ->
  (forall i g0, nth_error (l1 ++ g :: l2) i = Some g0 -> labels6 (e6_words e) (Z.of_nat i) = squeeze (map vw_word (gl_views g0)) /\
     forall s v, In s all_strategies -> (cell6 (e6_cols e) s (Z.of_nat i) v <-> true6 z (gl_img g0) s v)) ->
  (supported6 zr im (e6_cols e) (e6_words e) (Z.of_nat (List.length l1)) <-> backed6 z im g (l1 ++ l2)).
Proof.
  intros L H. set (i := Z.of_nat (List.length l1)).
  assert (Eg : nth_error (l1 ++ g :: l2) (List.length l1) = Some g) by (rewrite nth_error_app2, Nat.sub_diag by lia; reflexivity).
  assert (Fi : forall k h, nth_error (l1 ++ g :: l2) k = Some h -> hd_error (labels6 (e6_words e) (Z.of_nat k)) = first_of h).
  { intros k h Ek. rewrite (proj1 (H k h Ek)), squeeze_head. reflexivity. }
  assert (Hi : 0 <= i < N) by (rewrite L, app_length; unfold i; cbn [List.length]; lia).
  assert (SW : forall k h, nth_error (l1 ++ g :: l2) k = Some h -> (same_word6 (e6_words e) i (Z.of_nat k) <-> k <> List.length l1 /\ first_of h = first_of g)).
  { intros k h Ek. assert (k < List.length (l1 ++ g :: l2))%nat by (apply nth_error_Some; congruence). unfold same_word6. rewrite (Fi k h Ek). unfold i. rewrite (Fi _ g Eg). fold i.
    split; [intros (_ & _ & A & B); split; [lia|now symmetry]|intros (A & B); split; [exact Hi|split; [lia|split; [lia|now symmetry]]]]. }
  assert (Ix : forall j, same_word6 (e6_words e) i j -> exists k h, j = Z.of_nat k /\ nth_error (l1 ++ g :: l2) k = Some h).
  { intros j (_ & Hj & _). rewrite L in Hj. destruct (nth_error (l1 ++ g :: l2) (Z.to_nat j)) as [h|] eqn:E; [|apply nth_error_None in E; lia]. exists (Z.to_nat j), h. split; [lia|exact E]. }
  unfold supported6, backed6. split; (intros [A|(x & B & C)]; [left|right]).
  - intros h Hh E. apply (split_others l1 l2 g h) in Hh as (k & Nk & Ek). apply (A (Z.of_nat k)). apply (SW k h Ek). now split.
  - destruct (Ix x B) as (k & h & -> & Ek). destruct (proj1 (SW k h Ek) B) as (Nk & Eh). exists h. split; [apply (split_others l1 l2 g h); exists k; now split|]. split; [exact Eh|].
    apply (alike_row (Z.of_nat k) h); [exact (proj2 (H k h Ek))|exact C].
  - intros j B. destruct (Ix j B) as (k & h & -> & Ek). destruct (proj1 (SW k h Ek) B) as (Nk & Eh). apply (A h); [|exact Eh]. apply (split_others l1 l2 g h). exists k. now split.
  - apply (split_others l1 l2 g x) in B as (k & Nk & Ek). destruct C as (Eh & C). exists (Z.of_nat k). split; [apply (SW k x Ek); now split|]. apply (alike_row (Z.of_nat k) x); [exact (proj2 (H k x Ek))|exact C].
Qed.
Lemma retained_row i : retained6 zr im (e6_cols e) (e6_words e) value i -> exists g, In g gs /\ labels6 (e6_words e) i = words_of6 g /\ retained_glyph6 z gs im g.
Proof.
  intros (C & P & B). pose proof C as (Hi & _). pose proof HB as (_ & gs' & Pm & L & H).
  destruct (nth_error gs' (Z.to_nat i)) as [g|] eqn:Eg; [|apply nth_error_None in Eg; lia]. pose proof (H _ _ Eg) as (Lb & Cg). rewrite Z2Nat.id in Lb, Cg by lia.
  exists g. assert (Ig : In g gs) by (eapply Permutation_in; [apply Permutation_sym, Pm|exact (nth_error_In _ _ Eg)]). split; [exact Ig|]. split; [exact Lb|]. split; [|split].
  - intros s a b Hs Sa Tb. pose proof (value_seen z Hz gs e HB im value Hv s a Hs Sa) as ->. apply Cg in Tb; [|now apply simple_in_all]. destruct C as (_ & C1 & C2). destruct (strategy_eqb s first_feature) eqn:E.
    + apply strategy_eqb_eq in E. subst s. specialize (C1 b Tb). lia.
    + assert (Ne : s <> first_feature) by (intros Q; apply strategy_eqb_eq in Q; congruence). rewrite (C2 s b Hs Ne Tb), Z.sub_diag. cbn. lia.
  - now apply (plausible_row i g Cg).
  - destruct (nth_error_split _ _ Eg) as (l1 & l2 & -> & Ll). exists (l1 ++ l2). split; [now rewrite Pm, Permutation_middle|].
    apply (supported_row l1 g l2 L H). rewrite Ll, Z2Nat.id by lia. exact B.
Qed.
Lemma retained_from g : retained_glyph6 z gs im g -> exists i, labels6 (e6_words e) i = words_of6 g /\ retained6 zr im (e6_cols e) (e6_words e) value i.
Proof.
  intros (Ng & P & others & Po & B). pose proof HB as (_ & gs' & Pm & L & H). assert (Pg : Permutation gs' (g :: others)) by (now rewrite <- Pm).
  assert (Ig : In g gs') by (eapply Permutation_in; [apply Permutation_sym, Pg|now left]). apply in_split in Ig as (l1 & l2 & ->).
  assert (Pr : Permutation (l1 ++ l2) others) by (apply (Permutation_cons_inv (a := g)); rewrite <- Pg; apply Permutation_middle).
  assert (Eg : nth_error (l1 ++ g :: l2) (List.length l1) = Some g) by (rewrite nth_error_app2, Nat.sub_diag by lia; reflexivity). pose proof (H _ _ Eg) as (Lb & Cg).
  exists (Z.of_nat (List.length l1)). split; [exact Lb|]. split; [|split].
  - apply (near_row _ g); [rewrite L, app_length; cbn [List.length]; lia|exact Cg|exact Ng].
  - now apply (plausible_row _ g Cg).
  - apply (supported_row l1 g l2 L H). destruct B as [B|(h & Hh & B)].
    + left. intros h Hh. apply B. eapply Permutation_in; [exact Pr|exact Hh].
    + right. exists h. split; [eapply Permutation_in; [apply Permutation_sym, Pr|exact Hh]|exact B].
Qed.
Lemma certain_row6 i : certain6 (e6_cols e) N value i -> exists g, In g gs /\ labels6 (e6_words e) i = words_of6 g /\ same6 z im g.
Proof. intros C. destruct (close_glyph z Hz gs e HB im value Hv i (proj1 C)) as (g & Hg & Lb & _ & K). exists g. split; [exact Hg|]. split; [exact Lb|now apply K]. Qed.
Lemma certain_from g : In g gs -> same6 z im g -> exists i, labels6 (e6_words e) i = words_of6 g /\ certain6 (e6_cols e) N value i.
Proof.
  intros Hg Sg. destruct (same_identified z Hz gs e HB im g Hg Sg) as (i & (Hi & H) & Lb). exists i. split; [exact Lb|]. split; [split; [exact Hi|split]|].
  - intros a Ha. rewrite (H first_feature a _ first_simple Ha (Hv _ first_simple)), Z.sub_diag. cbn. lia.
  - intros s a Hs _ Ha. exact (H s a _ Hs Ha (Hv s Hs)).
  - intros a Ha. exact (H first_feature a _ first_simple Ha (Hv _ first_simple)).
Qed.
Lemma enumerated (kept : Z -> Prop) (P : glyph -> Prop) ks w : (forall i, kept i -> exists g, labels6 (e6_words e) i = words_of6 g /\ P g) ->
  (forall g, P g -> exists i, labels6 (e6_words e) i = words_of6 g /\ kept i) -> enumerates (e6_words e) kept ks ->
  (In w (flat_map (labels6 (e6_words e)) ks) <-> exists g, P g /\ In w (map vw_word (gl_views g))).
Proof.
  intros A B En. rewrite in_flat_map. split.
  - intros (k & Ik & Iw). destruct (A k (en_kept _ _ _ En k Ik)) as (g & Lb & Pg). exists g. split; [exact Pg|]. rewrite Lb in Iw. unfold words_of6 in Iw. rewrite squeeze_In in Iw. exact Iw.
  - intros (g & Pg & Iw). destruct (B g Pg) as (i & Lb & Ki). destruct (en_all _ _ _ En i Ki) as (k & Ik & Lk). exists k. split; [exact Ik|]. rewrite Lk, Lb. unfold words_of6. rewrite squeeze_In. exact Iw.
Qed.
End Rows.

Lemma found_words z gs e im f : is_std_sort Z.ltb z -> built6 z gs e -> recognisable im -> recognised6 (recognise6 e) im f -> words_found6 z gs im (f6_words f).
Proof.
  intros Hz HB R Rf. pose proof HB as (HE & _). destruct (recognise6_exact e 0 im HE R) as (O & _). destruct (O f (Rf 0)) as (value & Sv & D). cbv zeta in D.
  pose proof (retained_from z Hz gs e HB im value Sv) as RF. pose proof (retained_row z Hz gs e HB im value Sv) as RR.
  assert (NC : (forall i, ~ certain6 (e6_cols e) (Z.of_nat (List.length (e6_words e))) value i) -> forall g, In g gs -> ~ same6 z im g).
  { intros H g Hg Sg. destruct (certain_from z Hz gs e HB im value Sv g Hg Sg) as (i & _ & Ci). exact (H i Ci). }
  destruct D as [(No & ->)|[(ks & w & En & H & ->)|(Nc & k & w & l & Ck & _ & [(Nr & ->)|(ks & w2 & En & H & ->)])]]; cbn [f6_words].
  - right. split; [apply NC; intros i (C & _); exact (No i C)|]. right. split; [|reflexivity]. intros g Rg. destruct (RF g Rg) as (i & _ & (C & _)). exact (No i C).
  - left. split.
    + destruct H as (k & ks' & l & -> & E). destruct (certain_row6 z Hz gs e HB im value Sv k (en_kept _ _ _ En k (or_introl eq_refl))) as (g & Hg & _ & Sg). now exists g.
    + intros x. rewrite (enumerated e (certain6 (e6_cols e) (Z.of_nat (List.length (e6_words e))) value) (fun g => In g gs /\ same6 z im g) ks x); [split; intros (g & P); exists g; tauto| | |exact En].
      * intros i Ci. destruct (certain_row6 z Hz gs e HB im value Sv i Ci) as (g & Hg & Lb & Sg). exists g. tauto.
      * intros g (Hg & Sg). exact (certain_from z Hz gs e HB im value Sv g Hg Sg).
  - right. split; [now apply NC|]. right. split; [|reflexivity]. intros g Rg. destruct (RF g Rg) as (i & _ & Ri). exact (Nr i Ri).
  - right. split; [now apply NC|]. left. split.
    + destruct H as (j & ks' & l' & -> & E). destruct (RR j (en_kept _ _ _ En j (or_introl eq_refl))) as (g & _ & _ & Rg). now exists g.
    + intros x. apply (enumerated e (retained6 (r6_zones (e6_rt e)) im (e6_cols e) (e6_words e) value) (retained_glyph6 z gs im) ks x); [| |exact En].
      * intros i Ri. destruct (RR i Ri) as (g & _ & Lb & Rg). now exists g.
      * exact RF.
Qed.

(** * More glyphs *)
Lemma retained_in z gs im g : retained_glyph6 z gs im g -> In g gs.
Proof. intros (_ & _ & o & P & _). eapply Permutation_in; [apply Permutation_sym, P|now left]. Qed.
Lemma same_near z im g : same6 z im g -> near6 z im g.
Proof. intros H s a b Hs Sa Tb. rewrite (H s a b Hs Sa Tb), Z.sub_diag. destruct (strategy_eqb _ _); cbn; lia. Qed.
Section Unrelated.
Context (z : list Z -> list Z) (gs hs gs' : list glyph) (im : image) (P : Permutation gs' (gs ++ hs)) (U : unrelated6 z gs hs im).
Lemma more_in g : In g gs -> In g gs'.
Proof. intros H. eapply Permutation_in; [apply Permutation_sym, P|]. apply in_or_app. now left. Qed.
Lemma more_near g : In g gs' -> near6 z im g -> In g gs.
Proof. intros H N. apply (Permutation_in _ P) in H. apply in_app_or in H as [H|H]; [exact H|]. destruct (proj1 (U g H) N). Qed.
Lemma unrelated_backed g others : near6 z im g -> In g gs -> (backed6 z im g others <-> backed6 z im g (others ++ hs)).
Proof.
  intros Ng Ig. split; (intros [A|(h & Hh & E & A)]; [left|right]).
  - intros h Hh. apply in_app_or in Hh as [Hh|Hh]; [now apply A|]. exact (proj2 (U h Hh) g Ig Ng).
  - exists h. split; [apply in_or_app; now left|now split].
  - intros h Hh. apply A, in_or_app. now left.
  - apply in_app_or in Hh as [Hh|Hh]; [exists h; split; [exact Hh|now split]|]. destruct (proj2 (U h Hh) g Ig Ng E).
Qed.
Lemma backed_perm g o o' : Permutation o o' -> backed6 z im g o -> backed6 z im g o'.
Proof.
  intros Po [A|(h & Hh & B)]; [left|right].
  - intros h Hh. apply A. eapply Permutation_in; [apply Permutation_sym, Po|exact Hh].
  - exists h. split; [eapply Permutation_in; [exact Po|exact Hh]|exact B].
Qed.
Lemma unrelated_retained g : retained_glyph6 z gs im g <-> retained_glyph6 z gs' im g.
Proof.
  split.
  - intros R. pose proof (retained_in _ _ _ _ R) as Ig. destruct R as (Ng & Pg & o & Po & B). split; [exact Ng|]. split; [exact Pg|]. exists (o ++ hs). split; [now rewrite P, Po|]. now apply (unrelated_backed g o Ng Ig).
  - intros R. pose proof (retained_in _ _ _ _ R) as Ig'. destruct R as (Ng & Pg & o & Po & B). pose proof (more_near g Ig' Ng) as Ig. split; [exact Ng|]. split; [exact Pg|].
    destruct (in_split _ _ Ig) as (l1 & l2 & Es). assert (Pm : Permutation gs (g :: l1 ++ l2)) by (rewrite Es; symmetry; apply Permutation_middle). exists (l1 ++ l2). split; [exact Pm|].
    apply (unrelated_backed g (l1 ++ l2) Ng Ig). apply (backed_perm g o); [|exact B]. apply (Permutation_cons_inv (a := g)). rewrite <- Po, P, Pm. reflexivity.
Qed.
Lemma unrelated_same g : (In g gs /\ same6 z im g) <-> (In g gs' /\ same6 z im g).
Proof. split; intros (A & B); (split; [|exact B]); [now apply more_in|apply more_near; [exact A|now apply same_near]]. Qed.
Lemma unrelated_words ws ws' : words_found6 z gs im ws -> words_found6 z gs' im ws' -> forall w, In w ws <-> In w ws'.
Proof.
  intros H H' w. destruct H as [((g & Hg) & W)|(Ns & H)], H' as [((g' & Hg') & W')|(Ns' & H')].
  - rewrite W, W'. split; intros (x & A & B & C); exists x; [destruct (proj1 (unrelated_same x) (conj A B))|destruct (proj2 (unrelated_same x) (conj A B))]; tauto.
  - apply unrelated_same in Hg as (A & B). destruct (Ns' g A B).
  - apply unrelated_same in Hg' as (A & B). destruct (Ns g' A B).
  - destruct H as [((g & Hg) & W)|(Nr & ->)], H' as [((g' & Hg') & W')|(Nr' & ->)].
    + rewrite W, W'. split; intros (x & A & B); exists x; (split; [now apply unrelated_retained|exact B]).
    + destruct (Nr' g). now apply unrelated_retained.
    + destruct (Nr g'). now apply unrelated_retained.
    + reflexivity.
Qed.
End Unrelated.
Lemma more_words z gs gs' im ws ws' : incl gs gs' -> (exists g, In g gs /\ same6 z im g) -> words_found6 z gs im ws -> words_found6 z gs' im ws' -> incl ws ws'.
Proof.
  intros I (g & Hg & Sg) H H' w Hw. destruct H as [(_ & W)|(N & _)]; [|destruct (N g Hg Sg)]. destruct H' as [(_ & W')|(N & _)]; [|destruct (N g (I g Hg) Sg)].
  apply W' . apply W in Hw as (x & Hx & Sx & Hw). exists x. split; [now apply I|now split].
Qed.
