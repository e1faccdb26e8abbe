(** What extract_text6 finds does not depend on the order of the rows. *)
From Verif Require Import Base BaseProofs SortModel ImageModel ImageSpec BoxModel BoxSpec StratModel StratSpec ZoneModel DatasModel DatasSpec DatasProofs TrieModel StreamModel GlyphIoModel IndexModel FloatModel FloatSpec FloatProofs
  RecogModel RecogSpec RecogProofs ExtractSpec Ocr6Model Ocr6Spec Ocr6Proofs Ocr6Proofs2 OcrProofs Ocr6Proofs3 Ocr6Proofs4 Ocr6Proofs5 Same6Spec.
From Coq Require Import Sorted SpecFloat Permutation FinFun.

(** * Two orders of the same rows *)
Record moves (f : Z -> Z) (n : Z) (cols : list (list fval)) (words : list (list (list Z))) (cols' : list (list fval)) (words' : list (list (list Z))) : Prop := {
  mv_size : Z.of_nat (List.length words) = n /\ Z.of_nat (List.length words') = n;
  mv_in : forall i, 0 <= i < n -> 0 <= f i < n;
  mv_once : forall i j, 0 <= i < n -> 0 <= j < n -> f i = f j -> i = j;
  mv_all : forall k, 0 <= k < n -> exists i, 0 <= i < n /\ f i = k;
  mv_words : forall i, 0 <= i < n -> labels6 words' i = labels6 words (f i);
  mv_cells : forall i s v, 0 <= i < n -> In s all_strategies -> (cell6 cols' s i v <-> cell6 cols s (f i) v) }.
Lemma complex_all s : In s complex_strategies -> In s all_strategies.
Proof.
  intros H. assert (G : forallb (fun s => existsb (strategy_eqb s) all_strategies) complex_strategies = true) by (vm_compute; reflexivity).
  rewrite forallb_forall in G. specialize (G s H). apply existsb_exists in G. destruct G as (s' & Hs & E). apply strategy_eqb_eq in E. now subst.
Qed.
Lemma zone_all : In (mkst Zone false) all_strategies /\ In (mkst ProportionalityZone false) all_strategies /\ In (mkst Alternations false) all_strategies.
Proof. repeat split; cbv; tauto. Qed.

Section Moves.
Context (f : Z -> Z) (n : Z) (cols cols' : list (list fval)) (words words' : list (list (list Z))) (HM : moves f n cols words cols' words').
Lemma moved_close value i : 0 <= i < n -> (close6 cols' n value i <-> close6 cols n value (f i)).
Proof.
  intros Hi. pose proof (mv_in _ _ _ _ _ _ HM i Hi) as Hf. pose proof (fun s v => mv_cells _ _ _ _ _ _ HM i s v Hi) as C. unfold close6.
  split; intros (_ & A & B); (split; [assumption|split]).
  - intros a Ha. apply A. apply C; [now apply simple_in_all, first_simple|exact Ha].
  - intros s a Hs Ne Ha. apply (B s a Hs Ne). apply C; [now apply simple_in_all|exact Ha].
  - intros a Ha. apply A. apply C; [now apply simple_in_all, first_simple|exact Ha].
  - intros s a Hs Ne Ha. apply (B s a Hs Ne). apply C; [now apply simple_in_all|exact Ha].
Qed.
Lemma moved_certain value i : 0 <= i < n -> (certain6 cols' n value i <-> certain6 cols n value (f i)).
Proof.
  intros Hi. unfold certain6. rewrite (moved_close value i Hi). pose proof (fun s v => mv_cells _ _ _ _ _ _ HM i s v Hi) as C.
  split; intros (A & B); (split; [exact A|]); intros a Ha; apply B; apply C; try exact Ha; now apply simple_in_all, first_simple.
Qed.
Context (z z' : list Z -> list Z) (im : image) (HZ : forall s v, seen6 z im s v <-> seen6 z' im s v).
Lemma moved_plausible i : 0 <= i < n -> (plausible6 z' im cols' i <-> plausible6 z im cols (f i)).
Proof.
  intros Hi. pose proof (fun s v => mv_cells _ _ _ _ _ _ HM i s v Hi) as C. unfold plausible6. split; intros H s a b Hs Sa Cb; apply (H s a b Hs); try (now apply HZ); apply C; try exact Cb; now apply complex_all.
Qed.
Lemma moved_alike i : 0 <= i < n -> (alike6 z' im cols' i <-> alike6 z im cols (f i)).
Proof.
  intros Hi. pose proof (fun s v => mv_cells _ _ _ _ _ _ HM i s v Hi) as C. destruct zone_all as (Z1 & Z2 & _). unfold alike6.
  split; intros (A & B); (split; [intros a b Sa Cb; apply A|intros a b Sa Cb; apply B]); try (now apply HZ); now apply C.
Qed.
Lemma moved_same i j : 0 <= i < n -> 0 <= j < n -> (same_word6 words' i j <-> same_word6 words (f i) (f j)).
Proof.
  intros Hi Hj. unfold same_word6. destruct (mv_size _ _ _ _ _ _ HM) as (-> & ->). rewrite (mv_words _ _ _ _ _ _ HM i Hi), (mv_words _ _ _ _ _ _ HM j Hj).
  pose proof (mv_in _ _ _ _ _ _ HM i Hi). pose proof (mv_in _ _ _ _ _ _ HM j Hj). pose proof (mv_once _ _ _ _ _ _ HM i j Hi Hj) as O.
  split; intros (_ & _ & Ne & E); (split; [assumption|split; [assumption|split; [|exact E]]]); [intros Q; apply Ne; now apply O|intros ->; now apply Ne].
Qed.
Lemma moved_supported i : 0 <= i < n -> (supported6 z' im cols' words' i <-> supported6 z im cols words (f i)).
Proof.
  intros Hi. pose proof (mv_size _ _ _ _ _ _ HM) as (S1 & S2). unfold supported6. split; (intros [N|(j & W & A)]; [left; intros j W|right]).
  - pose proof W as (_ & Hj & _). rewrite S1 in Hj. destruct (mv_all _ _ _ _ _ _ HM j Hj) as (k & Hk & <-). apply (N k). now apply moved_same.
  - pose proof W as (_ & Hj & _). rewrite S2 in Hj. exists (f j). split; [now apply moved_same|now apply moved_alike].
  - pose proof W as (_ & Hj & _). rewrite S2 in Hj. apply (N (f j)). now apply moved_same.
  - pose proof W as (_ & Hj & _). rewrite S1 in Hj. destruct (mv_all _ _ _ _ _ _ HM j Hj) as (k & Hk & <-). exists k. split; [now apply moved_same|now apply moved_alike].
Qed.
Lemma moved_kept i : 0 <= i < n -> (kept6 z' im cols' words' i <-> kept6 z im cols words (f i)).
Proof. intros Hi. unfold kept6. now rewrite moved_plausible, moved_supported. Qed.
Lemma moved_retained value i : 0 <= i < n -> (retained6 z' im cols' words' value i <-> retained6 z im cols words value (f i)).
Proof.
  intros Hi. unfold retained6. destruct (mv_size _ _ _ _ _ _ HM) as (-> & ->). now rewrite moved_close, moved_plausible, moved_supported.
Qed.
Lemma moved_final i x y : 0 <= i < n -> (final_score z' im cols' (mkpr i x) y <-> final_score z im cols (mkpr (f i) x) y).
Proof.
  intros Hi. pose proof (fun s v => mv_cells _ _ _ _ _ _ HM i s v Hi) as C. destruct zone_all as (_ & _ & Z3). unfold final_score. cbn [pr_i pr_p].
  split; intros H a b Sa Cb; apply H; try (now apply HZ); now apply C.
Qed.
End Moves.

(** * The words found *)
Lemma enumerates_one words kept ks l : enumerates words kept ks -> ks <> [] -> (forall i, kept i -> labels6 words i = l) -> flat_map (labels6 words) ks = l.
Proof.
  intros En Ne H. destruct ks as [|k [|k2 ks]]; [congruence| |].
  - cbn [flat_map]. rewrite app_nil_r. apply H. apply (en_kept _ _ _ En). now left.
  - exfalso. pose proof (en_once _ _ _ En) as N. cbn [map] in N. inversion N as [|? ? N1 _]; subst. apply N1. left.
    rewrite (H k) by (apply (en_kept _ _ _ En); now left). rewrite (H k2) by (apply (en_kept _ _ _ En); right; now left). reflexivity.
Qed.
Lemma head_first words ks w : head_word words ks w -> ks <> [] /\ exists k l, In k ks /\ labels6 words k = w :: l.
Proof. intros (k & ks' & l & -> & E). split; [discriminate|]. exists k, l. split; [now left|exact E]. Qed.
(** The decision for the rows, when they leave no choice. *)
Definition decided_rows (cols : list (list fval)) (words : list (list (list Z))) (n : Z) (value : strategy -> Z) : Prop :=
  (forall i j, certain6 cols n value i -> certain6 cols n value j -> labels6 words i = labels6 words j) /\
  ((forall i, ~ certain6 cols n value i) -> forall i j, close6 cols n value i -> close6 cols n value j -> labels6 words i = labels6 words j).
Lemma outcome6_same f n cols cols' words words' z z' im value x y : moves f n cols words cols' words' -> (forall s v, seen6 z im s v <-> seen6 z' im s v) ->
  (forall s, In s simple_strategies -> seen6 z im s (VNum (value s))) -> decided_rows cols words n value ->
  outcome6 z im cols words x -> outcome6 z' im cols' words' y -> x = y.
Proof.
  intros HM HZ Hv (D1 & D2) (v & Sv & O) (v' & Sv' & O'). cbv zeta in O, O'. pose proof (mv_size _ _ _ _ _ _ HM) as (L1 & L2). rewrite L1 in O. rewrite L2 in O'.
  assert (Ev : forall s, In s simple_strategies -> v s = value s /\ v' s = value s).
  { intros s Hs. pose proof (seen6_unique _ _ _ _ _ (Sv s Hs) (Hv s Hs)) as E1. pose proof (seen6_unique _ _ _ _ _ (proj2 (HZ _ _) (Sv' s Hs)) (Hv s Hs)) as E2. split; congruence. }
  assert (Cl : forall cs w, (forall s, In s simple_strategies -> w s = value s) -> forall i, (close6 cs n w i <-> close6 cs n value i) /\ (certain6 cs n w i <-> certain6 cs n value i)).
  { intros cs w Hw i. assert (C : close6 cs n w i <-> close6 cs n value i).
    { unfold close6. rewrite (Hw _ first_simple). split; intros (A & B & C); (split; [exact A|split; [exact B|]]); intros s a Hs Ne Ca; [rewrite <- (Hw s Hs)|rewrite (Hw s Hs)]; exact (C s a Hs Ne Ca). }
    split; [exact C|]. unfold certain6. rewrite C, (Hw _ first_simple). reflexivity. }
  assert (C1 : forall i, close6 cols n v i <-> close6 cols n value i) by (intros i; apply Cl; intros s Hs; now apply Ev).
  assert (K1 : forall i, certain6 cols n v i <-> certain6 cols n value i) by (intros i; apply Cl; intros s Hs; now apply Ev).
  assert (R1 : forall i, retained6 z im cols words v i <-> retained6 z im cols words value i) by (intros i; unfold retained6; rewrite L1, C1; reflexivity).
  assert (C2 : forall i, 0 <= i < n -> (close6 cols' n v' i <-> close6 cols n value (f i))) by (intros i Hi; rewrite (proj1 (Cl cols' v' (fun s Hs => proj2 (Ev s Hs)) i)); now apply (moved_close f n cols cols' words words')).
  assert (K2 : forall i, 0 <= i < n -> (certain6 cols' n v' i <-> certain6 cols n value (f i))) by (intros i Hi; rewrite (proj2 (Cl cols' v' (fun s Hs => proj2 (Ev s Hs)) i)); now apply (moved_certain f n cols cols' words words')).
  assert (R2 : forall i, 0 <= i < n -> (retained6 z' im cols' words' v' i <-> retained6 z im cols words value (f i))).
  { intros i Hi. rewrite <- (moved_retained f n cols cols' words words' HM z z' im HZ value i Hi). unfold retained6. rewrite L2. now rewrite (proj1 (Cl cols' v' (fun s Hs => proj2 (Ev s Hs)) i)). }
  clear Cl. assert (In1 : forall cs w i, close6 cs n w i -> 0 <= i < n) by (intros cs w i H; apply H).
  assert (Up : forall k, 0 <= k < n -> exists i, 0 <= i < n /\ f i = k) by apply (mv_all _ _ _ _ _ _ HM).
  assert (Lb : forall i, 0 <= i < n -> labels6 words' i = labels6 words (f i)) by apply (mv_words _ _ _ _ _ _ HM).
  destruct O as [(N & ->)|[(ks & w & En & Hw & ->)|(N & k & w & l & Ck & Ek & O)]]; destruct O' as [(N' & ->)|[(ks' & w' & En' & Hw' & ->)|(N' & k' & w' & l' & Ck' & Ek' & O')]].
  - reflexivity.
  - destruct (head_first _ _ _ Hw') as (_ & i & _ & Ii & _). pose proof (en_kept _ _ _ En' i Ii) as (Ci & _). destruct (N (f i)). apply C1, C2; [eapply In1; exact Ci|exact Ci].
  - destruct (N (f k')). apply C1, C2; [eapply In1; exact Ck'|exact Ck'].
  - destruct (head_first _ _ _ Hw) as (_ & i & _ & Ii & _). pose proof (en_kept _ _ _ En i Ii) as (Ci & _). destruct (Up i (In1 _ _ _ Ci)) as (j & Hj & <-). destruct (N' j). apply C2; [exact Hj|now apply C1].
  - destruct (head_first _ _ _ Hw) as (Ne & i & l & Ii & Ei). destruct (head_first _ _ _ Hw') as (Ne' & i' & l' & Ii' & Ei').
    assert (A : forall j, certain6 cols n v j -> labels6 words j = w :: l) by (intros j Cj; rewrite <- Ei; apply D1; apply K1; [exact Cj|exact (en_kept _ _ _ En i Ii)]).
    assert (A' : forall j, certain6 cols' n v' j -> labels6 words' j = w :: l).
    { intros j Cj. assert (Hj : 0 <= j < n) by (eapply In1; exact (proj1 Cj)). rewrite (Lb j Hj). apply A. apply K1, K2; assumption. }
    rewrite (enumerates_one _ _ _ _ En Ne A), (enumerates_one _ _ _ _ En' Ne' A'). rewrite (A' i' (en_kept _ _ _ En' i' Ii')) in Ei'. injection Ei' as <- _. reflexivity.
  - destruct (head_first _ _ _ Hw) as (_ & i & _ & Ii & _). pose proof (en_kept _ _ _ En i Ii) as Ci. destruct (Up i (In1 _ _ _ (proj1 Ci))) as (j & Hj & <-). destruct (N' j). apply K2; [exact Hj|now apply K1].
  - destruct (Up k (In1 _ _ _ Ck)) as (j & Hj & <-). destruct (N' j). apply C2; [exact Hj|now apply C1].
  - destruct (head_first _ _ _ Hw') as (_ & i & _ & Ii & _). pose proof (en_kept _ _ _ En' i Ii) as Ci. destruct (N (f i)). apply K1, K2; [eapply In1; exact (proj1 Ci)|exact Ci].
  - assert (A : forall j, close6 cols n v j -> labels6 words j = w :: l).
    { intros j Cj. rewrite <- Ek. apply D2; [intros q Cq; apply (N q); now apply K1|now apply C1|now apply C1]. }
    assert (A' : forall j, close6 cols' n v' j -> labels6 words' j = w :: l).
    { intros j Cj. assert (Hj : 0 <= j < n) by (eapply In1; exact Cj). rewrite (Lb j Hj). apply A. apply C1, C2; assumption. }
    assert (Ew : w' = w) by (rewrite (A' k' Ck') in Ek'; congruence). subst w'.
    destruct O as [(M & ->)|(ks & w2 & En & Hw & ->)], O' as [(M' & ->)|(ks' & w2' & En' & Hw' & ->)].
    + reflexivity.
    + destruct (head_first _ _ _ Hw') as (_ & i & _ & Ii & _). pose proof (en_kept _ _ _ En' i Ii) as Ci. destruct (M (f i)). apply R1, R2; [rewrite <- L2; apply Ci|exact Ci].
    + destruct (head_first _ _ _ Hw) as (_ & i & _ & Ii & _). pose proof (en_kept _ _ _ En i Ii) as Ci. assert (Hi : 0 <= i < n) by (rewrite <- L1; apply Ci). destruct (Up i Hi) as (j & Hj & <-). destruct (M' j). apply R2; [exact Hj|now apply R1].
    + destruct (head_first _ _ _ Hw) as (Ne & i & li & Ii & Ei). destruct (head_first _ _ _ Hw') as (Ne' & i' & li' & Ii' & Ei').
      assert (B : forall j, retained6 z im cols words v j -> labels6 words j = w :: l) by (intros j (Cj & _); apply A; rewrite <- L1; exact Cj).
      assert (B' : forall j, retained6 z' im cols' words' v' j -> labels6 words' j = w :: l) by (intros j (Cj & _); apply A'; rewrite <- L2; exact Cj).
      rewrite (enumerates_one _ _ _ _ En Ne B), (enumerates_one _ _ _ _ En' Ne' B').
      rewrite (B i (en_kept _ _ _ En i Ii)) in Ei. rewrite (B' i' (en_kept _ _ _ En' i' Ii')) in Ei'. congruence.
Qed.

(** * The glyphs *)
Lemma built_moves z gs e e' : built6 z gs e -> built6 z gs e' ->
  exists f, moves f (Z.of_nat (List.length gs)) (e6_cols e) (e6_words e) (e6_cols e') (e6_words e').
Proof.
  intros (_ & l & P & L & H) (_ & l' & P' & L' & H'). assert (Pl : Permutation l l') by (now rewrite <- P). pose proof (Permutation_length P) as N. pose proof (Permutation_length P') as N'.
  apply Permutation_nth_error_bis in Pl as (f & If & Bf & Ef). exists (fun i => Z.of_nat (f (Z.to_nat i))).
  assert (Sf : bSurjective (List.length l) f) by (apply (bInjective_bSurjective Bf); now apply Injective_carac || (intros x y _ _; apply If)).
  assert (Row : forall i, 0 <= i < Z.of_nat (List.length gs) -> exists g, nth_error l' (Z.to_nat i) = Some g /\ nth_error l (f (Z.to_nat i)) = Some g).
  { intros i Hi. destruct (nth_error l' (Z.to_nat i)) as [g|] eqn:Eg; [|apply nth_error_None in Eg; lia]. exists g. split; [reflexivity|]. now rewrite <- Ef. }
  constructor.
  - lia.
  - intros i Hi. specialize (Bf (Z.to_nat i) ltac:(lia)). lia.
  - intros i j Hi Hj E. assert (E2 : Z.to_nat i = Z.to_nat j) by (apply If; lia). lia.
  - intros k Hk. destruct (Sf (Z.to_nat k) ltac:(lia)) as (i & Hi & Ei). exists (Z.of_nat i). rewrite Nat2Z.id, Ei. lia.
  - intros i Hi. destruct (Row i Hi) as (g & G1 & G2). destruct (H' _ _ G1) as (W1 & _). destruct (H _ _ G2) as (W2 & _). rewrite Z2Nat.id in W1 by lia. congruence.
  - intros i s v Hi Hs. destruct (Row i Hi) as (g & G1 & G2). destruct (H' _ _ G1) as (_ & W1). destruct (H _ _ G2) as (_ & W2). specialize (W1 s v Hs). specialize (W2 s v Hs). rewrite Z2Nat.id in W1 by lia. tauto.
Qed.
Section Glyphs.
Context (z : list Z -> list Z) (Hz : is_std_sort Z.ltb z) (gs : list glyph) (e : env6) (HB : built6 z gs e).
Local Notation N := (Z.of_nat (List.length (e6_words e))).
Lemma built_size : N = Z.of_nat (List.length gs).
Proof. destruct HB as (_ & gs' & P & L & _). rewrite (Permutation_length P). lia. Qed.
Context (im : image) (value : strategy -> Z) (Hv : forall s, In s simple_strategies -> seen6 (r6_zones (e6_rt e)) im s (VNum (value s))).
Lemma value_seen s a : In s simple_strategies -> seen6 z im s (VNum a) -> a = value s.
Proof. intros Hs Sa. pose proof (proj1 (seen_any z Hz gs e HB im s _) (Hv s Hs)) as Sv. pose proof (seen6_unique _ _ _ _ _ Sa Sv). congruence. Qed.
(** A close row is a near glyph, and its score is 1 when the tenths are the same. *)
Lemma close_glyph i : close6 (e6_cols e) N value i -> exists g, In g gs /\ labels6 (e6_words e) i = words_of6 g /\ near6 z im g /\ (certain6 (e6_cols e) N value i <-> same6 z im g).
Proof.
  intros Ci. pose proof Ci as (Hi & C1 & C2). destruct (row_glyph z gs e HB i Hi) as (g & Hg & Lb & Cg). exists g. split; [exact Hg|]. split; [exact Lb|].
  assert (CG : forall s b, In s simple_strategies -> true6 z (gl_img g) s (VNum b) -> cell6 (e6_cols e) s i (VNum b)) by (intros s b Hs; apply Cg; now apply simple_in_all).
  split; [|split].
  - intros s a b Hs Sa Tb. rewrite (value_seen s a Hs Sa). apply CG in Tb; [|exact Hs]. destruct (strategy_eqb s first_feature) eqn:E.
    + apply strategy_eqb_eq in E. subst s. specialize (C1 b Tb). lia.
    + assert (Ne : s <> first_feature) by (intros Q; apply strategy_eqb_eq in Q; congruence). rewrite (C2 s b Hs Ne Tb), Z.sub_diag. cbn. lia.
  - intros (_ & K) s a b Hs Sa Tb. rewrite (value_seen s a Hs Sa). apply CG in Tb; [|exact Hs]. destruct (strategy_eqb s first_feature) eqn:E.
    + apply strategy_eqb_eq in E. subst s. symmetry. now apply K.
    + assert (Ne : s <> first_feature) by (intros Q; apply strategy_eqb_eq in Q; congruence). symmetry. now apply C2.
  - intros Sm. split; [exact Ci|]. intros a Ha. symmetry. apply (Sm first_feature _ a first_simple); [|apply Cg; [now apply simple_in_all, first_simple|exact Ha]].
    apply (seen_any z Hz gs e HB). now apply Hv, first_simple.
Qed.
Lemma same_certain g : In g gs -> same6 z im g -> exists i, certain6 (e6_cols e) N value i.
Proof.
  intros Hg Sg. destruct (same_identified z Hz gs e HB im g Hg Sg) as (i & (Hi & H) & _). exists i. split; [split; [exact Hi|split]|].
  - intros a Ha. rewrite (H first_feature a _ first_simple Ha (Hv _ first_simple)), Z.sub_diag. cbn. lia.
  - intros s a Hs _ Ha. exact (H s a _ Hs Ha (Hv s Hs)).
  - intros a Ha. exact (H first_feature a _ first_simple Ha (Hv _ first_simple)).
Qed.
Lemma decided_glyphs : decided6 z gs im -> decided_rows (e6_cols e) (e6_words e) N value.
Proof.
  intros (D1 & D2). split.
  - intros i j Ci Cj. destruct (close_glyph i (proj1 Ci)) as (g & Hg & -> & _ & Kg). destruct (close_glyph j (proj1 Cj)) as (h & Hh & -> & _ & Kh). apply D1; try assumption; [now apply Kg|now apply Kh].
  - intros NC i j Ci Cj. destruct (close_glyph i Ci) as (g & Hg & -> & Ng & _). destruct (close_glyph j Cj) as (h & Hh & -> & Nh & _).
    apply D2; try assumption. intros k Hk Sk. destruct (same_certain k Hk Sk) as (q & Cq). exact (NC q Cq).
Qed.
End Glyphs.

Theorem recognise6_same z gs e e' n n' im : is_std_sort Z.ltb z -> trainable6 gs -> built6 z gs e -> built6 z gs e' -> recognisable im ->
  comparable_glyphs z gs im \/ (exists g, In g gs /\ same6 z im g) -> decided6 z gs im -> recognise6 e n im = recognise6 e' n' im.
Proof.
  intros Hz HT HB HB' R D U. pose proof HB as (HE & _). pose proof HB' as (HE' & _). destruct (recognisable_turn im R) as (im90 & H90).
  assert (Ex : forall e n, built6 z gs e -> exists f, recognise6 e n im = Ok f).
  { intros e0 n0 HB0. pose proof HB0 as (HE0 & _). destruct (recognise6_all e0 n0 im HE0 R) as (_ & Ex & _). apply Ex. destruct D as [D|(g & Hg & Sg)].
    - left. exact (comparable_rows z Hz gs HT e0 HB0 im D).
    - right. destruct (same_identified z Hz gs e0 HB0 im g Hg Sg) as (i & Hi & _). eauto. }
  destruct (Ex e n HB) as (f & Ef). destruct (Ex e' n' HB') as (f' & Ef'). rewrite Ef, Ef'. f_equal.
  destruct (recognise6_exact e n im HE R) as (O & _). destruct (recognise6_exact e' n' im HE' R) as (O' & _). specialize (O f Ef). specialize (O' f' Ef').
  destruct (built_moves z gs e e' HB HB') as (mv & HM). pose proof O as (value & Sv & _). rewrite <- (built_size z gs e HB) in HM.
  apply (outcome6_same mv _ _ _ _ _ (r6_zones (e6_rt e)) (r6_zones (e6_rt e')) im value f f' HM); try assumption.
  - intros s v. rewrite (seen_any z Hz gs e HB), (seen_any z Hz gs e' HB'). reflexivity.
  - now apply (decided_glyphs z Hz gs e HB im).
Qed.
