(** The file of features depends on the features of the pictures and tells them. *)
From Verif Require Import Base BaseProofs SortModel SortProofs ImageModel ImageSpec ImageProofs StratModel ZoneModel DatasModel DatasSpec DatasProofs GlyphIoModel GlyphIoSpec DatasIoModel
  DictIoModel RecogSpec LearnModel LearnSpec LearnProofs LearnProofs2 LearnProofs3 Ocr6Proofs5 FeatSetSpec.

Lemma alike_fvals z z' img img' : is_std_sort Z.ltb z -> is_std_sort Z.ltb z' -> recognisable img -> recognisable img' ->
  (alike img img' <-> map (fval_of z img) all_strategies = map (fval_of z' img') all_strategies).
Proof.
  intros Hz Hz' R R'. destruct (rotate90_law img (proj1 R)) as (r & Er & _). destruct (rotate90_law img' (proj1 R')) as (r' & Er' & _). split.
  - intros A. apply map_ext_in. intros s Hs. pose proof (A z z' r r' s Hz Hz' Er Er' Hs) as E.
    rewrite (fval_of_feature z Hz img r R Er s Hs), (fval_of_feature z' Hz' img' r' R' Er' s Hs) in E. congruence.
  - intros E y y' q q' s Hy Hy' Eq Eq' Hs. pose proof (ext_in_map E s Hs) as Es.
    rewrite (fval_of_feature y Hy img q R Eq s Hs), (fval_of_feature y' Hy' img' q' R' Eq' s Hs). f_equal.
    assert (U : forall a b im, is_std_sort Z.ltb a -> is_std_sort Z.ltb b -> recognisable im -> fval_of a im s = fval_of b im s).
    { intros a b im Ha Hb Ri. destruct (rotate90_law im (proj1 Ri)) as (t & Et & _).
      pose proof (fval_of_feature a Ha im t Ri Et s Hs) as Fa. pose proof (fval_of_feature b Hb im t Ri Et s Hs) as Fb.
      rewrite (feature_any_sort a b s im t Ha Hb) in Fa. congruence. }
    rewrite (U y z img Hy Hz R), (U y' z' img' Hy' Hz' R'). exact Es.
Qed.

Lemma columns_rows {A B S : Type} (f f' : A -> S -> B) (ss : list S) : ss <> [] -> forall l l',
  (map (fun s => map (fun a => f a s) l) ss = map (fun s => map (fun a => f' a s) l') ss <-> Forall2 (fun a b => map (f a) ss = map (f' b) ss) l l').
Proof.
  intros N l l'. split.
  - intros E. pose proof (ext_in_map E) as G. clear E. revert l' G. induction l as [|a l IH]; intros [|b l'] G.
    + constructor.
    + destruct ss as [|s ss]; [congruence|]. discriminate (G s (or_introl eq_refl)).
    + destruct ss as [|s ss]; [congruence|]. discriminate (G s (or_introl eq_refl)).
    + constructor; [|apply IH; intros s Hs; specialize (G s Hs); cbn [map] in G; congruence].
      apply map_ext_in. intros s Hs. specialize (G s Hs). cbn [map] in G. congruence.
  - intros F. apply map_ext_in. intros s Hs. induction F as [|a b l l' E _ IH]; [reflexivity|]. cbn [map]. rewrite IH. f_equal. exact (ext_in_map E s Hs).
Qed.

Theorem features_same junk junk' z z' cx cx' gs gs' : is_std_sort Z.ltb z -> is_std_sort Z.ltb z' -> Forall storable gs -> Forall storable gs' ->
  Forall (fun g => recognisable (gl_img g)) gs -> Forall (fun g => recognisable (gl_img g)) gs' ->
  Z.of_nat (List.length gs) < 18446744073709551616 -> Z.of_nat (List.length gs') < 18446744073709551616 ->
  (write_datas_file junk z cx (write_glyphs gs) = write_datas_file junk' z' cx' (write_glyphs gs') <-> alike_glyphs gs gs').
Proof.
  intros Hz Hz' S S' R R' B B'. destruct (write_datas_table z Hz junk cx gs S R B) as (E & L). destruct (write_datas_table z' Hz' junk' cx' gs' S' R' B') as (E' & L').
  rewrite E, E'.
  assert (T : feature_table z (map gl_img gs) = feature_table z' (map gl_img gs') <-> alike_glyphs gs gs').
  { unfold feature_table. rewrite (columns_rows (fun im s => fval_of z im s) (fun im s => fval_of z' im s) all_strategies ltac:(discriminate) (map gl_img gs) (map gl_img gs')).
    unfold alike_glyphs. clear - Hz Hz' R R'. split.
    - revert gs' R'. induction gs as [|g gs IH]; intros [|g' gs'] R' F; cbn [map] in F; inversion F; subst; constructor.
      + inversion R; inversion R'; subst. now apply (alike_fvals z z').
      + inversion R; inversion R'; subst. now apply IH.
    - intros F. induction F as [|g g' gs gs' A _ IH]; [constructor|]. inversion R; inversion R'; subst. cbn [map]. constructor; [now apply (alike_fvals z z')|now apply IH]. }
  rewrite <- T. split; [|congruence]. intros W. assert (W' : write_datas (feature_table z (map gl_img gs)) = write_datas (feature_table z' (map gl_img gs'))) by congruence.
  rewrite W', L' in L. congruence.
Qed.
Lemma alike_refl img : recognisable img -> alike img img.
Proof. intros _ z z' r r' s Hz Hz' E E' _. rewrite E in E'. assert (r = r') as <- by congruence. now apply feature_any_sort. Qed.
Lemma alike_labels gs gs' : Forall (fun g => recognisable (gl_img g)) gs -> map gl_img gs = map gl_img gs' -> alike_glyphs gs gs'.
Proof.
  intros R. revert gs'. induction R as [|g gs Rg _ IH]; intros [|g' gs'] E; try discriminate; [constructor|]. cbn [map] in E.
  assert (E1 : gl_img g = gl_img g') by congruence. constructor; [rewrite <- E1; now apply alike_refl|apply IH; congruence].
Qed.
