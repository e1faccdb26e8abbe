(** Properties C53, C61 and C89: normalising glyphs. *)
From Verif Require Import Base SortModel SortProofs ImageModel ImageSpec GlyphIoModel NormModel NormSpec NormProofs.
From Coq Require Import Sorted Permutation.

(** C53: the images are in strictly increasing order, and the images and the
    (image, label) pairs are those of the list. *)
Theorem C53_normalize : forall sort sort_views glyphs, is_std_sort glyph_less sort -> is_std_sort view_less sort_views ->
  Forall (fun g => full_image (gl_img g)) glyphs ->
  exists out, normalize sort sort_views glyphs = Ok out /\ increasing_images out /\
    (forall img, has_image out img <-> has_image glyphs img) /\ (forall img v, labelled out img v <-> labelled glyphs img v).
Proof. exact normalize_pairs. Qed.
Print Assumptions C53_normalize.
(** C61, in full: the labels of every glyph are in strictly increasing order.
    The glyphs whose image is before all those that are repeated are kept as they
    are; the others have their labels in order. *)
Theorem C61_labels_partial : forall sort sort_views glyphs, is_std_sort glyph_less sort -> is_std_sort view_less sort_views ->
  Forall (fun g => full_image (gl_img g)) glyphs ->
  exists out, normalize sort sort_views glyphs = Ok out /\
    (forall g, In g out -> (early glyphs (gl_img g) /\ In g glyphs) \/ (~ early glyphs (gl_img g) /\ increasing_views (gl_views g))).
Proof. exact normalize_views. Qed.
Print Assumptions C61_labels_partial.

Definition ex_v (w : Z) : view := mkview [w] (str "f") 0.
Definition ex_g (p : list Z) (l : list Z) : glyph := mkglyph (mkimage 2 1 p) (map ex_v l).
Example C53_nonvacuous :
  is_std_sort glyph_less (isort glyph_less) /\ is_std_sort view_less (isort view_less) /\
  Forall (fun g => full_image (gl_img g)) [ex_g (str "xx") [99; 98; 98]; ex_g (str "-x") [97; 97]; ex_g (str "xx") [97; 98]; ex_g (str "x-") []; ex_g (str "xx") [100]] /\
  normalize (isort glyph_less) (isort view_less) [ex_g (str "xx") [99; 98; 98]; ex_g (str "-x") [97; 97]; ex_g (str "xx") [97; 98]; ex_g (str "x-") []; ex_g (str "xx") [100]] =
    Ok [ex_g (str "-x") [97; 97]; ex_g (str "x-") []; ex_g (str "xx") [97; 98; 99; 100]].
Proof.
  split; [apply isort_is_sort|]. split; [apply isort_is_sort|]. split; [repeat (apply Forall_cons; [repeat split; vm_compute; congruence|]); apply Forall_nil|].
  vm_compute. reflexivity.
Qed.
(** The glyphs before the first repeated image keep their labels as they are: a
    label is kept twice, and it is not if another image is repeated before. *)
Theorem C61_labels_refuted :
  normalize (isort glyph_less) (isort view_less) [ex_g (str "xx") [97; 97]] = Ok [ex_g (str "xx") [97; 97]] /\
  normalize (isort glyph_less) (isort view_less) [ex_g (str "xx") [97; 97]; ex_g (str "--") []; ex_g (str "--") []] = Ok [ex_g (str "--") []; ex_g (str "xx") [97]] /\
  ~ increasing_views [ex_v 97; ex_v 97].
Proof.
  split; [vm_compute; reflexivity|]. split; [vm_compute; reflexivity|]. intros H. inversion H as [|? ? _ F]; subst. inversion F as [|? ? E _]; subst.
  apply view_less_iff in E. vm_compute in E. discriminate E.
Qed.
Print Assumptions C61_labels_refuted.

(** C89: the result does not depend on the sorts, nor on the order of the glyphs. *)
Theorem C89_determined : forall sort sort_views sort' sort_views' glyphs glyphs', is_std_sort glyph_less sort -> is_std_sort view_less sort_views ->
  is_std_sort glyph_less sort' -> is_std_sort view_less sort_views' -> Forall (fun g => full_image (gl_img g)) glyphs -> Permutation glyphs glyphs' ->
  normalize sort' sort_views' glyphs' = normalize sort sort_views glyphs.
Proof. exact normalize_same. Qed.
Print Assumptions C89_determined.
(** Normalising what has been normalised changes nothing. *)
Theorem C89_again : forall sort sort_views glyphs out, is_std_sort glyph_less sort -> is_std_sort view_less sort_views ->
  Forall (fun g => full_image (gl_img g)) glyphs -> normalize sort sort_views glyphs = Ok out -> normalize sort sort_views out = Ok out.
Proof.
  intros sort sort_views glyphs out H1 H2 W E. destruct (normalize_pairs sort sort_views glyphs H1 H2 W) as (o & E' & So & Io & _).
  assert (o = out) as -> by congruence. apply normalize_again; auto. exact (image_wfg glyphs out W Io).
Qed.
Print Assumptions C89_again.
Example C89_nonvacuous : Permutation [ex_g (str "xx") [99; 98; 98]; ex_g (str "xx") [97]] [ex_g (str "xx") [97]; ex_g (str "xx") [99; 98; 98]] /\
  normalize (isort glyph_less) (isort view_less) [ex_g (str "xx") [99; 98; 98]; ex_g (str "xx") [97]] = Ok [ex_g (str "xx") [97; 98; 99]] /\
  normalize (isort glyph_less) (isort view_less) [ex_g (str "xx") [97]; ex_g (str "xx") [99; 98; 98]] = Ok [ex_g (str "xx") [97; 98; 99]].
Proof. split; [apply perm_swap|split; vm_compute; reflexivity]. Qed.
