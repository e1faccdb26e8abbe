(** Property C121: the file of features and the pictures. *)
From Verif Require Import Base BaseProofs SortModel SortProofs ImageModel ImageSpec StratModel ZoneModel DatasModel DatasSpec StreamModel GlyphIoModel GlyphIoSpec DatasIoModel RecogSpec RecogWitness
  LearnModel LearnSpec LearnProofs3 ShowModel ProgModel ProgProofs FeatSetSpec FeatSetProofs PropPipeline PropRead.

(** write_datas prints the same for two glyph files exactly if these have as many glyphs,
    and glyphs of the same rank have the same features; the labels do not matter, nor what
    is left in the buffers. *)
Theorem C121_exact : forall junk junk' z z' cx cx' disk disk' prog prog' name name' gs gs', is_std_sort Z.ltb z -> is_std_sort Z.ltb z' ->
  disk name = Some (write_glyphs gs) -> disk' name' = Some (write_glyphs gs') -> Forall storable gs -> Forall storable gs' ->
  Forall (fun g => recognisable (gl_img g)) gs -> Forall (fun g => recognisable (gl_img g)) gs' ->
  Z.of_nat (List.length gs) < 18446744073709551616 -> Z.of_nat (List.length gs') < 18446744073709551616 ->
  (write_datas_main junk z cx disk [prog; name] = write_datas_main junk' z' cx' disk' [prog'; name'] <-> alike_glyphs gs gs').
Proof.
  intros junk junk' z z' cx cx' disk disk' prog prog' name name' gs gs' Hz Hz' D D' S S' R R' B B'.
  rewrite <- (features_same junk junk' z z' cx cx' gs gs' Hz Hz' S S' R R' B B').
  destruct (write_datas_table z Hz junk cx gs S R B) as (E & _). destruct (write_datas_table z' Hz' junk' cx' gs' S' R' B') as (E' & _).
  pose proof (write_datas_table_main junk z cx disk prog name _ _ D E) as M. pose proof (write_datas_table_main junk' z' cx' disk' prog' name' _ _ D' E') as M'.
  cbn iota in M, M'. rewrite M, M', E, E'. split; congruence.
Qed.
Print Assumptions C121_exact.

(** In particular the same pictures with other labels. *)
Theorem C121_labels : forall junk junk' z z' cx cx' gs gs', is_std_sort Z.ltb z -> is_std_sort Z.ltb z' -> Forall storable gs -> Forall storable gs' ->
  Forall (fun g => recognisable (gl_img g)) gs -> map gl_img gs = map gl_img gs' -> Z.of_nat (List.length gs) < 18446744073709551616 ->
  write_datas_file junk z cx (write_glyphs gs) = write_datas_file junk' z' cx' (write_glyphs gs').
Proof.
  intros junk junk' z z' cx cx' gs gs' Hz Hz' S S' R E B. assert (L : List.length gs = List.length gs') by (rewrite <- (map_length gl_img gs), E; apply map_length).
  apply features_same; try assumption; [|rewrite <- L; exact B|now apply alike_labels].
  apply Forall_map with (f := gl_img). rewrite <- E. apply Forall_map with (f := gl_img). exact R.
Qed.
Print Assumptions C121_labels.

Definition ex_of (img : image) : list glyph := [mkglyph img [mkview (str "l") (str "f") 0]].
Definition ex_square4 : image := rows 4 ["xxxx"; "xxxx"; "xxxx"; "xxxx"]%string.
Definition ex_features (gs : list glyph) : res (option (list Z)) := write_datas_file (fun _ => 0) (isort Z.ltb) new_ctxs (write_glyphs gs).
Lemma ex_of_storable img : wf_image img -> ~ In 10 (idata img) -> Forall storable (ex_of img).
Proof.
  intros W N. constructor; [|constructor]. split; [exact W|]. split; [vm_compute; reflexivity|]. constructor; [|constructor].
  destruct ex_plain as (A & _ & C). split; [exact A|]. split; [exact C|]. vm_compute. split; congruence.
Qed.
(** A bar and a square: both can be stored and recognised, and they are not alike. *)
Example C121_nonvacuous : Forall storable (ex_of ex_bar) /\ Forall storable (ex_of ex_square) /\ recognisable ex_bar /\ recognisable ex_square /\
  (exists t, ex_features (ex_of ex_bar) = Ok (Some t)) /\ ~ alike_glyphs (ex_of ex_bar) (ex_of ex_square) /\
  ex_features (ex_of ex_bar) = ex_features [mkglyph ex_bar [mkview (str "I") (str "g") 3]] /\ ex_features (ex_of ex_bar) <> ex_features (ex_of ex_bar ++ ex_of ex_bar).
Proof.
  assert (Sb : Forall storable (ex_of ex_bar)) by (apply ex_of_storable; [repeat split; vm_compute; congruence|cbn; intuition discriminate]).
  assert (Ss : Forall storable (ex_of ex_square)) by (apply ex_of_storable; [repeat split; vm_compute; congruence|cbn; intuition discriminate]).
  assert (Rb : recognisable ex_bar) by (repeat split; vm_compute; congruence). assert (Rs : recognisable ex_square) by (repeat split; vm_compute; congruence).
  split; [exact Sb|]. split; [exact Ss|]. split; [exact Rb|]. split; [exact Rs|]. split; [eexists; vm_compute; reflexivity|].
  split; [|split; [vm_compute; reflexivity|vm_compute; discriminate]].
  pose proof (features_same (fun _ => 0) (fun _ => 0) (isort Z.ltb) (isort Z.ltb) new_ctxs new_ctxs (ex_of ex_bar) (ex_of ex_square)) as F.
  assert (I : is_std_sort Z.ltb (isort Z.ltb)) by apply isort_is_sort.
  intros A. apply (proj2 (F I I Sb Ss ltac:(repeat constructor; exact (proj1 Rb) || apply Rb) ltac:(repeat constructor; exact (proj1 Rs) || apply Rs) ltac:(vm_compute; reflexivity) ltac:(vm_compute; reflexivity))) in A.
  vm_compute in A. discriminate A.
Qed.

(** The features do not tell the pictures: two squares of different sizes. *)
Theorem C121_pictures_refuted : recognisable ex_square /\ recognisable ex_square4 /\ ex_square <> ex_square4 /\
  (exists t, ex_features (ex_of ex_square) = Ok (Some t)) /\ ex_features (ex_of ex_square) = ex_features (ex_of ex_square4).
Proof.
  split; [repeat split; vm_compute; congruence|]. split; [repeat split; vm_compute; congruence|]. split; [discriminate|].
  split; [eexists; vm_compute; reflexivity|]. vm_compute. reflexivity.
Qed.
Print Assumptions C121_pictures_refuted.
