(** normalize_glyphs on files. *)
From Verif Require Import Base BaseProofs SortModel SortProofs ImageModel ImageSpec ImageProofs StreamModel GlyphIoModel GlyphIoSpec GlyphIoProofs NormModel NormSpec NormProofs LearnModel LearnSpec.
From Coq Require Import Permutation Sorted.

Lemma read_glyph_files_written gss : Forall (Forall storable) gss -> forall gs, read_glyph_files (map write_glyphs gss) gs = Ok (Some (gs ++ List.concat gss)).
Proof.
  induction 1 as [|l gss H _ IH]; intros gs; cbn [map read_glyph_files List.concat]; [rewrite app_nil_r; reflexivity|].
  destruct (read_glyphs_written l H) as (s & -> & He). cbn [bind]. rewrite He, IH, <- app_assoc. reflexivity.
Qed.
Lemma increasing_views_NoDup l : increasing_views l -> NoDup l.
Proof.
  induction 1 as [|a l _ IH F]; constructor; [|exact IH]. intros Hin. rewrite Forall_forall in F. specialize (F a Hin). apply view_less_iff in F.
  destruct (view_less_strict_weak [a]) as (I & _). specialize (I a). rewrite I in F; [discriminate|left; reflexivity].
Qed.
Lemma views_of_glyph g gs : In g gs -> incl (gl_views g) (flat_map gl_views gs).
Proof. intros H v Hv. apply in_flat_map. exists g. split; assumption. Qed.
(** The files together: what is written can be read, and is normalised. *)
Lemma normalize_files_ok sort sort_views gss : is_std_sort glyph_less sort -> is_std_sort view_less sort_views ->
  Forall (Forall storable) gss -> Z.of_nat (List.length (flat_map gl_views (List.concat gss))) < 4294967296 ->
  exists bytes out, normalize_files sort sort_views (map write_glyphs gss) = Ok (Some bytes) /\ load_file read_glyphs bytes = Ok out /\
    Forall storable out /\ increasing_images out /\ (forall img, has_image out img <-> has_image (List.concat gss) img) /\
    (forall img v, labelled out img v <-> labelled (List.concat gss) img v) /\ bytes = write_glyphs out /\
    (List.length out <= List.length (List.concat gss))%nat /\ (List.length (flat_map gl_views out) <= List.length (flat_map gl_views (List.concat gss)))%nat.
Proof.
  intros H1 H2 Hs HB. set (gs := List.concat gss) in *.
  assert (Hst : forall g, In g gs -> storable g).
  { intros g Hg. apply in_concat in Hg. destruct Hg as (l & Hl & Hg). rewrite Forall_forall in Hs. specialize (Hs l Hl). rewrite Forall_forall in Hs. exact (Hs g Hg). }
  assert (Hwf : Forall (fun g => full_image (gl_img g)) gs) by (apply Forall_forall; intros g Hg; apply wf_full, (Hst g Hg)).
  destruct (normalize_pairs sort sort_views gs H1 H2 Hwf) as (out & E & Hi & Him & Hl).
  destruct (normalize_views sort sort_views gs H1 H2 Hwf) as (out' & E' & Hv). assert (out' = out) by congruence. subst out'.
  destruct (normalize_sizes sort sort_views gs H1 H2 Hwf) as (out' & E2 & Ln1 & Ln2). assert (out' = out) by congruence. subst out'.
  assert (So : Forall storable out).
  { apply Forall_forall. intros g Hg.
    assert (L : forall v, In v (gl_views g) -> exists g', In g' gs /\ In v (gl_views g')).
    { intros v Hv'. destruct (proj1 (Hl (gl_img g) v)) as (g' & Hg' & _ & Hin); [exists g; auto|]. exists g'. auto. }
    split; [|split].
    - destruct (proj1 (Him (gl_img g))) as (g' & Hg' & <-); [exists g; auto|]. apply (Hst g' Hg').
    - destruct (Hv g Hg) as [(_ & Hin)|(_ & Hinc)]; [apply (Hst g Hin)|].
      pose proof (NoDup_incl_length (increasing_views_NoDup _ Hinc) (l' := flat_map gl_views gs)) as Len.
      assert (incl (gl_views g) (flat_map gl_views gs)) by (intros v Hv'; destruct (L v Hv') as (g' & A & B); apply in_flat_map; eauto).
      specialize (Len H). lia.
    - apply Forall_forall. intros v Hv'. destruct (L v Hv') as (g' & A & B). destruct (Hst g' A) as (_ & _ & F). rewrite Forall_forall in F. exact (F v B). }
  exists (write_glyphs out), out. split.
  { unfold normalize_files. rewrite (read_glyph_files_written gss Hs []). cbn [bind app]. fold gs. rewrite E. reflexivity. }
  split; [exact (glyph_file_round_trip out So)|]. auto 10.
Qed.
From Verif Require Import BoxModel BoxSpec ExtractSpec.
(** The glyphs learnt can be stored, the font being a word. *)
Lemma text_words_plain text ws : text_words text ws -> Forall plain_text ws.
Proof. induction 1; constructor; auto. Qed.
Lemma learnt_storable img font boxes ws gs : plain_text font -> Forall plain_text ws -> glyphs_for img font boxes ws gs -> Forall storable gs.
Proof.
  intros Hf Hw Hg. induction Hg as [ws|boxes|b boxes w ws g gs (Hi & Hv) _ IH]; [constructor|constructor|]. inversion Hw as [|? ? W1 W2]; subst.
  constructor; [|exact (IH W2)]. split; [apply Hi|]. rewrite Hv. split; [cbn; lia|]. constructor; [|constructor].
  unfold storable_view; cbn [vw_word vw_font vw_line]. split; [assumption|]. split; [assumption|lia].
Qed.
