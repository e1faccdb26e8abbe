(** Glyph files that teach the same words are read alike. *)
From Verif Require Import Base BaseProofs SortModel ImageModel PnmModel StratModel DatasModel StreamModel GlyphIoModel DatasIoModel DictIoModel
  TrieModel TrieProofs IndexModel RecogModel ExtractModel PipelineModel PrintModel SameProofs2 Ocr6Model Ocr6Spec Ocr6Proofs5 Ocr8Model OcrOutModel TaughtSpec.

Lemma alike_names gs gs' : teach_alike gs gs' ->
  map (fun g => unique_words (map vw_word (gl_views g))) gs = map (fun g => unique_words (map vw_word (gl_views g))) gs' /\ vsize gs = vsize gs'.
Proof.
  intros H. split.
  - induction H as [|g g' gs gs' E H IH]; [reflexivity|]. cbn [map]. rewrite !squeeze_unique, IH. unfold same_names in E. now rewrite E.
  - unfold vsize. f_equal. induction H; cbn [List.length]; congruence.
Qed.

Section Same.
Context (bytes bytes' : list Z) (gs gs' : list glyph).
Hypothesis (L : load_file read_glyphs bytes = Ok gs) (L' : load_file read_glyphs bytes' = Ok gs') (A : teach_alike gs gs').

Lemma taught6 rt datas image dict : extract_text6 rt bytes datas image dict = extract_text6 rt bytes' datas image dict.
Proof.
  destruct (alike_names _ _ A) as (E & V). unfold extract_text6, load_all6. rewrite L, L'. cbn [bind]. now rewrite E, V.
Qed.
Lemma taught8 rt datas image dict : extract_text8 rt bytes datas image dict = extract_text8 rt bytes' datas image dict.
Proof.
  destruct (alike_names _ _ A) as (E & V). unfold extract_text8, load_all8. rewrite L, L'. cbn [bind]. now rewrite E, V.
Qed.

Context (disk : list Z -> option (list Z)) (name name' : list Z).
Hypothesis (D : disk name = Some bytes) (D' : disk name' = Some bytes').
Lemma taught_load datas dict k k' : (forall out nodes cols, k out nodes cols gs = k' out nodes cols gs') ->
  load_out disk name datas dict k = load_out disk name' datas dict k'.
Proof.
  intros K. destruct (alike_names _ _ A) as (E & V). unfold load_out. apply attempt_ext; [reflexivity|]. intros nodes _. apply attempt_ext; [reflexivity|]. intros cols _.
  unfold load_disk. rewrite D, D', L, L'. cbn [attempt]. rewrite V. destruct (negb _); [reflexivity|apply K].
Qed.
Lemma taught_main6 rt nan prog prog' rest : main6 rt nan disk (prog :: name :: rest) = main6 rt nan disk (prog' :: name' :: rest).
Proof.
  destruct rest as [|datas [|image options]]; [reflexivity..|]. cbn [main6]. apply taught_load. intros out nodes cols.
  destruct (alike_names _ _ A) as (E & V). now rewrite E.
Qed.
Lemma taught_main8 rt nan prog prog' rest : main8 rt nan disk (prog :: name :: rest) = main8 rt nan disk (prog' :: name' :: rest).
Proof.
  destruct rest as [|datas [|image options]]; [reflexivity..|]. cbn [main8]. apply taught_load. intros out nodes cols.
  destruct (alike_names _ _ A) as (E & V). now rewrite E.
Qed.
End Same.
