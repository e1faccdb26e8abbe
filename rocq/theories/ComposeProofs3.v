(** Pictures side by side: lessons. *)
From Verif Require Import Base BaseProofs SortModel ImageModel ImageSpec PnmModel BoxModel BoxSpec BoxProofs ExtractModel ExtractSpec RecogSpec TrieModel LearnModel LearnSpec NormModel
  PipelineModel PipelineSpec PipelineProofs5 MarginSpec ComposeSpec ComposeProofs.

Lemma composed_taught ls c parts ks : Forall good_lesson ls -> unambiguous ls -> composed c parts -> box_searchable c -> Forall2 (fun p l => In l ls /\ snd p = le_img l) parts ks ->
  segment c = Ok (placed parts (map le_boxes ks)) /\
  Forall2 (fun b w => forall im, char_image c b im -> recognisable im /\ learnt ls im w) (placed parts (map le_boxes ks)) (flat_map le_words ks).
Proof.
  intros HL HU F Sc H. rewrite Forall_forall in HL.
  assert (Sp : Forall (fun p => box_searchable (snd p)) parts) by (clear F; induction H as [|p l parts ks (Hl & E) H IH]; constructor; [rewrite E; apply (HL l Hl)|exact IH]).
  split.
  - apply composed_segment; try assumption. clear F Sp. induction H as [|p l parts ks (Hl & E) H IH]; cbn [map]; constructor; [|exact IH]. unfold segmented. rewrite E. apply (HL l Hl).
  - destruct F as (St & _). clear Sc Sp. revert St. induction H as [|[[dx dy] a] l parts ks (Hl & E) H IH]; intros St; [constructor|]. inversion St as [|? ? St1 St2]; subst. cbn [snd] in E. subst a.
    unfold placed in *. cbn [map combine List.concat flat_map]. apply Forall2_app; [|apply IH; exact St2].
    pose proof (HL l Hl) as (_ & Ss & Es & _). destruct (segment_ok (le_img l) Ss) as (bs & Eb & R). rewrite Es in Eb. injection Eb as <-. pose proof (read_inside _ 0 _ R ltac:(lia)) as Il.
    pose proof (lesson_learnt ls l (proj2 (Forall_forall _ _) HL) HU Hl) as Ll. clear - Ll Il St1. induction Ll as [|t w l' ws Ht Ll IH]; cbn [map]; constructor; inversion Il as [|? ? I1 I2]; subst; [|auto].
    intros im C. apply Ht. apply (part_char c dx dy (le_img l) St1 t im) in C; [exact C|lia..].
Qed.
Theorem composed_lessons ls sort sort_views junk z cx0 : teachable ls -> unambiguous ls -> is_std_sort glyph_less sort -> is_std_sort view_less sort_views -> is_std_sort Z.ltb z ->
  exists gf nf df, learn_images (map arguments ls) [] = Ok (gf, Learnt) /\ normalize_files sort sort_views [gf] = Ok (Some nf) /\ write_datas_file junk z cx0 nf = Ok (Some df) /\
    forall rt cx y c parts ks lines dict, legal rt -> image_of_bytes y 128 = Ok c -> box_searchable c -> composed c parts -> Forall2 (fun p l => In l ls /\ snd p = le_img l) parts ks ->
      let boxes := placed parts (map le_boxes ks) in let ws := flat_map le_words ks in
      steady boxes -> no_lost_break (spoken 0 boxes ws) -> lines_file (flat_map le_words ls) lines -> dict_file ws dict ->
      extract_text rt cx nf df y lines dict = Ok (line_text boxes ws, 0, vsize boxes).
Proof.
  intros HT HU H1 H2 Hz. destruct (learn_and_read ls sort sort_views junk z cx0 HT H1 H2 Hz) as (gf & nf & df & E1 & E2 & E3 & R). exists gf, nf, df.
  split; [exact E1|]. split; [exact E2|]. split; [exact E3|]. intros rt cx y c parts ks lines dict Hrt Ey Sc F Hk boxes ws St NL Hlf Hd.
  destruct (composed_taught ls c parts ks (proj1 HT) HU F Sc Hk) as (A & B). exact (R rt cx y c boxes ws lines dict Hrt Ey Sc A B St NL Hlf Hd).
Qed.
