(** Pictures side by side: the programs that read. *)
From Verif Require Import Base BaseProofs SortModel SortProofs ImageModel ImageSpec ImageProofs PnmModel BoxModel BoxSpec BoxProofs StratModel ZoneModel DatasModel DatasSpec DatasProofs UtfSpec StreamModel GlyphIoModel GlyphIoSpec GlyphIoProofs DatasIoModel DatasIoSpec DatasIoProofs DictIoModel DictIoProofs TrieModel TrieSpec TrieProofs FlatTrieProofs SpellModel SpellSpec SpellProofs UtilModel UtilProofs IndexModel IndexProofs FloatModel RecogModel RecogSpec RecogProofs GlyphsModel GlyphsProofs3 ExtractModel ExtractSpec ExtractProofs AssembleSpec LearnModel LearnSpec LearnProofs2 LearnProofs3 PipelineModel PipelineSpec PipelineProofs2 PipelineProofs4 ReadSpec ReadProofs Ocr6Model Ocr6Spec Ocr6Proofs Ocr6Proofs2 Ocr6Proofs3 Ocr6Proofs4 UtilSpec RecogProofs2 Ocr6Proofs5 OcrProofs Ocr8Model Ocr8Spec Ocr8Proofs Ocr8Proofs2 Ocr8Proofs3 Ocr8Proofs4 OcrOutcome OcrOutcome2
  RecogWitness MarginSpec MarginProofs ComposeSpec ComposeProofs.

(** * The list of the candidates *)
(** The list when a picture is given the same words each time. *)
Fixpoint cells (x : Z) (boxes : list box) (ls : list (list (list Z))) : list (list (list Z)) :=
  match boxes, ls with
  | b :: boxes', l :: ls' => (if x + 4 <? bx b then [[str " "]] else []) ++ l :: cells (bx b + bw b) boxes' ls'
  | _, _ => []
  end.
Lemma known_cells rec img x before boxes fs amb : line6 rec img x before boxes fs amb -> (forall f, In f fs -> f6_amb f = f6_words f) -> amb = cells x boxes (map f6_words fs).
Proof.
  induction 1 as [x before|x before b boxes f fs l amb im C R W L IH]; intros K; cbn [map cells]; [reflexivity|].
  rewrite <- IH by (intros g Hg; apply K; now right). rewrite <- (K f ltac:(now left)). assert (l = f6_amb f) as ->; [|reflexivity]. destruct W as [(_ & ->)|(_ & ->)]; [symmetry; apply K; now left|reflexivity].
Qed.
Lemma cells_moved dx dy boxes : forall x ls, cells (x + dx) (map (moved dx dy) boxes) ls = cells x boxes ls.
Proof.
  induction boxes as [|b boxes IH]; intros x ls; cbn [map cells]; [reflexivity|]. destruct ls as [|l ls]; [reflexivity|]. cbn [moved bx bw].
  replace (bx b + dx + bw b) with (bx b + bw b + dx) by lia. rewrite IH. replace (x + dx + 4 <? bx b + dx) with (x + 4 <? bx b); [reflexivity|]. destruct (Z.ltb_spec (x + 4) (bx b)), (Z.ltb_spec (x + dx + 4) (bx b + dx)); lia || reflexivity.
Qed.
Fixpoint end_of (x : Z) (boxes : list box) : Z := match boxes with [] => x | b :: boxes' => end_of (bx b + bw b) boxes' end.
Lemma cells_app b1 : forall x l1 b2 l2, List.length b1 = List.length l1 -> cells x (b1 ++ b2) (l1 ++ l2) = cells x b1 l1 ++ cells (end_of x b1) b2 l2.
Proof.
  induction b1 as [|b b1 IH]; intros x l1 b2 l2 E; destruct l1 as [|l l1]; try discriminate; cbn [app cells end_of]; [reflexivity|]. cbn [List.length] in E. rewrite IH by congruence. rewrite <- app_assoc. reflexivity.
Qed.
Lemma end_of_le w boxes : Forall (fun t => bx t + bw t < w) boxes -> forall x, boxes <> [] -> end_of x boxes < w.
Proof. induction 1 as [|b boxes H F IH]; intros x Ne; [congruence|]. cbn [end_of]. destruct boxes as [|b' boxes]; [exact H|]. apply IH. discriminate. Qed.
Lemma cells_nonempty x b boxes l ls : exists rest, cells x (b :: boxes) (l :: ls) = (if x + 4 <? bx b then [[str " "]] else []) ++ l :: rest.
Proof. eexists. reflexivity. Qed.

Section Text.
Context (spell : list (list (list Z)) -> option (list Z)).
Lemma render_break u : forall w v, render6 spell w (u ++ [str " "] :: v) = render6 spell w u ++ str " " ++ render6 spell [] v.
Proof.
  induction u as [|c u IH]; intros w v; cbn [app render6].
  - change (mark6 [str " "]) with true. cbn [shown]. reflexivity.
  - destruct (mark6 c); [|apply IH]. rewrite IH, <- !app_assoc. reflexivity.
Qed.
Lemma leading_app u v : (exists c, In c u /\ mark6 c = false) -> without_leading (u ++ v) = without_leading u ++ v.
Proof.
  intros (c & Hc & M). induction u as [|d u IH]; [destruct Hc|]. cbn [app without_leading]. destruct (mark6 d) eqn:D; [|reflexivity]. destruct Hc as [->|Hc]; [congruence|auto].
Qed.
Lemma text_break u v : (exists c, In c u /\ mark6 c = false) -> text6 spell (u ++ [str " "] :: v) = text6 spell u ++ str " " ++ render6 spell [] v.
Proof. intros H. unfold text6. rewrite (leading_app u _ H). apply render_break. Qed.
Lemma text_indent (q : bool) l rest : mark6 l = false -> text6 spell ((if q then [[str " "]] else []) ++ l :: rest) = render6 spell [] (l :: rest).
Proof. intros M. unfold text6. destruct q; cbn [app without_leading]; [change (mark6 [str " "]) with true; cbn iota|]; rewrite M; reflexivity. Qed.
Lemma text_start x x' boxes ls : match ls with [] => False | l :: _ => mark6 l = false end -> List.length boxes = List.length ls -> text6 spell (cells x boxes ls) = text6 spell (cells x' boxes ls).
Proof. intros H E. destruct boxes as [|b boxes], ls as [|l ls]; try contradiction; try discriminate. cbn [cells]. rewrite !text_indent by exact H. reflexivity. Qed.

Definition lettered (ls : list (list (list Z))) : Prop := match ls with [] => False | l :: _ => mark6 l = false end.
Definition inside (a : image) (t : box) : Prop := 0 <= bx t /\ 0 < bw t /\ bx t + bw t < iw a /\ 0 <= by_ t /\ by_ t + bh t <= ih a.
Lemma composed_text parts : forall bs wss, apart parts -> Forall2 (fun p l => Forall (inside (snd p)) l) parts bs -> Forall2 (fun l ws => List.length l = List.length ws /\ lettered ws) bs wss ->
  forall x, text6 spell (cells x (placed parts bs) (List.concat wss)) = in_turn (map (fun '(l, ws) => text6 spell (cells 0 l ws)) (combine bs wss)).
Proof.
  induction parts as [|[[dx dy] a] parts IH]; intros bs wss Ap Ib Hw x; inversion Ib as [|? l ? bs' I1 I2]; subst; inversion Hw as [|? ws ? wss' (L1 & M1) H2]; subst; [reflexivity|].
  unfold placed. cbn [combine map List.concat snd] in *. fold (placed parts bs'). rewrite cells_app by (rewrite map_length; exact L1).
  assert (S1 : text6 spell (cells x (map (moved dx dy) l) ws) = text6 spell (cells 0 l ws)).
  { rewrite (text_start x (0 + dx)), cells_moved; [reflexivity|exact M1|rewrite map_length; exact L1]. }
  destruct parts as [|[[dx' dy'] a'] parts].
  - inversion I2; subst. inversion H2; subst. cbn [placed combine map List.concat in_turn]. cbn [cells]. rewrite app_nil_r. exact S1.
  - inversion I2 as [|? l' ? bs'' J1 J2]; subst. inversion H2 as [|? ws' ? wss'' (L2 & M2) K2]; subst. inversion Ap as [| |? ? ? ? ? ? ? Gap Ap']; subst.
    specialize (IH (l' :: bs'') (ws' :: wss'') Ap' I2 H2). cbn [combine map in_turn] in *. cbn [snd] in *.
    destruct l' as [|b' l']; [destruct ws'; [contradiction|discriminate]|]. destruct ws' as [|w' ws']; [contradiction|]. cbn [lettered] in M2.
    assert (E : end_of x (map (moved dx dy) l) + 4 < bx b' + dx').
    { assert (end_of x (map (moved dx dy) l) < dx + iw a).
      { apply end_of_le; [|destruct l; [destruct ws; [contradiction|discriminate]|discriminate]]. apply Forall_forall. intros t Ht. apply in_map_iff in Ht. destruct Ht as (u & <- & Hu). rewrite Forall_forall in I1. specialize (I1 u Hu). unfold inside in I1. cbn [moved bx bw]. lia. }
      inversion J1 as [|? ? J _]; subst. unfold inside in J. lia. }
    specialize (IH (end_of x (map (moved dx dy) l))). unfold placed in *. cbn [combine map List.concat app cells] in *. cbn [moved bx] in *.
    destruct (Z.ltb_spec (end_of x (map (moved dx dy) l) + 4) (bx b' + dx')); [|lia]. rewrite (text_indent true) in IH by exact M2. cbn [app] in *. rewrite text_break.
    + rewrite S1. f_equal. f_equal. exact IH.
    + destruct l as [|b l], ws as [|w ws]; try contradiction; try discriminate. exists w. split; [|exact M1]. cbn [map cells]. apply in_or_app. right. now left.
Qed.
End Text.

(** * The lines *)
Section Read.
Context (rec : Z -> image -> res found6) (HS : steady rec) (c : image) (parts : list part) (F : composed c parts) (Sc : box_searchable c) (Sp : Forall (fun p => box_searchable (snd p)) parts).
Definition found_at (img : image) (b : box) (f : found6) : Prop := exists im, char_image img b im /\ recognised6 rec im f.
Lemma found_unique img boxes fs : Forall2 (found_at img) boxes fs -> forall fs', Forall2 (found_at img) boxes fs' -> fs = fs'.
Proof.
  induction 1 as [|b f boxes fs (im & C & R) H IH]; intros fs' H'; inversion H' as [|? f' ? fs'' (im' & C' & R') K]; subst; [reflexivity|]. f_equal; [|auto].
  rewrite (char_image_unique img b im' im C' C) in R'. specialize (R 0). specialize (R' 0). congruence.
Qed.
Definition part_read (p : part) (s : state6) : Prop := read_line6 rec (snd p) = Ok s /\ forall l, segment (snd p) = Ok l -> Forall (small_character (snd p)) l.
Theorem composed_line ss : Forall2 part_read parts ss -> exists ls fss s,
  Forall2 segmented parts ls /\ Forall2 (fun l fs => List.length l = List.length fs) ls fss /\
  Forall2 (fun '(p, l) '(s, fs) => line6 rec (snd p) 0 [] l fs (q_amb s) /\ q_r1 s = spaced f6_r1 fs /\ q_r2 s = spaced f6_r2 fs) (combine parts ls) (combine ss fss) /\
  Forall2 (fun p l => Forall (inside (snd p)) l) parts ls /\ (forall f, In f (List.concat fss) -> exists im, recognisable im /\ recognised6 rec im f) /\ Forall (small_character c) (placed parts ls) /\
  read_line6 rec c = Ok s /\ line6 rec c 0 [] (placed parts ls) (List.concat fss) (q_amb s) /\ q_r1 s = List.concat (map q_r1 ss) /\ q_r2 s = List.concat (map q_r2 ss).
Proof.
  intros H.
  assert (G : exists ls fss, Forall2 segmented parts ls /\ Forall2 (fun l fs => List.length l = List.length fs) ls fss /\
     Forall2 (fun '(p, l) '(s, fs) => line6 rec (snd p) 0 [] l fs (q_amb s) /\ q_r1 s = spaced f6_r1 fs /\ q_r2 s = spaced f6_r2 fs) (combine parts ls) (combine ss fss) /\
     Forall2 (fun p l => Forall (inside (snd p)) l) parts ls /\ Forall (small_character c) (placed parts ls) /\ Forall2 (found_at c) (placed parts ls) (List.concat fss) /\
     spaced f6_r1 (List.concat fss) = List.concat (map q_r1 ss) /\ spaced f6_r2 (List.concat fss) = List.concat (map q_r2 ss)).
  { destruct F as (St & _). clear F Sc. revert St Sp. induction H as [|[[dx dy] a] s parts' ss' (E & Sm) H IH]; intros St Sp'.
    - exists [], []. repeat (split; [constructor|]). reflexivity.
    - inversion St as [|? ? St1 St2]; subst. inversion Sp' as [|? ? Sp1 Sp2]; subst. cbn [snd] in *. destruct (IH St2 Sp2) as (ls & fss & A1 & A2 & A3 & A4 & A5 & A6 & A7 & A8). clear IH.
      destruct (segment_ok a Sp1) as (l & El & R). specialize (Sm l El). destruct (proj2 (read_line6_ok rec HS a Sp1 l El Sm) s E) as (fs & L & Q1 & Q2).
      pose proof (read_inside a 0 l R ltac:(lia)) as Il. pose proof (line6_found _ _ _ _ _ _ _ L) as Fl.
      exists (l :: ls), (fs :: fss). split; [constructor; assumption|]. split; [constructor; [exact (PipelineProofs4.Forall2_length' _ _ _ Fl)|exact A2]|].
      split; [cbn [combine]; constructor; [cbn [snd]; auto|exact A3]|]. split; [constructor; assumption|]. unfold placed in *. cbn [combine map List.concat].
      split.
      { apply Forall_app. split; [|exact A5]. clear - St1 Il Sm. induction Il as [|t l It Il IH]; cbn [map]; constructor; inversion Sm as [|? ? S1 S2]; subst; [|auto].
        intros im C. apply S1. apply (part_char c dx dy a St1 t im) in C; [exact C|lia..]. }
      split.
      { apply Forall2_app; [|exact A6]. clear - St1 Il Fl. induction Fl as [|t f l fs (im & C & Rf) Fl IH]; cbn [map]; constructor; inversion Il as [|? ? I1 I2]; subst; [|auto].
        exists im. split; [|exact Rf]. refine (proj2 (part_char c dx dy a St1 t im _ _ _ _) C); lia. }
      unfold spaced in *. rewrite !flat_map_app, A7, A8, Q1, Q2. split; reflexivity. }
  destruct G as (ls & fss & A1 & A2 & A3 & A4 & A5 & A6 & A7 & A8). pose proof (composed_segment c parts F Sc Sp ls A1) as Es.
  destruct (read_line6_ok rec HS c Sc _ Es A5) as (B1 & B2). destruct B1 as (s & Er).
  { clear - A6. induction A6 as [|t f l fs (im & C & Rf) A IH]; constructor; [|exact IH]. intros im' C'. rewrite (char_image_unique c t im' im C' C). eauto. }
  destruct (B2 s Er) as (fs & L & Q1 & Q2). assert (fs = List.concat fss) as -> by (exact (found_unique c _ _ (line6_found _ _ _ _ _ _ _ L) _ A6)).
  exists ls, fss, s. split; [exact A1|]. split; [exact A2|]. split; [exact A3|]. split; [exact A4|]. split.
  { clear - A5 A6. induction A6 as [|t f l fs (im & C & Rf) A IH]; intros g Hg; [destruct Hg|]. inversion A5 as [|? ? S1 S2]; subst. destruct Hg as [<-|Hg]; [exists im; split; [exact (S1 im C)|exact Rf]|auto]. }
  split; [exact A5|]. split; [exact Er|]. split; [exact L|]. rewrite Q1, Q2, A7, A8. auto.
Qed.

(** The words are known and the first is not a mark. *)
Lemma begins_known fs : begins_well (spaced f6_r2 fs) -> (forall f, In f fs -> exists im, recognisable im /\ recognised6 rec im f) ->
  (forall f, In f fs -> f6_amb f = f6_words f) /\ lettered (map f6_words fs).
Proof.
  intros (N & B) K. assert (X : forall f, In f fs -> (exists l, f6_words f = f6_r2 f :: l) /\ f6_amb f = f6_words f).
  { intros f Hf. destruct (K f Hf) as (im & Ri & Rf). destruct (steady_shape _ HS 0 im f Ri (Rf 0)) as (_ & (l & E) & D). split; [eauto|]. destruct D as [D|(_ & D)]; [exact D|]. exfalso. apply N. unfold spaced. apply in_flat_map. exists f. split; [exact Hf|].
    apply in_or_app. left. rewrite E in D. injection D as -> _. now left. }
  split; [intros f Hf; apply X, Hf|]. destruct fs as [|f fs]; [exact B|]. cbn [map lettered]. destruct (X f ltac:(now left)) as ((l & ->) & _). cbn [spaced flat_map] in B.
  cbn [mark6]. destruct (f6_r2 f) as [|m [|? ?]]; [reflexivity| |reflexivity]. cbn [app] in B. change (str " ") with [32] in B. cbn [app] in B.
  destruct (existsb (Z.eqb m) [32; 39; 44; 46; 33; 63; 34]) eqn:Ex; [|reflexivity]. exfalso. apply B. apply existsb_exists in Ex. destruct Ex as (x & Hx & Ex). apply Z.eqb_eq in Ex. subst x. exact Hx.
Qed.
Theorem composed_lines ss spell : Forall2 part_read parts ss -> apart parts -> Forall (fun s => begins_well (q_r2 s)) ss -> exists s, read_line6 rec c = Ok s /\
  text6 spell (q_amb s) = in_turn (map (fun s => text6 spell (q_amb s)) ss).
Proof.
  intros H Ap Bw. destruct (composed_line ss H) as (ls & fss & s & A1 & A2 & A3 & A4 & A5 & A6 & A7 & A8 & A9 & A10). exists s. split; [exact A7|].
  assert (G : (forall f, In f (List.concat fss) -> f6_amb f = f6_words f) /\ Forall2 (fun l ws => List.length l = List.length ws /\ lettered ws) ls (map (map f6_words) fss) /\
     map (fun s => text6 spell (q_amb s)) ss = map (fun '(l, ws) => text6 spell (cells 0 l ws)) (combine ls (map (map f6_words) fss))).
  { clear A4 A6 A7 A8 A9 A10 Ap F Sc Sp. revert ls fss A1 A2 A3 A5 Bw. induction H as [|p s0 parts' ss' H1 H IH]; intros ls fss A1 A2 A3 A5 Bw; inversion A1 as [|? l ? ls' S1 S2]; subst; inversion A2 as [|? fs ? fss' L1 L2]; subst.
    - split; [intros f []|]. split; [constructor|reflexivity].
    - cbn [combine] in A3. inversion A3 as [|? ? ? ? X Y]; subst. cbn beta iota in X. destruct X as (X1 & X2 & X3). inversion Bw as [|? ? B1 B2]; subst. rewrite X3 in B1.
      destruct (begins_known fs B1) as (K & M); [intros f Hf; apply A5; cbn [List.concat]; apply in_or_app; now left|].
      destruct (IH ls' fss' S2 L2 Y ltac:(intros f Hf; apply A5; cbn [List.concat]; apply in_or_app; now right) B2) as (I1 & I2 & I3). split; [|split].
      + intros f Hf. cbn [List.concat] in Hf. apply in_app_or in Hf. destruct Hf; auto.
      + cbn [map]. constructor; [split; [rewrite map_length; exact L1|exact M]|exact I2].
      + cbn [map combine]. rewrite I3. f_equal. rewrite (known_cells _ _ _ _ _ _ _ X1 K). reflexivity. }
  destruct G as (G1 & G2 & G3). rewrite (known_cells _ _ _ _ _ _ _ A8 G1), G3. rewrite concat_map. apply (composed_text spell parts ls (map (map f6_words) fss) Ap A4 G2).
Qed.
End Read.

(** * The programs *)
Section Program.
Context (rec : Z -> image -> res found6) (HS : steady rec) (nodes : list fnode) (spell : list (list (list Z)) -> option (list Z))
  (HT : forall img boxes fs amb, Forall (small_character img) boxes -> line6 rec img 0 [] boxes fs amb -> assemble6 nodes amb = Ok (text6 spell amb)).
Definition program (x : list Z) : res result := img <- image_of_bytes x 128 ;; s <- read_line6 rec img ;; t <- assemble6 nodes (q_amb s) ;; Ok (q_r1 s, q_r2 s, t).
Lemma program_result img boxes x out : image_of_bytes x 128 = Ok img -> box_searchable img -> segment img = Ok boxes -> Forall (small_character img) boxes -> program x = Ok out ->
  exists s, read_line6 rec img = Ok s /\ out = (q_r1 s, q_r2 s, text6 spell (q_amb s)).
Proof.
  intros E Sb Es Sm H. unfold program in H. rewrite E in H. cbn [bind] in H. destruct (read_line6 rec img) as [s| | |] eqn:Er; cbn [bind] in H; try discriminate. exists s. split; [reflexivity|].
  destruct (proj2 (read_line6_ok rec HS img Sb boxes Es Sm) s Er) as (fs & L & _). rewrite (HT _ _ _ _ Sm L) in H. cbn [bind] in H. congruence.
Qed.
Theorem program_joined c y parts qs : image_of_bytes y 128 = Ok c -> box_searchable c -> composed c parts -> Forall2 (part_result program) parts qs -> joined_result program y parts (map snd qs).
Proof.
  intros Ey Sc F H.
  assert (Sp : Forall (fun p => box_searchable (snd p)) parts) by (clear F; induction H as [|p q parts qs (_ & B & _) H IH]; constructor; auto).
  assert (G : exists ss, Forall2 (part_read rec) parts ss /\ map (fun s => (q_r1 s, q_r2 s, text6 spell (q_amb s))) ss = map snd qs).
  { clear F. induction H as [|p q parts qs (E & B & Sm & P) H IH]; [exists []; split; [constructor|reflexivity]|]. inversion Sp; subst. destruct IH as (ss & I1 & I2); [assumption|].
    destruct (segment_ok (snd p) B) as (l & El & _). destruct (program_result (snd p) l (fst q) (snd q) E B El (Sm l El) P) as (s & Es & Eo). exists (s :: ss). split; [constructor; [split; assumption|exact I1]|]. cbn [map]. rewrite I2, Eo. reflexivity. }
  destruct G as (ss & G1 & G2). destruct (composed_line rec HS c parts F Sc Sp ss G1) as (ls & fss & s & A1 & A2 & A3 & A4 & A5 & A6 & A7 & A8 & A9 & A10).
  exists (text6 spell (q_amb s)). rewrite <- G2, !map_map. split.
  - unfold program. rewrite Ey. cbn [bind]. rewrite A7. cbn [bind]. rewrite (HT _ _ _ _ A6 A8). cbn [bind]. rewrite A9, A10. reflexivity.
  - intros Ap Bw. assert (Bw' : Forall (fun s => begins_well (q_r2 s)) ss) by (apply Forall_forall; intros s0 Hs0; rewrite Forall_forall in Bw; apply (Bw (q_r1 s0, q_r2 s0, text6 spell (q_amb s0))); apply in_map_iff; eauto).
    destruct (composed_lines rec HS c parts F Sc Sp ss spell G1 Ap Bw') as (s' & E' & T). rewrite A7 in E'. injection E' as <-. exact T.
Qed.
End Program.
Lemma part_result_ext f g p q : (forall x, f x = g x) -> part_result f p q -> part_result g p q.
Proof. intros E (A & B & C & D). rewrite E in D. repeat split; assumption || apply B. Qed.
Lemma joined_result_ext f g y parts outs : (forall x, f x = g x) -> joined_result f y parts outs -> joined_result g y parts outs.
Proof. intros E (t & A & B). exists t. rewrite E in A. auto. Qed.
Lemma parts_result_ext f g parts qs : (forall x, f x = g x) -> Forall2 (part_result f) parts qs -> Forall2 (part_result g) parts qs.
Proof. intros E. induction 1; constructor; eauto using part_result_ext. Qed.

Theorem extract6_joined rt gs junk z cx0 datas dict spell y c parts qs : legal6 rt -> trainable6 gs -> is_std_sort Z.ltb z ->
  write_datas_file junk z cx0 (write_glyphs gs) = Ok (Some datas) -> dict_spell (labels gs) dict spell -> image_of_bytes y 128 = Ok c -> box_searchable c -> composed c parts ->
  let program x := extract_text6 rt (write_glyphs gs) datas x dict in
  Forall2 (part_result program) parts qs -> joined_result program y parts (map snd qs).
Proof.
  intros HL HT Hz ED Hd Ey Sc F prog H. destruct (load_all6_ok rt HL gs HT junk z Hz cx0 datas ED (labels gs) dict (spell_file _ _ _ Hd)) as (nodes & e & EL & En & HB & Er).
  pose proof HB as (HE & _). pose proof (recognise6_steady e HE) as HS.
  assert (X : forall x, prog x = program (recognise6 e) nodes x) by (intros x; unfold prog, extract_text6, program; rewrite EL; reflexivity).
  apply (joined_result_ext (program (recognise6 e) nodes)); [intros x; symmetry; apply X|]. apply (program_joined (recognise6 e) HS nodes spell) with (c := c); try assumption; [|exact (parts_result_ext _ _ _ _ X H)].
  intros img boxes fs amb Sm L. apply (assemble_line _ img gs boxes fs amb dict spell nodes HS Sm L); [|exact Hd|exact En].
  intros im f w R Rf Hw. destruct (found_named z Hz gs e HB im f R Rf w Hw) as [->|(g & Hg & _ & Hv)]; [now left|right]. apply in_map_iff in Hv as (v & <- & Hv). exact (label_in gs g v Hg Hv).
Qed.
Theorem extract8_joined rt gs junk z cx0 datas nodes e y c parts qs : legal8 rt -> trainable6 gs -> is_std_sort Z.ltb z ->
  write_datas_file junk z cx0 (write_glyphs gs) = Ok (Some datas) -> load_all8 rt (write_glyphs gs) datas None = Ok (nodes, e) -> image_of_bytes y 128 = Ok c -> box_searchable c -> composed c parts ->
  let program x := extract_text8 rt (write_glyphs gs) datas x None in
  Forall2 (part_result program) parts qs -> joined_result program y parts (map snd qs).
Proof.
  intros HL HT Hz ED EL Ey Sc F prog H. destruct (load8_sound rt HL gs HT junk z Hz cx0 datas ED (labels gs) None nodes e) as (HE & En & _); [now left|exact EL|].
  pose proof (recognise8_steady e HE) as HS. cbn in En. injection En as <-.
  assert (X : forall x, prog x = program (recognise8 e) [] x) by (intros x; unfold prog, extract_text8, program; rewrite EL; reflexivity).
  apply (joined_result_ext (program (recognise8 e) [])); [intros x; symmetry; apply X|]. apply (program_joined (recognise8 e) HS [] (fun _ => None)) with (c := c); try assumption; [|exact (parts_result_ext _ _ _ _ X H)].
  intros img boxes fs amb Sm L. apply assemble6_exact. intros ps out Ne _. destruct ps; [congruence|reflexivity].
Qed.

(** * The candidates of ocr2_extract_text *)
Lemma recognised_unique e im l l' : recognised e im l -> recognised e im l' -> l = l'.
Proof. intros H H'. destruct (H (fun _ => 0) new_ctxs) as (i & cx & E1 & E2). destruct (H' (fun _ => 0) new_ctxs) as (i' & cx' & E1' & E2'). rewrite E1 in E1'. injection E1' as <-. congruence. Qed.
Theorem composed_candidates e c parts ss : sound_recogniser e -> composed c parts -> box_searchable c -> Forall (fun p => box_searchable (snd p)) parts ->
  Forall2 (fun p s => (exists cx, read_line e (snd p) cx = Ok s) /\ forall l, segment (snd p) = Ok l -> Forall (small_character (snd p)) l) parts ss ->
  forall cx, exists s, read_line e c cx = Ok s /\ l_boxes s = placed parts (map l_boxes ss) /\ candidates_of s = List.concat (map candidates_of ss).
Proof.
  intros HE F Sc Sp H cx.
  assert (G : Forall2 segmented parts (map l_boxes ss) /\ Forall (small_character c) (placed parts (map l_boxes ss)) /\
     Forall2 (fun b l => exists im, char_image c b im /\ recognised e im l) (placed parts (map l_boxes ss)) (List.concat (map candidates_of ss))).
  { destruct F as (St & _). clear Sc. revert St Sp. induction H as [|[[dx dy] a] s parts' ss' ((cx' & E) & Sm) H IH]; intros St Sp'.
    - split; [constructor|]. split; constructor.
    - inversion St as [|? ? St1 St2]; subst. inversion Sp' as [|? ? Sp1 Sp2]; subst. cbn [snd] in *. destruct (IH St2 Sp2) as (A1 & A2 & A3). clear IH.
      destruct (segment_ok a Sp1) as (l & El & R). specialize (Sm l El). destruct (proj2 (read_line_ok e a HE Sp1 l cx' El Sm) s E) as (Q1 & Q2 & Q3).
      pose proof (read_inside a 0 l R ltac:(lia)) as Il. unfold placed in *. cbn [map combine List.concat]. rewrite Q1. split; [constructor; assumption|]. split.
      + apply Forall_app. split; [|exact A2]. clear - St1 Il Sm. induction Il as [|t l It Il IH]; cbn [map]; constructor; inversion Sm as [|? ? S1 S2]; subst; [|auto].
        intros im C. apply S1. apply (part_char c dx dy a St1 t im) in C; [exact C|lia..].
      + apply Forall2_app; [|exact A3]. unfold candidates_of. clear - St1 Il Q3. revert Q3. generalize (l_store s) (l_amb s). intros st amb Q3. induction Q3 as [|t r l amb (_ & im & C & Rf) Q3 IH]; cbn [map]; constructor; inversion Il as [|? ? I1 I2]; subst; [|auto].
        exists im. split; [|exact Rf]. refine (proj2 (part_char c dx dy a St1 t im _ _ _ _) C); lia. }
  destruct G as (A1 & A2 & A3). pose proof (composed_segment c parts F Sc Sp _ A1) as Es. destruct (read_line_ok e c HE Sc _ cx Es A2) as (B1 & B2). destruct B1 as (s & Er).
  { clear - A2 A3. induction A3 as [|t f l fs (im & C & Rf) A IH]; constructor; inversion A2 as [|? ? S1 S2]; subst; [|auto]. intros im' C'. split; [exact (S1 im' C')|]. rewrite (char_image_unique c t im' im C' C). eauto. }
  destruct (B2 s Er) as (Q1 & Q2 & Q3). exists s. split; [exact Er|]. split; [exact Q1|]. revert A3. generalize (List.concat (map candidates_of ss)). unfold candidates_of. clear - Q3. revert Q3. generalize (l_store s) (l_amb s) (placed parts (map l_boxes ss)). intros st amb boxes Q3.
  induction Q3 as [|t r l amb (_ & im & C & Rf) Q3 IH]; intros ls A3; inversion A3 as [|? ? ? ? (im' & C' & Rf') A3']; subst; [reflexivity|]. cbn [map]. f_equal; [|auto].
  rewrite (char_image_unique c t im' im C' C) in Rf'. exact (recognised_unique e im _ _ Rf Rf').
Qed.
