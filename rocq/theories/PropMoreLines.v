(** Property C119: lines of words, in another order or about other words. *)
From Coq Require Import Permutation.
From Verif Require Import Base BaseProofs SortModel SortProofs ImageModel ImageSpec PnmModel BoxModel BoxSpec StratModel ZoneModel DatasModel DatasSpec UtfSpec StreamModel
  GlyphIoModel GlyphIoSpec DatasIoModel DictIoModel TrieModel TrieSpec IndexModel GlyphsModel GlyphsSpec RecogModel RecogSpec RecogWitness FilterModel LearnModel LearnSpec
  PipelineModel PipelineSpec PrintModel PrintSpec ReadSpec LinesSpec ReadingSpec MoreLinesSpec MoreLinesProofs PropPipeline PropRead.

(** Every file of lines tells exactly one list of words with their values. *)
Theorem C119_told : forall ws ls, exists es, told ws ls es /\ forall es', told ws ls es' -> es' = es.
Proof. intros ws ls. destruct (told_some ws ls) as (es & T). exists es. split; [exact T|]. intros es' T'. exact (told_unique ws ls es' T' es T). Qed.
Print Assumptions C119_told.

(** C119, full statement: the program does the same with two files of lines, whatever the
    features, the image and the dictionary, when the files tell the same words with the
    same values modulo 8, in any order.  Proved when the words are in the same order, or
    when no word is told twice; the lines of other words and the lines of more than 8 bytes
    may then be anything. *)
Theorem C119_same_partial : forall rt cx gs datas image dict file file' ls ls' es es', legal rt -> trainable gs ->
  lines_text (labels gs) file ls -> lines_text (labels gs) file' ls' -> told (labels gs) ls es -> told (labels gs) ls' es' -> same_words es es' ->
  extract_text rt cx (write_glyphs gs) datas image file' dict = extract_text rt cx (write_glyphs gs) datas image file dict.
Proof. exact lines_same. Qed.
Print Assumptions C119_same_partial.

(** All that is printed and the end of the program are the same, too. *)
Theorem C119_printed_partial : forall rt nan cx disk disk' prog prog' args args' gs datas image dict file file' ls ls' es es', legal rt -> trainable gs ->
  disk_files disk args (Some (write_glyphs gs)) datas image file dict -> disk_files disk' args' (Some (write_glyphs gs)) datas image file' dict ->
  lines_text (labels gs) file ls -> lines_text (labels gs) file' ls' -> told (labels gs) ls es -> told (labels gs) ls' es' -> same_words es es' ->
  ocr2_main rt nan cx disk' (prog' :: args') = ocr2_main rt nan cx disk (prog :: args).
Proof. exact printed_same. Qed.
Print Assumptions C119_printed_partial.

(** In particular a file about other words only is as no file. *)
Theorem C119_useless : forall rt cx gs datas image dict ls, legal rt -> trainable gs -> Forall good_fline ls -> (forall l, In l ls -> searchable (labels gs) (fn_word l)) ->
  (forall l w, In l ls -> In w (labels gs) -> 8 < vsize (fn_word l) \/ ~ starts_with (fn_word l) w) ->
  extract_text rt cx (write_glyphs gs) datas image (Some (flat_map fline_text ls)) dict = extract_text rt cx (write_glyphs gs) datas image None dict.
Proof.
  intros rt cx gs datas image dict ls HL HT G S N. refine (lines_same rt cx gs datas image dict None (Some (flat_map fline_text ls)) [] ls [] [] HL HT _ _ (told_none _) _ (or_introl eq_refl)).
  - left. split; reflexivity.
  - right. split; [reflexivity|]. split; [exact G|exact S].
  - clear G S. induction ls as [|l ls IH]; [constructor|]. assert (T := IH (fun x w Hx => N x w (or_intror Hx))).
    destruct (Z_lt_le_dec 8 (vsize (fn_word l))) as [L|L]; [now apply told_long|]. apply told_nobody; [|exact T].
    intros w Hw. destruct (N l w (or_introl eq_refl) Hw) as [X|X]; [lia|exact X].
Qed.
Print Assumptions C119_useless.

(** A bar that is an "l" or an "I": a line about "I" that comes first or last, with other
    words around and a value greater by 8. *)
Definition ex_about (w : string) (b : Z) : fline := mkfline (str w) 0 0 0 b.
Definition ex_long : fline := mkfline (str "IIIIIIIII") 0 0 0 4.
Lemma ex_I_told b : designates (labels (ex_fonts "g")) (fn_word (ex_about "I" b)) (str "I").
Proof.
  split; [right; left; reflexivity|]. split; [exists []; reflexivity|]. intros w [<-|[<-|[<-|[]]]] (r & E); vm_compute in E; try discriminate. now left.
Qed.
Lemma ex_fonts_searchable w : Forall (fun c => 1 < c) w -> searchable (labels (ex_fonts "g")) w.
Proof.
  intros F. rewrite Forall_forall in F. split; [intros c H; pose proof (F c H); lia|]. intros v c Hv H. pose proof (F c H).
  destruct Hv as [<-|[<-|[<-|[]]]]; vm_compute vsize; lia.
Qed.
Lemma visible_plain w : negb (vsize w =? 0) && forallb (fun c => 33 <=? c) w = true -> plain_text w.
Proof.
  intros H. apply andb_prop in H as (N & F). rewrite forallb_forall in F. split; [intros ->; discriminate|]. intros c Hc. pose proof (F c Hc). lia.
Qed.
Lemma ex_fonts_trainable : trainable (ex_fonts "g").
Proof.
  split; [|split; [vm_compute; reflexivity|]].
  - intros g [<-|[<-|[<-|[]]]]; (split; [|split; [repeat split; vm_compute; congruence|split; [discriminate|]]]).
    all: try (cbn; intuition discriminate).
    all: (split; [repeat split; vm_compute; congruence|split; [vm_compute; reflexivity|]]; constructor; [|constructor]; split; [apply visible_plain; reflexivity|split; [apply visible_plain; reflexivity|vm_compute; split; congruence]]).
  - split; [|split; [vm_compute; reflexivity|split; [vm_compute; reflexivity|]]].
    + intros w [<-|[<-|[<-|[]]]]; (split; [intros c [<-|[]]; vm_compute; split; congruence|vm_compute; reflexivity]).
    + intros w ([<-|[<-|[<-|[]]]] & _); vm_compute; discriminate.
Qed.
Example C119_nonvacuous : legal ex_rt /\ trainable (ex_fonts "g") /\
  let one := [ex_about "I" 4] in let more := [ex_about "z" 2; ex_about "I" 12; ex_long; ex_about "Il" 2] in
  lines_text (labels (ex_fonts "g")) (Some (flat_map fline_text one)) one /\ lines_text (labels (ex_fonts "g")) (Some (flat_map fline_text more)) more /\
  told (labels (ex_fonts "g")) one [(str "I", (0, 0, 0, 4))] /\ told (labels (ex_fonts "g")) more [(str "I", (0, 0, 0, 4))] /\
  read_lines (ex_fonts "g") one ex_dotted = Ok (str "l:", 0, 2) /\ read_lines (ex_fonts "g") more ex_dotted = Ok (str "l:", 0, 2) /\
  read_lines (ex_fonts "g") [ex_about "z" 4; ex_long] ex_dotted = Ok (str "I:", 0, 2) /\ read_with (ex_fonts "g") ex_dotted = Ok (str "I:", 0, 2) /\
  read_lines (ex_fonts "g") [ex_about "I" 4; ex_about "l" 2] ex_dotted = read_lines (ex_fonts "g") [ex_about "l" 2; ex_about "I" 4] ex_dotted.
Proof.
  split; [exact ex_legal|]. split; [exact ex_fonts_trainable|]. cbv zeta.
  assert (S : forall ls, Forall (fun l => Forall (fun c => 1 < c) (fn_word l)) ls -> forall l, In l ls -> searchable (labels (ex_fonts "g")) (fn_word l)).
  { intros ls F l Hl. rewrite Forall_forall in F. apply ex_fonts_searchable. exact (F l Hl). }
  split; [right; split; [reflexivity|split; [|apply S; repeat constructor]]|].
  { repeat (apply Forall_cons; [split; [apply visible_plain; reflexivity|repeat split; vm_compute; congruence]|]). constructor. }
  split; [right; split; [reflexivity|split; [|apply S; repeat constructor]]|].
  { repeat (apply Forall_cons; [split; [apply visible_plain; reflexivity|repeat split; vm_compute; congruence]|]). constructor. }
  split; [exact (told_word _ (ex_about "I" 4) _ _ _ ltac:(vm_compute; congruence) (ex_I_told 4) (told_none _))|].
  split; [apply told_nobody; [|refine (told_word _ (ex_about "I" 12) _ _ _ ltac:(vm_compute; congruence) (ex_I_told 12) _); apply told_long; [vm_compute; reflexivity|]; apply told_nobody; [|constructor]];
    (intros w Hw (r & E); destruct Hw as [<-|[<-|[<-|[]]]]; vm_compute in E; discriminate)|].
  split; [vm_compute; reflexivity|]. split; [vm_compute; reflexivity|]. split; [vm_compute; reflexivity|]. split; vm_compute; reflexivity.
Qed.

(** When a word is told twice, the order of the lines matters. *)
Theorem C119_order_refuted : Permutation [ex_about "I" 4; ex_about "I" 2] [ex_about "I" 2; ex_about "I" 4] /\
  read_lines (ex_fonts "g") [ex_about "I" 4; ex_about "I" 2] ex_dotted = Ok (str "l:", 0, 2) /\
  read_lines (ex_fonts "g") [ex_about "I" 2; ex_about "I" 4] ex_dotted = Ok (str "I:", 0, 2).
Proof. split; [constructor|]. split; vm_compute; reflexivity. Qed.
Print Assumptions C119_order_refuted.
