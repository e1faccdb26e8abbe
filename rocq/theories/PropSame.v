(** Property C103: what ocr2_extract_text prints depends on its files only. *)
From Verif Require Import Base SortModel SortProofs ImageModel PnmModel BoxModel BoxSpec StratModel ZoneModel DatasModel DatasSpec StreamModel GlyphIoModel DatasIoModel
  DictIoModel TrieModel IndexModel FloatModel RecogModel RecogSpec GlyphsModel ExtractModel ExtractSpec ExtractProofs LearnModel PipelineModel PipelineSpec ReportModel
  ShowModel ShowSpec FormatModel PrintModel PrintSpec SameSpec SameProofs SameProofs2 RecogWitness PropPipeline PropPrint.
From Coq Require Import Permutation.

(** C103: the standard does not tell the order in which std::sort leaves equivalent
    elements, nor the content of fresh memory.  With the same picture and the same table, the
    result of a recognition is the same whatever they are, when glyphs of equal scores
    have equal labels. *)
Theorem C103_recognition : forall e e' n img cx cx', sound_recogniser e -> sound_recogniser e' -> same_data (r_table e) (r_table e') -> recognisable img ->
  untied_picture (r_table e) img -> labels_only (recognise_img e n img cx) = labels_only (recognise_img e' n img cx').
Proof. exact recognise_same. Qed.
Print Assumptions C103_recognition.
(** The features of a picture never depend on the sort. *)
Theorem C103_features : forall z z' s img img90, is_std_sort Z.ltb z -> is_std_sort Z.ltb z' -> feature_alone z s img img90 = feature_alone z' s img img90.
Proof. exact feature_sort. Qed.
Print Assumptions C103_features.
(** The whole program, whatever the arguments and the files. *)
Theorem C103_output : forall rt rt' nan cx cx' disk prog args, legal rt -> legal rt' -> settled_files disk args ->
  ocr2_main rt nan cx disk (prog :: args) = ocr2_main rt' nan cx' disk (prog :: args).
Proof. exact main_same. Qed.
Print Assumptions C103_output.

(** Another sort: equivalent elements come in the opposite order. *)
Definition rsort {A} (lt : A -> A -> bool) (l : list A) : list A := isort lt (rev l).
Lemma rsort_is_sort {A} (lt : A -> A -> bool) : is_std_sort lt (rsort lt).
Proof.
  intros l H. assert (H' : strict_weak lt (rev l)) by (eapply strict_weak_incl; [exact H|]; intros x; rewrite <- in_rev; auto).
  destruct (isort_is_sort lt (rev l) H') as (P & S). split; [|exact S]. etransitivity; [apply Permutation_rev|exact P].
Qed.
Definition ex_other : runtime := mkrt (fun d => rsort (index_lt d)) (fun v => rsort (ref_lt v)) (rsort wi_lt) (fun ids => rsort (lt_by_views ids)) (rsort gt_prob) (rsort Z.ltb) (fun _ _ => 5).
Lemma ex_other_legal : legal ex_other.
Proof. repeat split; intros; apply rsort_is_sort; assumption. Qed.
(** The files: the glyphs of a line with a text, the features of these glyphs. *)
Definition ex_disk (line : image) (text : list Z) (lines : list Z) (img : image) : res (list Z -> option (list Z)) :=
  '(gf, _) <- learn_image line text (str "f") ;;
  df <- write_datas_file (fun _ => 0) (isort Z.ltb) new_ctxs gf ;;
  Ok (fun n => if list_eqb n (str "g") then Some gf else if list_eqb n (str "f") then df else if list_eqb n (str "i") then Some (ex_bytes img)
               else if list_eqb n (str "w") then Some lines else None).
Definition ex_same (rt : runtime) (line : image) (text : list Z) (lines : list Z) (img : image) (extra : list (list Z)) : res (list Z * ended) :=
  disk <- ex_disk line text lines img ;; ocr2_main rt (str "-nan") new_ctxs disk ([str "ocr2"; str "g"; str "f"; str "i"] ++ extra).
(** Twice the same picture, with two words: the first one is written, and the sort tells
    which. *)
Definition ex_twice : image := rows 9 ["-x-----x-"; "-x-----x-"; "-x-----x-"]%string.
Definition ex_result (r : string) : list Z := lines_text
  [" ## datas.size(): 2"; " ## glyphs.size(): 2"; " ## go"; ":::"; ":x:"; ":x:"; ":x:"; ":::"; r]%string.
Definition ex_count : list Z := lines_text ["unrecognized_count: 0"; "count: 2"; "unrecognized_rate: 0"]%string.
Theorem C103_ties_refuted : legal ex_rt /\ legal ex_other /\
  ex_same ex_rt ex_twice (str "a b") [] ex_twice [] = Ok (ex_result "a b " ++ lines_text [" ## result: a a"]%string ++ ex_count, Exits 0) /\
  ex_same ex_other ex_twice (str "a b") [] ex_twice [] = Ok (ex_result "b a " ++ lines_text [" ## result: b b"]%string ++ ex_count, Exits 0).
Proof. split; [exact ex_legal|]. split; [exact ex_other_legal|]. split; vm_compute; reflexivity. Qed.
Print Assumptions C103_ties_refuted.
(** A file of lines with two entries for a word; the two runs differ in the sort of the
    lines only. *)
Definition ex_lines : runtime := mkrt (rt_first ex_rt) (rt_ids ex_rt) (rsort wi_lt) (rt_views ex_rt) (rt_probs ex_rt) (rt_zones ex_rt) (rt_junk ex_rt).
Theorem C103_lines_refuted : legal ex_rt /\ legal ex_lines /\
  ex_same ex_rt ex_twice (str "a b") (str "a 0 0 0 0 a 0 0 0 4 ") ex_twice [str "w"] = Ok (ex_result "a b " ++ lines_text [" ## result: a a"]%string ++ ex_count, Exits 0) /\
  ex_same ex_lines ex_twice (str "a b") (str "a 0 0 0 0 a 0 0 0 4 ") ex_twice [str "w"] = Ok (ex_result "a b " ++ lines_text [" ## result: b b"]%string ++ ex_count, Exits 0).
Proof.
  split; [exact ex_legal|]. split; [|split; vm_compute; reflexivity]. destruct ex_legal as (A & B & _ & C). split; [exact A|]. split; [exact B|]. split; [apply rsort_is_sort|exact C].
Qed.
Print Assumptions C103_lines_refuted.

(** A picture that can be one glyph only leaves nothing open. *)
Lemma single_untied inp t i : (forall j, candidate inp t j -> j = i) -> untied inp t.
Proof. intros H. split; [intros a b (A & _) (B & _)|intros _ a b x (A & _) (B & _) _ _]; now rewrite (H a A), (H b B). Qed.
Lemma ex_untied t im i a j b : im = ex_bar \/ im = ex_dots -> RecogSpec.rows t = 2 -> (forall k, 0 <= k < 2 -> k = i \/ k = j) ->
  simple_value im (mkst Density false) a -> cell t (mkst Density false) j (VNum b) -> 10 < Z.abs (a - b) -> untied_picture t im.
Proof.
  intros Him Hr Hk (im90 & Er & Hv) Hc Hd inp (R & Er' & _) Ei. apply (single_untied inp t i). intros k (Hi & C). destruct (Hk k) as [-> | ->]; [lia|reflexivity|]. exfalso.
  assert (F : feature inp (mkst Density false) (VNum a)). { unfold feature. rewrite Ei in Er' |- *. rewrite Er in Er'. injection Er' as <-. exact Hv. }
  specialize (C (mkst Density false) a b ltac:(vm_compute; tauto) F Hc). change (range (mkst Density false) / 10) with 10 in C. lia.
Qed.
Example C103_nonvacuous : exists disk, ex_disk ex_line (str "l :") [] ex_line = Ok disk /\ settled_files disk [str "g"; str "f"; str "i"] /\
  ocr2_main ex_rt (str "-nan") new_ctxs disk [str "ocr2"; str "g"; str "f"; str "i"] = Ok (lines_text
    [" ## datas.size(): 2"; " ## glyphs.size(): 2"; " ## go"; ":::"; ":x:"; ":x:"; ":x:"; ":::"; "l "; ":::"; ":x:"; ":-:"; ":x:"; ":::"; ": ";
     " ## result: l :"; "unrecognized_count: 0"; "count: 2"; "unrecognized_rate: 0"]%string, Exits 0).
Proof.
  destruct (ex_disk ex_line (str "l :") [] ex_line) as [disk| | |] eqn:ED; [|exfalso; vm_compute in ED; discriminate ED..]. exists disk. split; [reflexivity|]. split.
  2:{ vm_compute in ED. injection ED as <-. vm_compute. reflexivity. }
  intros fg fd fi options cols g ls [= <- <- <- <-] Ec Eg El. cbn [nth_error] in El. injection El as <-.
  vm_compute in ED. injection ED as <-. vm_compute in Ec. injection Ec as <-. vm_compute in Eg. injection Eg as <-.
  split; [intros infos [= <-]; constructor|]. split; [vm_compute; reflexivity|]. split.
  { intros c Hc. repeat (destruct Hc as [<-|Hc]; [vm_compute; reflexivity|]). destruct Hc. }
  intros img t Ei Ts Tc Tg. assert (E : img = ex_line) by (vm_compute in Ei; injection Ei as <-; vm_compute; reflexivity). subst img. clear Ei. split; [repeat split; vm_compute; congruence|].
  intros boxes b Eb Hb. assert (E : boxes = ex_boxes) by (vm_compute in Eb; injection Eb as <-; vm_compute; reflexivity). subst boxes. clear Eb.
  assert (Rn : recognisable ex_bar /\ recognisable ex_dots) by (split; repeat split; vm_compute; congruence).
  assert (P : forall im, char_image ex_line b im -> im = ex_bar \/ im = ex_dots).
  { intros im Him. destruct Hb as [<-|[<-|[]]]; [destruct (ex_pictures (mkbox 1 0 1 3) (str "l") im (or_introl eq_refl) Him) as [(_ & ->)|(_ & ->)]|destruct (ex_pictures (mkbox 7 0 1 3) (str ":") im (or_intror (or_introl eq_refl)) Him) as [(_ & ->)|(_ & ->)]]; auto. }
  split; [intros im Him; destruct (P im Him) as [-> | ->]; apply Rn|]. intros im Him.
  assert (Hr : RecogSpec.rows t = 2) by (unfold RecogSpec.rows; rewrite Tg; reflexivity).
  assert (C : forall k v, (k = 0 /\ v = 100) \/ (k = 1 /\ v = 66) -> cell t (mkst Density false) k (VNum v)).
  { intros k v Hk. split; [lia|]. unfold cell. rewrite Ts, Tc. exists [VNum 100; VNum 66]. split; [cbn; tauto|]. destruct Hk as [(-> & ->)|(-> & ->)]; reflexivity. }
  assert (V : forall im x, (im = ex_bar /\ x = 100) \/ (im = ex_dots /\ x = 66) -> simple_value im (mkst Density false) x).
  { intros im' x [(-> & ->)|(-> & ->)]; eexists; split; vm_compute; reflexivity. }
  destruct (P im Him) as [-> | ->].
  - apply (ex_untied t ex_bar 0 100 1 66); [now left|exact Hr|intros k Hk; lia|apply V; auto|apply C; auto|vm_compute; reflexivity].
  - apply (ex_untied t ex_dots 1 66 0 100); [now right|exact Hr|intros k Hk; lia|apply V; auto|apply C; auto|vm_compute; reflexivity].
Qed.
