(** Property C113: what is read when more glyphs are learnt. *)
From Verif Require Import Base SortModel SortProofs ImageModel ImageSpec PnmModel BoxModel BoxSpec StratModel StratSpec ZoneModel DatasModel DatasSpec StreamModel GlyphIoModel GlyphIoSpec DatasIoModel DictIoModel
  TrieModel IndexModel FloatModel RecogModel RecogSpec RecogWitness GlyphsModel ExtractModel ExtractSpec LearnModel PipelineModel PipelineSpec PipelineProofs4 ReadSpec PipelineProofs5 PropPipeline PropRead
  Ocr6Model Ocr6Spec Ocr6Proofs5 PropOcr6 PropOcr8 Same6Spec SameProofs6 PropSame PropSame6 Chain6Spec Chain6Proofs MoreSpec MoreProofs MoreProofs2.
From Coq Require Import Permutation.

(** C113: lines that ocr2_extract_text reads with some glyphs are read with more, when
    none of those that resemble a character has another word. *)
Theorem C113_text_partial : forall rt rt' gs gs' junk junk' z z' cx0 cx0' datas datas' cx cx' bytes img boxes ws lines dict, legal rt -> legal rt' -> trainable gs -> trainable gs' -> incl gs gs' ->
  is_std_sort Z.ltb z -> is_std_sort Z.ltb z' -> write_datas_file junk z cx0 (write_glyphs gs) = Ok (Some datas) -> write_datas_file junk' z' cx0' (write_glyphs gs') = Ok (Some datas') ->
  image_of_bytes bytes 128 = Ok img -> box_searchable img -> segment img = Ok boxes -> Forall2 (word_taught gs img) boxes ws -> Forall2 (no_other_word gs' img) boxes ws ->
  PipelineSpec.steady boxes -> no_lost_break (spoken 0 boxes ws) -> lines_file (labels gs) lines -> lines_file (labels gs') lines -> dict_file ws dict ->
  extract_text rt cx (write_glyphs gs) datas bytes lines dict = Ok (line_text boxes ws, 0, vsize boxes) /\ extract_text rt' cx' (write_glyphs gs') datas' bytes lines dict = Ok (line_text boxes ws, 0, vsize boxes).
(* Full statement: the same text whenever the glyphs that are added do not resemble a
   character (C113_lost_refuted, C113_unlike_refuted). *)
Proof. exact text_more. Qed.
Print Assumptions C113_text_partial.
(** extract_text6. *)
Theorem C113_text6 : forall rt rt' gs gs' junk junk' z z' cx0 cx0' datas datas' bytes img boxes ws dict spell, legal6 rt -> legal6 rt' -> trainable6 gs -> trainable6 gs' -> incl gs gs' ->
  is_std_sort Z.ltb z -> is_std_sort Z.ltb z' -> write_datas_file junk z cx0 (write_glyphs gs) = Ok (Some datas) -> write_datas_file junk' z' cx0' (write_glyphs gs') = Ok (Some datas') ->
  image_of_bytes bytes 128 = Ok img -> box_searchable img -> segment img = Ok boxes -> Forall2 (fun b w => forall im, char_image img b im -> recognisable im /\ taught6 gs im w) boxes ws ->
  Forall2 (no_other_word6 gs' img) boxes ws -> dict_spell (labels gs) dict spell -> dict_spell (labels gs') dict spell ->
  extract_text6 rt (write_glyphs gs) datas bytes dict = Ok (words_line ws, words_line ws, text6 spell (heard6 0 boxes ws)) /\
  extract_text6 rt' (write_glyphs gs') datas' bytes dict = Ok (words_line ws, words_line ws, text6 spell (heard6 0 boxes ws)).
Proof. exact text_more6. Qed.
Print Assumptions C113_text6.
(** The words that extract_text6 finds, from the glyphs. *)
Theorem C113_words6 : forall z gs e im f, is_std_sort Z.ltb z -> built6 z gs e -> recognisable im -> recognised6 (recognise6 e) im f -> words_found6 z gs im (f6_words f).
Proof. exact found_words. Qed.
Print Assumptions C113_words6.
(** With more glyphs no word is lost, if one of the first had the tenths of the picture. *)
Theorem C113_more6 : forall z gs gs' im ws ws', incl gs gs' -> (exists g, In g gs /\ same6 z im g) -> words_found6 z gs im ws -> words_found6 z gs' im ws' -> incl ws ws'.
Proof. exact more_words. Qed.
Print Assumptions C113_more6.
(** Glyphs that are far from a picture, with other words than those near it, change
    nothing. *)
Theorem C113_unrelated6 : forall z gs hs gs' im, Permutation gs' (gs ++ hs) -> unrelated6 z gs hs im -> forall ws ws', words_found6 z gs im ws -> words_found6 z gs' im ws' -> forall w, In w ws <-> In w ws'.
Proof. exact unrelated_words. Qed.
Print Assumptions C113_unrelated6.
Theorem C113_results6_partial : forall rt rt' gs hs gs' junk junk' z cx0 cx0' datas datas' bytes img ws dict, legal6 rt -> legal6 rt' -> trainable6 gs -> trainable6 gs' -> Permutation gs' (gs ++ hs) -> is_std_sort Z.ltb z ->
  write_datas_file junk z cx0 (write_glyphs gs) = Ok (Some datas) -> write_datas_file junk' z cx0' (write_glyphs gs') = Ok (Some datas') -> dict_file ws dict -> image_of_bytes bytes 128 = Ok img -> box_searchable img ->
  (forall boxes b im, segment img = Ok boxes -> In b boxes -> char_image img b im ->
     recognisable im /\ (comparable_glyphs z gs' im \/ exists g, In g gs /\ same6 z im g) /\ unrelated6 z gs hs im /\ decided6 z gs im) ->
  extract_text6 rt (write_glyphs gs) datas bytes dict = extract_text6 rt' (write_glyphs gs') datas' bytes dict.
(* Full statement: without the condition on the words of the glyphs that are far
   (C113_far6_refuted). *)
Proof. exact extract_text6_more. Qed.
Print Assumptions C113_results6_partial.

(** * Examples *)
Definition gl (w : string) (im : image) : glyph := mkglyph im [mkview (str w) (str "f") 0].
Definition ex_bars : image := rows 5 ["-x-x-"; "-x-x-"; "-x-x-"]%string.
Definition ex_bars_boxes : list box := [mkbox 1 0 1 3; mkbox 3 0 1 3].
Lemma ex_bars_pictures b im : In b ex_bars_boxes -> char_image ex_bars b im -> im = ex_bar.
Proof.
  intros [<-|[<-|[]]] Hi; refine (ExtractProofs.char_image_unique ex_bars _ _ _ Hi _);
    (split; [repeat split; vm_compute; congruence|]; split; [reflexivity|]; split; [reflexivity|]; cbn [bw bh bx by_];
     intros i j Hi' Hj; assert (i = 0) by lia; subst i; assert (J : j = 0 \/ j = 1 \/ j = 2) by lia; destruct J as [->|[->| ->]]; reflexivity).
Qed.
Lemma ex_one_trainable : trainable [gl "l" ex_bar].
Proof.
  split; [|split; [vm_compute; reflexivity|]].
  - intros g [<-|[]]. apply (proj1 ex_trainable). now left.
  - split; [|split; [vm_compute; reflexivity|split; [vm_compute; reflexivity|]]].
    + intros w [<-|[]]. split; [intros c [<-|[]]; vm_compute; split; congruence|vm_compute; reflexivity].
    + intros w ([<-|[]] & _); vm_compute; discriminate.
Qed.
Example C113_nonvacuous : exists datas datas', legal ex_rt /\ trainable [gl "l" ex_bar] /\ trainable ex_glyphs /\ incl [gl "l" ex_bar] ex_glyphs /\
  write_datas_file (fun _ => 0) (isort Z.ltb) new_ctxs (write_glyphs [gl "l" ex_bar]) = Ok (Some datas) /\ write_datas_file (fun _ => 0) (isort Z.ltb) new_ctxs (write_glyphs ex_glyphs) = Ok (Some datas') /\
  image_of_bytes (picture ex_bars) 128 = Ok ex_bars /\ box_searchable ex_bars /\ segment ex_bars = Ok ex_bars_boxes /\
  Forall2 (word_taught [gl "l" ex_bar] ex_bars) ex_bars_boxes [str "l"; str "l"] /\ Forall2 (no_other_word ex_glyphs ex_bars) ex_bars_boxes [str "l"; str "l"] /\
  PipelineSpec.steady ex_bars_boxes /\ no_lost_break (spoken 0 ex_bars_boxes [str "l"; str "l"]) /\ lines_file (labels [gl "l" ex_bar]) None /\ lines_file (labels ex_glyphs) None /\ dict_file [str "l"; str "l"] None /\
  read_with [gl "l" ex_bar] ex_bars = Ok (str "ll", 0, 2) /\ read_with ex_glyphs ex_bars = Ok (str "ll", 0, 2).
Proof.
  eexists. eexists. split; [exact ex_legal|]. split; [exact ex_one_trainable|]. split; [exact ex_trainable|]. split; [intros g [<-|[]]; now left|].
  split; [vm_compute; reflexivity|]. split; [vm_compute; reflexivity|]. split; [vm_compute; reflexivity|]. split; [repeat split; vm_compute; congruence|]. split; [vm_compute; reflexivity|].
  assert (R : recognisable ex_bar) by (repeat split; vm_compute; congruence).
  split; [|split].
  - assert (T : forall b, In b ex_bars_boxes -> word_taught [gl "l" ex_bar] ex_bars b (str "l")).
    { intros b Hb im Hi. rewrite (ex_bars_pictures b im Hb Hi). split; [exact R|]. split; [exists (gl "l" ex_bar); split; [now left|apply resembles_refl; exact R]|]. intros g v [<-|[]] _ [<-|[]]. reflexivity. }
    constructor; [apply T; now left|]. constructor; [apply T; right; now left|constructor].
  - assert (T : forall b, In b ex_bars_boxes -> no_other_word ex_glyphs ex_bars b (str "l")).
    { intros b Hb im g v Hi Hg M Hv. rewrite (ex_bars_pictures b im Hb Hi) in M. destruct Hg as [<-|[<-|[]]]; [destruct Hv as [<-|[]]; reflexivity|destruct (proj1 ex_different M)]. }
    constructor; [apply T; now left|]. constructor; [apply T; right; now left|constructor].
  - split; [exists (mkbox 3 0 1 3); split; [left; reflexivity|vm_compute; congruence]|]. split; [left; reflexivity|]. split; [now left|]. split; [now left|]. split; [now left|]. split; vm_compute; reflexivity.
Qed.
(** The glyph of a "7" is far from the characters of C76. *)
Lemma ex_unrelated im : im = ex_o \/ im = ex_r \/ im = ex_l -> unrelated6 (isort Z.ltb) ex_rlo [g6 "7" ex_7] im.
Proof.
  intros Hi h [<-|[]]. split; [|intros g [<-|[<-|[<-|[]]]] _; vm_compute; discriminate]. intros N.
  assert (Ds : exists s x y, In s simple_strategies /\ strategy_eqb s first_feature = false /\ seen6 (isort Z.ltb) im s (VNum x) /\ true6 (isort Z.ltb) ex_7 s (VNum y) /\ 1 <= Z.abs (tenth x - tenth y)).
  { exists (mkst Hgravity true). destruct Hi as [-> | [-> | ->]]; (do 2 eexists; split; [cbv; tauto|]; split; [reflexivity|]; split; [eexists; split; [vm_compute; reflexivity|vm_compute; reflexivity]|]; split; [eexists; split; [vm_compute; reflexivity|vm_compute; reflexivity]|]); vm_compute; congruence. }
  destruct Ds as (s & x & y & Hs & Ns & Sx & Ty & D). pose proof (N s x y Hs Sx Ty) as B. rewrite Ns in B. lia.
Qed.
Lemma ex_comparable7 im : im = ex_r \/ im = ex_l -> comparable_glyphs (isort Z.ltb) (g6 "7" ex_7 :: ex_rlo) im.
Proof.
  intros H g a b [<-|Hg]; [|now apply ex_comparable]. intros (r & Er & Ea) (r' & Er' & Eb) x y Hxy. destruct H as [-> | ->]; vm_compute in Er; injection Er as <-; vm_compute in Ea; injection Ea as <-;
    vm_compute in Er'; injection Er' as <-; vm_compute in Eb; injection Eb as <-; vm_compute in Hxy; intuition; try (injection H as <- <-; lia).
Qed.
Example C113_nonvacuous6 : exists datas datas', legal6 ex_rt6 /\ legal6 ex_other6 /\ trainable6 ex_rlo /\ trainable6 (g6 "7" ex_7 :: ex_rlo) /\ Permutation (g6 "7" ex_7 :: ex_rlo) (ex_rlo ++ [g6 "7" ex_7]) /\
  write_datas_file (fun _ => 0) (isort Z.ltb) new_ctxs (write_glyphs ex_rlo) = Ok (Some datas) /\ write_datas_file (fun _ => 0) (isort Z.ltb) new_ctxs (write_glyphs (g6 "7" ex_7 :: ex_rlo)) = Ok (Some datas') /\
  dict_file [] None /\ image_of_bytes (picture ex_orl) 128 = Ok ex_orl /\ box_searchable ex_orl /\
  (forall boxes b im, segment ex_orl = Ok boxes -> In b boxes -> char_image ex_orl b im ->
     recognisable im /\ (comparable_glyphs (isort Z.ltb) (g6 "7" ex_7 :: ex_rlo) im \/ exists g, In g ex_rlo /\ same6 (isort Z.ltb) im g) /\
     unrelated6 (isort Z.ltb) ex_rlo [g6 "7" ex_7] im /\ decided6 (isort Z.ltb) ex_rlo im) /\
  read6_by ex_rt6 ex_rlo ex_orl = Ok (str "o _ _ ", str "o _ _ ", str "o??") /\ read6_by ex_other6 (g6 "7" ex_7 :: ex_rlo) ex_orl = Ok (str "o _ _ ", str "o _ _ ", str "o??").
Proof.
  destruct C105_nonvacuous as (datas & _ & _ & H1 & H2 & H3 & H4 & H5 & H6 & _ & (H7 & H8) & _). exists datas. eexists. destruct C76_nonvacuous as (_ & _ & _ & _ & Eb & _).
  split; [exact H1|]. split; [exact H2|]. split; [exact H3|]. split; [exact ex_rlo7|]. split; [apply Permutation_cons_append|]. split; [exact H4|]. split; [vm_compute; reflexivity|]. split; [exact H5|]. split; [exact H6|].
  split; [exact H7|]. split; [|split; vm_compute; reflexivity].
  intros boxes b im E Hb Ci. destruct (H8 boxes b E Hb) as (Rd & Dc). rewrite Eb in E. injection E as <-. pose proof (ex_orl_pictures b im Hb Ci) as Hi. split; [apply (Rd im Ci)|]. split; [|split; [now apply ex_unrelated|now apply Dc]].
  destruct Hi as [-> | Hi]; [right; exists (g6 "o" ex_o); split; [cbn; tauto|apply same_tenths; vm_compute; reflexivity]|]. left. now apply ex_comparable7.
Qed.

(** A line of one "o", with one glyph and with three. *)
Definition ex_o_boxes : list box := [mkbox 1 0 3 3].
Lemma ex_o_picture b im : In b ex_o_boxes -> char_image ex_only_o b im -> im = ex_o.
Proof.
  assert (T : forall j, 0 <= j < 3 -> j = 0 \/ j = 1 \/ j = 2) by (intros; lia).
  intros [<-|[]] Hi; refine (ExtractProofs.char_image_unique ex_only_o _ _ _ Hi _);
    (split; [repeat split; vm_compute; congruence|]; split; [reflexivity|]; split; [reflexivity|]; cbn [bw bh bx by_]; intros i j Hi' Hj;
     destruct (T j Hj) as [->|[->| ->]]; (destruct (T i ltac:(lia)) as [->|[->| ->]]; reflexivity)).
Qed.
Example C113_nonvacuous_text6 : exists datas datas', legal6 ex_rt6 /\ trainable6 [g6 "o" ex_o] /\ trainable6 ex_rlo /\ incl [g6 "o" ex_o] ex_rlo /\
  write_datas_file (fun _ => 0) (isort Z.ltb) new_ctxs (write_glyphs [g6 "o" ex_o]) = Ok (Some datas) /\ write_datas_file (fun _ => 0) (isort Z.ltb) new_ctxs (write_glyphs ex_rlo) = Ok (Some datas') /\
  image_of_bytes (picture ex_only_o) 128 = Ok ex_only_o /\ box_searchable ex_only_o /\ segment ex_only_o = Ok ex_o_boxes /\
  Forall2 (fun b w => forall im, char_image ex_only_o b im -> recognisable im /\ taught6 [g6 "o" ex_o] im w) ex_o_boxes [str "o"] /\ Forall2 (no_other_word6 ex_rlo ex_only_o) ex_o_boxes [str "o"] /\
  dict_spell (labels [g6 "o" ex_o]) None (fun _ => None) /\ dict_spell (labels ex_rlo) None (fun _ => None) /\ read6_by ex_rt6 ex_rlo ex_only_o = Ok (str "o ", str "o ", str "o").
Proof.
  destruct ex_recognisable6 as (_ & _ & R). assert (M : matches6 ex_o (gl_img (g6 "o" ex_o))) by (apply (matches_same (isort Z.ltb)), same_tenths; vm_compute; reflexivity).
  eexists. eexists. split; [exact ex_legal6|]. split; [|split; [exact ex_trainable6|]].
  { split; [|vm_compute; reflexivity]. intros g [<-|[]]. apply (proj1 ex_trainable6). cbn; tauto. }
  split; [intros g [<-|[]]; cbn; tauto|]. split; [vm_compute; reflexivity|]. split; [vm_compute; reflexivity|]. split; [vm_compute; reflexivity|]. split; [repeat split; vm_compute; congruence|]. split; [vm_compute; reflexivity|].
  split; [|split; [|split; [left; split; reflexivity|split; [left; split; reflexivity|vm_compute; reflexivity]]]].
  - constructor; [|constructor]. intros im Hi. rewrite (ex_o_picture _ im (or_introl eq_refl) Hi). split; [exact R|]. split; [exists (g6 "o" ex_o); split; [now left|exact M]|]. intros g v [<-|[]] _ [<-|[]]. reflexivity.
  - constructor; [|constructor]. intros im g v Hi Hg Mg Hv. rewrite (ex_o_picture _ im (or_introl eq_refl) Hi) in Mg. apply (matches_same (isort Z.ltb)), same_near in Mg. apply (ex_near ex_o g (or_introl eq_refl) Hg) in Mg.
    destruct Hg as [<-|[<-|[<-|[]]]]; [vm_compute in Mg; discriminate|vm_compute in Mg; discriminate|]. destruct Hv as [<-|[]]. reflexivity.
Qed.

(** * What is lost *)
Definition read_dict_with (gs : list glyph) (words : list (list Z)) (img : image) : res (list Z * Z * Z) :=
  df <- write_datas_file (fun _ => 0) (isort Z.ltb) new_ctxs (write_glyphs gs) ;; nodes <- make_dictionary (isort (list_ltb Z.ltb)) words ;;
  match df with Some df => extract_text ex_rt new_ctxs (write_glyphs gs) df (picture img) None (Some (write_dict nodes)) | None => Throw ExIo end.
(** "l" and "I" have the same picture and the dictionary tells them apart.  With the
    picture of a colon learnt twice, which no character of the line resembles, the "I" is
    no longer found; but it is if the colons come first in the file of the glyphs. *)
Theorem C113_lost_refuted : let l := gl "l" ex_bar in let I := gl "I" ex_bar in let c := gl ":" ex_dots in ~ resembles ex_bar ex_dots /\
  read_dict_with [l; I] [str "lI"] ex_bars = Ok (str "lI", 0, 2) /\ read_dict_with [l; I; c; c] [str "lI"] ex_bars = Ok (str "ll", 0, 2) /\ read_dict_with [c; c; l; I] [str "lI"] ex_bars = Ok (str "lI", 0, 2).
Proof. split; [exact (proj1 ex_different)|]. split; [vm_compute; reflexivity|]. split; vm_compute; reflexivity. Qed.
Print Assumptions C113_lost_refuted.
(** Two characters that resemble no picture that was learnt are read by their zones.
    Another picture of the same word makes the program lose them, and the same picture
    learnt twice makes it divide by zero. *)
Theorem C113_unlike_refuted : read_with [gl "l" ex_i] (twice ex_longer) = Ok (str "ll", 0, 2) /\ read_with [gl "l" ex_i; gl "I" ex_dots] (twice ex_longer) = Ok (str "ll", 0, 2) /\
  read_with [gl "l" ex_i; gl "l" ex_dots] (twice ex_longer) = Ok ([], 0, 2) /\ read_with [gl "l" ex_i; gl "l" ex_i] (twice ex_longer) = UB.
Proof. split; [vm_compute; reflexivity|]. split; [vm_compute; reflexivity|]. split; vm_compute; reflexivity. Qed.
Print Assumptions C113_unlike_refuted.
(** extract_text6 loses a character when another picture of its word is learnt, however
    far it is. *)
Definition ex_ring : image := rows 3 ["xxx"; "xxx"; "x-x"; "xxx"]%string.
Definition ex_ring_line : image := rows 5 ["-xxx-"; "-xxx-"; "-x-x-"; "-xxx-"]%string.
Theorem C113_far6_refuted : read6_by ex_rt6 [gl "o" ex_ring] ex_ring_line = Ok (str "o ", str "o ", str "o") /\ read6_by ex_rt6 [gl "o" ex_ring; gl "x" ex_bar] ex_ring_line = Ok (str "o ", str "o ", str "o") /\
  read6_by ex_rt6 [gl "o" ex_ring; gl "o" ex_dots] ex_ring_line = Ok (str "o ", str "_ ", []).
Proof. split; [vm_compute; reflexivity|]. split; vm_compute; reflexivity. Qed.
Print Assumptions C113_far6_refuted.
