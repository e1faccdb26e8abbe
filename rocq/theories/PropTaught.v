(** Property C122: what the reading programs take from the glyph file. *)
From Verif Require Import Base BaseProofs SortModel SortProofs ImageModel ImageSpec StratModel ZoneModel DatasModel StreamModel GlyphIoModel GlyphIoSpec DatasIoModel TrieModel IndexModel GlyphsModel GlyphsSpec
  RecogModel RecogWitness ExtractModel LearnModel PipelineModel PropPipeline ReadSpec PropRead Ocr6Model Ocr6Spec PropOcr6 Ocr8Model PropOcr8 PrintModel OcrOutModel
  TaughtSpec TaughtProofs TaughtProofs2 TaughtProofs3.

(** extract_text6 and extract_text8 give the same with two glyph files that load and
    give the same words to as many glyphs, whatever else these files hold; the features,
    the image, the dictionary and the sorts may be any. *)
Theorem C122_words : forall bytes bytes' gs gs', load_file read_glyphs bytes = Ok gs -> load_file read_glyphs bytes' = Ok gs' -> teach_alike gs gs' ->
  (forall rt datas image dict, extract_text6 rt bytes datas image dict = extract_text6 rt bytes' datas image dict) /\
  (forall rt datas image dict, extract_text8 rt bytes datas image dict = extract_text8 rt bytes' datas image dict).
Proof. intros bytes bytes' gs gs' L L' A. split; intros; [now apply (taught6 bytes bytes' gs gs')|now apply (taught8 bytes bytes' gs gs')]. Qed.
Print Assumptions C122_words.

(** They also print the same and end in the same way. *)
Theorem C122_printed : forall disk name name' bytes bytes' gs gs', disk name = Some bytes -> disk name' = Some bytes' ->
  load_file read_glyphs bytes = Ok gs -> load_file read_glyphs bytes' = Ok gs' -> teach_alike gs gs' ->
  (forall rt nan prog prog' rest, main6 rt nan disk (prog :: name :: rest) = main6 rt nan disk (prog' :: name' :: rest)) /\
  (forall rt nan prog prog' rest, main8 rt nan disk (prog :: name :: rest) = main8 rt nan disk (prog' :: name' :: rest)).
Proof.
  intros disk name name' bytes bytes' gs gs' D D' L L' A.
  split; intros; [now apply (taught_main6 bytes bytes' gs gs' L L' A disk name name')|now apply (taught_main8 bytes bytes' gs gs' L L' A disk name name')].
Qed.
Print Assumptions C122_printed.

(** ocr2_extract_text gives and prints the same with two glyph files that have the same
    words and fonts, whatever the pictures and the numbers of lines. *)
Theorem C122_fonts : forall gs gs', Forall tellable gs -> Forall tellable gs' -> told_alike gs gs' ->
  (forall rt cx datas image lines dict, extract_text rt cx (write_glyphs gs) datas image lines dict = extract_text rt cx (write_glyphs gs') datas image lines dict) /\
  (forall rt nan cx disk prog prog' name name' rest, disk name = Some (write_glyphs gs) -> disk name' = Some (write_glyphs gs') ->
     ocr2_main rt nan cx disk (prog :: name :: rest) = ocr2_main rt nan cx disk (prog' :: name' :: rest)).
Proof. intros gs gs' T T' A. split; intros; [now apply told_text|now apply (told_main _ _ _ _ _ _ _ _ _ gs gs')]. Qed.
Print Assumptions C122_fonts.
(** The fonts may also have other names, if different fonts have different names. *)
Theorem C122_renamed : forall f gs gs', Forall tellable gs -> Forall tellable gs' -> keeps_apart f gs -> told_alike (map (refont f) gs) gs' ->
  (forall rt cx datas image lines dict, extract_text rt cx (write_glyphs gs) datas image lines dict = extract_text rt cx (write_glyphs gs') datas image lines dict) /\
  (forall rt nan cx disk prog prog' name name' rest, disk name = Some (write_glyphs gs) -> disk name' = Some (write_glyphs gs') ->
     ocr2_main rt nan cx disk (prog :: name :: rest) = ocr2_main rt nan cx disk (prog' :: name' :: rest)).
Proof. intros f gs gs' T T' K A. split; intros; [now apply (renamed_text f)|now apply (renamed_main f _ _ _ _ _ _ _ _ _ gs gs')]. Qed.
Print Assumptions C122_renamed.

(** Glyphs with the same words, all with the same picture, with other fonts and lines, and
    words repeated. *)
Definition ex_other (w : string) : glyph := mkglyph ex_l [mkview (str w) (str "g") 7; mkview (str w) (str "h") 9].
Definition ex_others : list glyph := [ex_other "r"; ex_other "l"; ex_other "o"].
Definition ex_read6 (gs : list glyph) : res (list Z * list Z * list Z) :=
  df <- features_of ex_rlo ;; extract_text6 ex_rt6 (write_glyphs gs) df (picture ex_orl) None.
Example C122_nonvacuous : exists gs', load_file read_glyphs (write_glyphs ex_rlo) = Ok ex_rlo /\ load_file read_glyphs (write_glyphs ex_others) = Ok gs' /\
  teach_alike ex_rlo gs' /\ write_glyphs ex_rlo <> write_glyphs ex_others /\
  ex_read6 ex_rlo = Ok (str "o _ _ ", str "o _ _ ", str "o??") /\ ex_read6 ex_others = Ok (str "o _ _ ", str "o _ _ ", str "o??").
Proof.
  eexists. split; [vm_compute; reflexivity|]. split; [vm_compute; reflexivity|].
  split; [repeat (apply Forall2_cons; [vm_compute; reflexivity|]); apply Forall2_nil|].
  split; [vm_compute; discriminate|]. split; vm_compute; reflexivity.
Qed.
(** The premises of C122_fonts. *)
Definition ex_others2 : list glyph := map (fun g => mkglyph ex_l (map (fun v => mkview (vw_word v) (vw_font v) 5) (gl_views g))) ex_rlo.
Lemma ex_tellable w c im n : str w = [c] -> 33 <= c < 128 -> wf_image im -> ~ In 10 (idata im) -> 0 <= n < 100 -> tellable (mkglyph im [mkview (str w) (str "f") n]).
Proof.
  intros E Hc W N Hn. split; [|split; [discriminate|split; [exact N|]]].
  - split; [exact W|]. split; [reflexivity|]. constructor; [|constructor]. cbn [vw_word vw_font vw_line]. rewrite E.
    split; [apply plain1; lia|]. split; [apply (plain1 102); lia|cbn; lia].
  - intros v [<-|[]]. cbn [vw_word]. rewrite E. intros d [<-|[]]. lia.
Qed.
Example C122_fonts_nonvacuous : Forall tellable ex_rlo /\ Forall tellable ex_others2 /\ told_alike ex_rlo ex_others2 /\ write_glyphs ex_rlo <> write_glyphs ex_others2.
Proof.
  assert (Wr : wf_image ex_r) by (repeat split; vm_compute; congruence). assert (Wl : wf_image ex_l) by (repeat split; vm_compute; congruence).
  assert (Wo : wf_image ex_o) by (repeat split; vm_compute; congruence).
  assert (Nr : ~ In 10 (idata ex_r)) by (vm_compute; intuition discriminate). assert (Nl : ~ In 10 (idata ex_l)) by (vm_compute; intuition discriminate).
  assert (No : ~ In 10 (idata ex_o)) by (vm_compute; intuition discriminate).
  split; [|split].
  - constructor; [apply (ex_tellable "r" 114 ex_r 0); auto; lia|]. constructor; [apply (ex_tellable "l" 108 ex_l 0); auto; lia|].
    constructor; [apply (ex_tellable "o" 111 ex_o 0); auto; lia|constructor].
  - constructor; [apply (ex_tellable "r" 114 ex_l 5); auto; lia|]. constructor; [apply (ex_tellable "l" 108 ex_l 5); auto; lia|].
    constructor; [apply (ex_tellable "o" 111 ex_l 5); auto; lia|constructor].
  - split; [repeat (apply Forall2_cons; [reflexivity|]); apply Forall2_nil|]. vm_compute. discriminate.
Qed.
(** The fonts "f" and "g" exchanged, as a renaming. *)
Definition ex_swap (w : list Z) : list Z := if list_eqb w (str "f") then str "g" else if list_eqb w (str "g") then str "f" else w.
Example C122_renamed_nonvacuous : keeps_apart ex_swap (ex_fonts "g") /\ write_glyphs (map (refont ex_swap) (ex_fonts "g")) <> write_glyphs (ex_fonts "g") /\
  read_with (map (refont ex_swap) (ex_fonts "g")) ex_dotted = Ok (str "I:", 0, 2).
Proof.
  split; [|split; vm_compute; [discriminate|reflexivity]].
  intros g h v w Hg Hh Hv Hw E. cbn [ex_fonts In] in Hg, Hh. intuition subst; cbn [gl_views In] in Hv, Hw; intuition subst; try reflexivity; vm_compute in E; discriminate E.
Qed.

(** The fonts matter to ocr2_extract_text: the same words, and the same features. *)
Theorem C122_fonts_refuted : teach_alike (ex_fonts "f") (ex_fonts "g") /\ features_of (ex_fonts "f") = features_of (ex_fonts "g") /\
  read_with (ex_fonts "f") ex_dotted = Ok (str "l:", 0, 2) /\ read_with (ex_fonts "g") ex_dotted = Ok (str "I:", 0, 2).
Proof.
  split; [repeat (apply Forall2_cons; [reflexivity|]); apply Forall2_nil|]. split; [vm_compute; reflexivity|]. split; vm_compute; reflexivity.
Qed.
Print Assumptions C122_fonts_refuted.
(** The order of the words of a glyph matters to extract_text6. *)
Definition ex_named (ws : list string) : list glyph :=
  [g6 "r" ex_r; g6 "l" ex_l; mkglyph ex_o (map (fun w => mkview (str w) (str "f") 0) ws)].
Theorem C122_order_refuted : features_of (ex_named ["o"; "0"]%string) = features_of (ex_named ["0"; "o"]%string) /\
  read6_with (ex_named ["o"; "0"]%string) ex_orl = Ok (str "o _ _ ", str "o _ _ ", str "o??") /\
  read6_with (ex_named ["0"; "o"]%string) ex_orl = Ok (str "0 _ _ ", str "0 _ _ ", str "0??").
Proof. split; [vm_compute; reflexivity|]. split; vm_compute; reflexivity. Qed.
Print Assumptions C122_order_refuted.
