(** Property C117: dictionaries with more or fewer words. *)
From Verif Require Import Base BaseProofs SortModel SortProofs ImageModel ImageSpec PnmModel BoxModel BoxSpec StratModel ZoneModel DatasModel DatasSpec UtfSpec StreamModel
  GlyphIoModel GlyphIoSpec DatasIoModel DictIoModel TrieModel TrieSpec SpellModel SpellSpec SpellProofs LearnModel LearnSpec PipelineModel PipelineSpec ReadSpec AssembleSpec Ocr6Model Ocr6Spec Ocr8Model Ocr8Spec
  ExtractSpec RecogWitness RecogModel LinesSpec ReadingSpec ReadProofs MoreWordsSpec MoreWordsProofs MoreWordsProofs2 PropPipeline PropRead PropOcr6.

(** C117, full statement: when words are added to a dictionary, what it spells is the
    same, or is a word that was added, that can be chosen, and before which no choice
    is a word.  Proved for candidates of one character. *)
Theorem C117_spelling_partial : forall sort sort' words words' nodes nodes' positions out, is_std_sort (list_ltb Z.ltb) sort -> is_std_sort (list_ltb Z.ltb) sort' ->
  Forall well_formed words' -> ~ In [] words' -> letters words' < 4294967296 -> letters words < 4294967296 -> incl words words' -> Forall (Forall one_char) positions ->
  make_dictionary sort words = Ok nodes -> make_dictionary sort' words' = Ok nodes' ->
  disambiguous nodes' positions out = disambiguous nodes positions out \/
  exists before w after, choices positions = before ++ w :: after /\ (forall v, In v before -> ~ In v words') /\ In w words' /\ ~ In w words /\
    disambiguous nodes' positions out = Ok (true, out ++ w).
Proof. exact more_words. Qed.
Print Assumptions C117_spelling_partial.
(** A word that was added takes the place of the one that was spelled. *)
Theorem C117_replaced_refuted : let ps := [[str "l"; str "t"]; [str "o"]] in
  run [str "to"] ps [] = Ok (true, str "to") /\ run [str "to"; str "lo"] ps [] = Ok (true, str "lo").
Proof. split; vm_compute; reflexivity. Qed.
Print Assumptions C117_replaced_refuted.
(** With candidates of several characters, a word that no choice spells. *)
Theorem C117_ligature_refuted : let ps := [[str "o"]; [str "ffi"]] in
  run [str "to"] ps [] = Ok (false, []) /\ run [str "to"; str "of"] ps [] = Ok (true, str "of") /\ ~ In (str "of") (choices ps).
Proof. split; [|split]; [vm_compute; reflexivity|vm_compute; reflexivity|]. vm_compute. intros [H|[]]. discriminate. Qed.
Print Assumptions C117_ligature_refuted.

(** The two other results of the programs never depend on the dictionary, whatever
    the files. *)
Theorem C117_results6 : forall rt glyphs datas image dict dict' a b c a' b' c',
  extract_text6 rt glyphs datas image dict = Ok (a, b, c) -> extract_text6 rt glyphs datas image dict' = Ok (a', b', c') -> a' = a /\ b' = b.
Proof. exact first_results6. Qed.
Print Assumptions C117_results6.
Theorem C117_results8 : forall rt glyphs datas image dict dict' a b c a' b' c',
  extract_text8 rt glyphs datas image dict = Ok (a, b, c) -> extract_text8 rt glyphs datas image dict' = Ok (a', b', c') -> a' = a /\ b' = b.
Proof. exact first_results8. Qed.
Print Assumptions C117_results8.

(** With the files of trained glyphs, whose labels have one character: what is read
    does not depend on the dictionaries, each of which only spells it. *)
Theorem C117_read6_partial : forall rt gs junk z cx0 datas bytes img boxes dict dict' words words', legal6 rt -> trainable6 gs -> is_std_sort Z.ltb z ->
  write_datas_file junk z cx0 (write_glyphs gs) = Ok (Some datas) -> image_of_bytes bytes 128 = Ok img -> box_searchable img -> segment img = Ok boxes ->
  Forall (small_character img) boxes -> Forall one_char (labels gs) -> dictionary_file dict words -> dictionary_file dict' words' ->
  (extract_text6 rt (write_glyphs gs) datas bytes dict = UB /\ extract_text6 rt (write_glyphs gs) datas bytes dict' = UB) \/
  exists a b line, Forall (Forall (fun w => In w (signs (labels gs)))) line /\
    extract_text6 rt (write_glyphs gs) datas bytes dict = Ok (a, b, text6 (SpellSpec.first_word words) line) /\
    extract_text6 rt (write_glyphs gs) datas bytes dict' = Ok (a, b, text6 (SpellSpec.first_word words') line).
Proof. exact words6. Qed.
Print Assumptions C117_read6_partial.
(** So a word that cannot be written with the labels changes nothing. *)
Theorem C117_same6_partial : forall rt gs junk z cx0 datas bytes img boxes dict dict' words words', legal6 rt -> trainable6 gs -> is_std_sort Z.ltb z ->
  write_datas_file junk z cx0 (write_glyphs gs) = Ok (Some datas) -> image_of_bytes bytes 128 = Ok img -> box_searchable img -> segment img = Ok boxes ->
  Forall (small_character img) boxes -> Forall one_char (labels gs) -> dictionary_file dict words -> dictionary_file dict' words' ->
  agree_on (signs (labels gs)) words words' ->
  extract_text6 rt (write_glyphs gs) datas bytes dict' = extract_text6 rt (write_glyphs gs) datas bytes dict.
Proof. exact same6. Qed.
Print Assumptions C117_same6_partial.

(** The same of the other program, when the glyphs are alike. *)
Theorem C117_read8_partial : forall rt gs junk z cx0 datas bytes img boxes dict dict' words words', legal8 rt -> trainable6 gs -> is_std_sort Z.ltb z ->
  write_datas_file junk z cx0 (write_glyphs gs) = Ok (Some datas) -> (forall g h, In g gs -> In h gs -> ~ differ_glyphs z g h) ->
  image_of_bytes bytes 128 = Ok img -> box_searchable img -> segment img = Ok boxes ->
  Forall (small_character img) boxes -> Forall one_char (labels gs) -> dictionary_file dict words -> dictionary_file dict' words' ->
  (extract_text8 rt (write_glyphs gs) datas bytes dict = UB /\ extract_text8 rt (write_glyphs gs) datas bytes dict' = UB) \/
  exists a b line, Forall (Forall (fun w => In w (signs (labels gs)))) line /\
    extract_text8 rt (write_glyphs gs) datas bytes dict = Ok (a, b, text6 (SpellSpec.first_word words) line) /\
    extract_text8 rt (write_glyphs gs) datas bytes dict' = Ok (a, b, text6 (SpellSpec.first_word words') line).
Proof. exact words8. Qed.
Print Assumptions C117_read8_partial.
Theorem C117_same8_partial : forall rt gs junk z cx0 datas bytes img boxes dict dict' words words', legal8 rt -> trainable6 gs -> is_std_sort Z.ltb z ->
  write_datas_file junk z cx0 (write_glyphs gs) = Ok (Some datas) -> (forall g h, In g gs -> In h gs -> ~ differ_glyphs z g h) ->
  image_of_bytes bytes 128 = Ok img -> box_searchable img -> segment img = Ok boxes ->
  Forall (small_character img) boxes -> Forall one_char (labels gs) -> dictionary_file dict words -> dictionary_file dict' words' ->
  agree_on (signs (labels gs)) words words' ->
  extract_text8 rt (write_glyphs gs) datas bytes dict' = extract_text8 rt (write_glyphs gs) datas bytes dict.
Proof. exact same8. Qed.
Print Assumptions C117_same8_partial.

(** The numbers that ocr2_extract_text gives, of characters and of unknown ones, never
    depend on the dictionary either; with the files of trained glyphs, neither does what
    it reads. *)
Theorem C117_results2 : forall rt cx glyphs datas image lines dict dict' a b c a' b' c',
  extract_text rt cx glyphs datas image lines dict = Ok (a, b, c) -> extract_text rt cx glyphs datas image lines dict' = Ok (a', b', c') -> b' = b /\ c' = c.
Proof. exact numbers2. Qed.
Print Assumptions C117_results2.
Theorem C117_read2_partial : forall rt gs junk z cx0 datas cx bytes img boxes file ls dict dict' words words', legal rt -> trainable gs -> is_std_sort Z.ltb z ->
  write_datas_file junk z cx0 (write_glyphs gs) = Ok (Some datas) -> image_of_bytes bytes 128 = Ok img -> box_searchable img -> segment img = Ok boxes ->
  Forall (small_character img) boxes -> lines_text (labels gs) file ls -> Forall one_char (labels gs) -> dictionary_file dict words -> dictionary_file dict' words' ->
  (extract_text rt cx (write_glyphs gs) datas bytes file dict = UB /\ extract_text rt cx (write_glyphs gs) datas bytes file dict' = UB) \/
  exists line, Forall (fun p => Forall (fun w => In w (labels gs)) (snd p)) line /\
    extract_text rt cx (write_glyphs gs) datas bytes file dict = Ok (text_of_line (SpellSpec.first_word words) line, unknown_of_line line, vsize boxes) /\
    extract_text rt cx (write_glyphs gs) datas bytes file dict' = Ok (text_of_line (SpellSpec.first_word words') line, unknown_of_line line, vsize boxes).
Proof. exact words2. Qed.
Print Assumptions C117_read2_partial.
Theorem C117_same2_partial : forall rt gs junk z cx0 datas cx bytes img boxes file ls dict dict' words words', legal rt -> trainable gs -> is_std_sort Z.ltb z ->
  write_datas_file junk z cx0 (write_glyphs gs) = Ok (Some datas) -> image_of_bytes bytes 128 = Ok img -> box_searchable img -> segment img = Ok boxes ->
  Forall (small_character img) boxes -> lines_text (labels gs) file ls -> Forall one_char (labels gs) -> dictionary_file dict words -> dictionary_file dict' words' ->
  agree_on (labels gs) words words' ->
  extract_text rt cx (write_glyphs gs) datas bytes file dict' = extract_text rt cx (write_glyphs gs) datas bytes file dict.
Proof. exact same2. Qed.
Print Assumptions C117_same2_partial.

(** Two labels of the same picture, a line of two of them, and three dictionaries. *)
Definition ex_oq : list glyph := [g6 "q" ex_o; g6 "o" ex_o].
Definition ex_oo : image := rows 9 ["-xxx-xxx-"; "-x-x-x-x-"; "-xxx-xxx-"]%string.
Definition ex_dictionary (words : list string) : res (list Z) := nodes <- make_dictionary (isort (list_ltb Z.ltb)) (map str words) ;; Ok (write_dict nodes).
Definition ex_spelled (words : list string) : res (list Z * list Z * list Z) :=
  f <- features_of ex_oq ;; d <- ex_dictionary words ;; extract_text6 ex_rt6 (write_glyphs ex_oq) f (picture ex_oo) (Some d).
Lemma ex_dictionary_file words : Forall well_formed (map str words) -> ~ In [] (map str words) -> letters (map str words) < 4294967296 ->
  exists d, ex_dictionary words = Ok d /\ dictionary_file (Some d) (map str words).
Proof.
  intros H1 H2 H3. destruct (disambiguous_first_single (isort (list_ltb Z.ltb)) (map str words) [] [] (isort_is_sort _) H1 H2 H3 (Forall_nil _)) as (nodes & E & _).
  exists (write_dict nodes). split; [unfold ex_dictionary; now rewrite E|]. right. exists (isort (list_ltb Z.ltb)), nodes. split; [reflexivity|]. split; [apply isort_is_sort|]. auto.
Qed.
Example C117_nonvacuous : trainable6 ex_oq /\ image_of_bytes (picture ex_oo) 128 = Ok ex_oo /\ box_searchable ex_oo /\
  segment ex_oo = Ok [mkbox 1 0 3 3; mkbox 5 0 3 3] /\ Forall (small_character ex_oo) [mkbox 1 0 3 3; mkbox 5 0 3 3] /\ Forall one_char (labels ex_oq) /\
  (exists d, ex_dictionary ["qo"]%string = Ok d /\ dictionary_file (Some d) (map str ["qo"]%string)) /\
  (exists d, ex_dictionary ["qo"; "ab"]%string = Ok d /\ dictionary_file (Some d) (map str ["qo"; "ab"]%string)) /\
  agree_on (signs (labels ex_oq)) (map str ["qo"]%string) (map str ["qo"; "ab"]%string) /\
  ex_spelled ["qo"]%string = Ok (str "o o ", str "o o ", str "qo") /\ ex_spelled ["qo"; "ab"]%string = ex_spelled ["qo"]%string /\
  ex_spelled ["qo"; "oo"]%string = Ok (str "o o ", str "o o ", str "oo").
Proof.
  destruct ex_recognisable6 as (_ & _ & R).
  split. { split; [|vm_compute; reflexivity]. intros g [<-|[<-|[]]]; (split; [|split; [assumption|discriminate]]); (eapply storable1; [vm_compute; reflexivity|lia|]); repeat split; vm_compute; congruence. }
  split; [vm_compute; reflexivity|]. split; [repeat split; vm_compute; congruence|]. split; [vm_compute; reflexivity|].
  split. { constructor; [|constructor; [|constructor]]; intros im (W & Ew & Eh & _); unfold RecogSpec.recognisable; rewrite Ew, Eh; (split; [exact W|]); cbn [bw bh]; lia. }
  split. { constructor; [exists 113|constructor; [exists 111|constructor]]; (split; [unfold is_char; lia|reflexivity]). }
  assert (A : forall a b, is_char a -> is_char b -> text_of [a; b] = [a; b] -> well_formed [a; b]).
  { intros a b Ha Hb E. exists [a; b]. split; [repeat (constructor; [assumption|]); constructor|now rewrite E]. }
  assert (Q : well_formed (str "qo")) by (apply (A 113 111); [unfold is_char; lia|unfold is_char; lia|reflexivity]).
  assert (B : well_formed (str "ab")) by (apply (A 97 98); [unfold is_char; lia|unfold is_char; lia|reflexivity]).
  split. { apply ex_dictionary_file; [constructor; [exact Q|constructor]| |vm_compute; reflexivity]. intros [H|[]]. discriminate. }
  split. { apply ex_dictionary_file; [constructor; [exact Q|constructor; [exact B|constructor]]| |vm_compute; reflexivity]. intros [H|[H|[]]]; discriminate. }
  split. { intros w (l & F & ->). split; [intros [H|[]]; left; exact H|]. intros [H|[H|[]]]; [now left|]. exfalso. destruct F as [|x l Hx _]; [discriminate|]. destruct Hx as [<-|[<-|[<-|[<-|[]]]]]; discriminate. }
  split; [vm_compute; reflexivity|]. split; vm_compute; reflexivity.
Qed.

(** A bar that is an "I" or an "l", and a line of two bars. *)
Definition ex_bars : list glyph := [mkglyph ex_bar [mkview (str "l") (str "f") 0]; mkglyph ex_bar [mkview (str "I") (str "f") 0]].
Definition ex_two : image := rows 5 ["-x-x-"; "-x-x-"; "-x-x-"]%string.
Definition ex_spelled2 (words : list string) : res (list Z * Z * Z) :=
  f <- features_of ex_bars ;; d <- ex_dictionary words ;; extract_text ex_rt new_ctxs (write_glyphs ex_bars) f (picture ex_two) None (Some d).
Example C117_nonvacuous2 : agree_on (labels ex_bars) (map str ["Il"]%string) (map str ["Il"; "ab"]%string) /\ Forall one_char (labels ex_bars) /\
  ex_spelled2 ["Il"]%string = Ok (str "Il", 0, 2) /\ ex_spelled2 ["Il"; "ab"]%string = Ok (str "Il", 0, 2) /\
  ex_spelled2 ["Il"; "II"]%string = Ok (str "II", 0, 2).
Proof.
  split. { intros w (l & F & ->). split; [intros [H|[]]; left; exact H|]. intros [H|[H|[]]]; [now left|]. exfalso. destruct F as [|x l Hx _]; [discriminate|]. destruct Hx as [<-|[<-|[]]]; discriminate. }
  split. { constructor; [exists 108|constructor; [exists 73|constructor]]; (split; [unfold is_char; lia|reflexivity]). }
  split; [vm_compute; reflexivity|]. split; vm_compute; reflexivity.
Qed.
