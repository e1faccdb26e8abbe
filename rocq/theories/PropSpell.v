(** Properties C30-C36: UTF-8, tries, dictionaries and spelling. *)
From Verif Require Import Base SortModel SortProofs DatasModel UtfModel UtfSpec UtfProofs DictIoModel DictIoSpec
  TrieModel TrieSpec TrieProofs FlatTrieProofs DictionaryProofs SpellModel SpellSpec SpellProofs DecodeSpec DecodeProofs.
From Coq Require Import Sorted.

(** C30: the packed decoder yields one value per character, reading nothing past
    the terminator; emitting a value gives the bytes of its character, reversed;
    the Unicode decoder yields the characters. *)
Theorem C30_utf8_lossless : forall cs, Forall is_char cs ->
  utf8_codes (text_of cs) = Ok (map packed cs) /\
  unicode_codes (text_of cs) = Ok cs /\
  (forall out, rev (fold_left set_c (rev (map packed cs)) out) = text_of cs ++ rev out).
Proof. exact utf8_lossless. Qed.
Print Assumptions C30_utf8_lossless.

(** One character of each length: a, e acute, euro sign, U+1F600. *)
Example C30_nonvacuous : Forall is_char [97; 233; 8364; 128512] /\
  text_of [97; 233; 8364; 128512] = [97; 195; 169; 226; 130; 172; 240; 159; 152; 128] /\
  utf8_codes [97; 195; 169; 226; 130; 172; 240; 159; 152; 128] = Ok [97; 50089; 14844588; 4036991104].
Proof. split; [repeat (apply Forall_cons; [unfold is_char; lia|]); apply Forall_nil|]. split; vm_compute; reflexivity. Qed.

(** A text cut inside a character: the decoder reads past the terminator. *)
Theorem C30_truncated_refuted : forall cs, Forall is_char cs ->
  utf8_codes (text_of cs ++ [195]) = UB.
Proof. exact utf8_truncated. Qed.
Print Assumptions C30_truncated_refuted.

(** Any bytes: reading stops at a zero or at a continuation byte where a character
    should start, each character being taken by the number of bytes its first byte
    tells, whatever follows; a text that ends inside a character is read past its
    terminator.  There is no other case. *)
Theorem C30_outcome : forall s, octets s ->
  (forall gs, characters s gs -> utf8_codes s = Ok (values gs)) /\ (cut s -> utf8_codes s = UB) /\ ((exists gs, characters s gs) \/ cut s).
Proof. exact decode_outcome. Qed.
Print Assumptions C30_outcome.

(** A stopper after two characters, the second being malformed; a cut text. *)
Example C30_outcome_nonvacuous :
  characters [97; 195; 65; 128; 98] [[97]; [195; 65]] /\ utf8_codes [97; 195; 65; 128; 98] = Ok [97; 49985] /\
  cut [97; 240; 159] /\ utf8_codes [97; 240; 159] = UB.
Proof.
  assert (W : whole [97]) by (exists 97, []; split; [reflexivity|split; [unfold stopper; lia|reflexivity]]).
  split.
  - split; [constructor; [exact W|constructor; [|constructor]]|].
    + exists 195, [65]. split; [reflexivity|]. split; [unfold stopper; lia|reflexivity].
    + exists [128; 98]. split; [reflexivity|]. right. exists 128, [98]. split; [reflexivity|right; lia].
  - split; [vm_compute; reflexivity|]. split; [|vm_compute; reflexivity].
    exists [[97]], 240, [159]. split; [reflexivity|]. split; [constructor; [exact W|constructor]|]. split; [unfold stopper; lia|cbv; lia].
Qed.

(** C31: the trie of a sorted duplicate-free list of non empty words is ordered
    and spells exactly the words. *)
Theorem C31_trie_words : forall words,
  StronglySorted lex_lt words -> ~ In [] words -> (forall w, In w words -> vsize w < 4294967296) ->
  exists t, make_trie words = Ok t /\ well_ordered t /\ forall w, spells t w <-> In w words.
Proof. exact trie_words. Qed.
Print Assumptions C31_trie_words.

Definition ex_words : list (list Z) := [[97]; [97; 98]; [97; 98; 99]; [97; 100]; [98; 97]].
Example C31_nonvacuous :
  make_trie ex_words = Ok [TN 97 true [TN 98 true [TN 99 true []]; TN 100 true []]; TN 98 false [TN 97 true []]].
Proof. vm_compute. reflexivity. Qed.
Example C31_nonvacuous_hyp : StronglySorted lex_lt ex_words /\ ~ In [] ex_words.
Proof.
  split.
  - unfold ex_words. repeat (apply SSorted_cons; [|repeat (apply Forall_cons; [apply list_ltb_lex; vm_compute; reflexivity|]); apply Forall_nil]). apply SSorted_nil.
  - intros H. cbn in H. intuition discriminate.
Qed.
(** The hypotheses are needed: duplicates and empty words are read past their end. *)
Example C31_duplicate : make_trie [[97]; [97]] = UB.
Proof. vm_compute. reflexivity. Qed.

(** C32: the array has one element per node, its links stay inside, and
    following them spells exactly the words of the trie; so do the searches,
    when siblings are ordered. *)
Theorem C32_flat_trie : forall t, trie_count t < 4294967296 ->
  exists nodes, flatten t = Ok nodes /\ vsize nodes = trie_count t /\ links_inside nodes /\
    (forall w, flat_spells nodes 0 (vsize t) w <-> spells t w) /\
    (well_ordered t -> forall w, exists b, contains nodes w = Ok b /\ (b = true <-> spells t w)).
Proof. exact flat_trie_words. Qed.
Print Assumptions C32_flat_trie.

Example C32_nonvacuous :
  exists t, make_trie ex_words = Ok t /\ trie_count t = 6 /\
    flatten t = Ok [mkfn 97 2 2 true; mkfn 98 3 1 false; mkfn 98 3 1 true; mkfn 100 3 0 true; mkfn 97 2 0 true; mkfn 99 1 0 true].
Proof. eexists. split; [vm_compute; reflexivity|]. split; vm_compute; reflexivity. Qed.

(** C33: a dictionary built from non empty words, in any order and with
    duplicates, contains exactly the words. *)
Theorem C33_dictionary_words : forall sort words,
  is_std_sort (list_ltb Z.ltb) sort -> Forall well_formed words -> ~ In [] words -> letters words < 4294967296 ->
  exists nodes, make_dictionary sort words = Ok nodes /\ links_inside nodes /\
    forall w, well_formed w ->
      exists codes b, utf8_codes w = Ok codes /\ contains nodes codes = Ok b /\ (b = true <-> In w words).
Proof. exact dictionary_contains. Qed.
Print Assumptions C33_dictionary_words.

Definition ex_dict : list (list Z) := [str "to"; str "tea"; [195; 169; 116; 195; 169]; str "to"; str "ten"].
Example C33_nonvacuous : is_std_sort (list_ltb Z.ltb) (isort (list_ltb Z.ltb)) /\ ~ In [] ex_dict /\ letters ex_dict = 15 /\
  make_dictionary (isort (list_ltb Z.ltb)) ex_dict = Ok
    [mkfn 116 2 2 false; mkfn 50089 3 1 false; mkfn 101 3 2 false; mkfn 111 4 0 true; mkfn 116 3 1 false;
     mkfn 97 3 0 true; mkfn 110 2 0 true; mkfn 50089 1 0 true].
Proof.
  split; [apply isort_is_sort|]. split; [intros H; cbn in H; intuition discriminate|]. split; vm_compute; reflexivity.
Qed.
Example C33_nonvacuous_text : Forall well_formed ex_dict.
Proof.
  unfold ex_dict. repeat (apply Forall_cons; [|]); [exists [116; 111]|exists [116; 101; 97]|exists [233; 116; 233]|exists [116; 111]|exists [116; 101; 110]|apply Forall_nil];
    (split; [repeat (apply Forall_cons; [unfold is_char; lia|]); apply Forall_nil|vm_compute; reflexivity]).
Qed.

(** A list with an empty word, as a blank line of a word file gives
    (main/make_trie_dictionary.cpp): the construction reads past the word. *)
Theorem C33_empty_word_refuted : forall sort words,
  is_std_sort (list_ltb Z.ltb) sort -> Forall well_formed words -> In [] words ->
  make_dictionary sort words = UB.
Proof. exact dictionary_empty_word. Qed.
Print Assumptions C33_empty_word_refuted.

(** Any bytes: the construction is undefined exactly when a word is cut inside a
    character or has no character; otherwise the dictionary contains exactly the
    characters of the words. *)
Theorem C33_outcome : forall sort words,
  is_std_sort (list_ltb Z.ltb) sort -> Forall octets words -> letters words < 4294967296 ->
  (Exists unusable words /\ make_dictionary sort words = UB) \/
  exists gss nodes, Forall2 characters words gss /\ ~ In [] gss /\ make_dictionary sort words = Ok nodes /\ links_inside nodes /\
    forall codes, exists b, contains nodes codes = Ok b /\ (b = true <-> In codes (map values gss)).
Proof. exact dictionary_outcome. Qed.
Print Assumptions C33_outcome.

(** A word is kept up to a misplaced continuation byte only. *)
Example C33_outcome_nonvacuous :
  make_dictionary (isort (list_ltb Z.ltb)) [[97; 128; 98]] = Ok [mkfn 97 1 0 true] /\
  make_dictionary (isort (list_ltb Z.ltb)) [[97]; [128; 98]] = UB /\ make_dictionary (isort (list_ltb Z.ltb)) [[97]; [97; 195]] = UB.
Proof. repeat split; vm_compute; reflexivity. Qed.

(** C34: whatever the candidates, a success appends a word of the dictionary and
    a failure leaves the output as it was. *)
Theorem C34_only_words : forall sort words positions out,
  is_std_sort (list_ltb Z.ltb) sort -> Forall well_formed words -> ~ In [] words -> letters words < 4294967296 ->
  exists nodes, make_dictionary sort words = Ok nodes /\
    forall b out', disambiguous nodes positions out = Ok (b, out') ->
      (b = true -> exists w, In w words /\ out' = out ++ w) /\ (b = false -> out' = out).
Proof. exact disambiguous_sound. Qed.
Print Assumptions C34_only_words.

(** C35: with one-character candidates, the first choice that is a word is
    found. *)
Theorem C35_first_spelling : forall sort words positions out,
  is_std_sort (list_ltb Z.ltb) sort -> Forall well_formed words -> ~ In [] words -> letters words < 4294967296 ->
  Forall (Forall one_char) positions ->
  exists nodes, make_dictionary sort words = Ok nodes /\
    disambiguous nodes positions out = Ok (verdict out (first_word words positions)).
Proof. exact disambiguous_first_single. Qed.
Print Assumptions C35_first_spelling.

Example C35_nonvacuous :
  run ex_dict [[str "l"; str "t"]; [str "e"; str "o"]; [str "n"; str "a"]] (str "> ") = Ok (true, str "> ten") /\
  run ex_dict [[str "t"]; [str "e"; str "o"]] (str "> ") = Ok (true, str "> to") /\
  run ex_dict [[str "e"; [195; 169]]; [str "t"]; [str "e"; [195; 169]]] [] = Ok (true, [195; 169; 116; 195; 169]) /\
  run ex_dict [[str "t"]; [str "x"]] (str "> ") = Ok (false, str "> ").
Proof. repeat split; vm_compute; reflexivity. Qed.

(** C36, in full: for non empty candidates of any length, at every position,
      disambiguous nodes positions out = Ok (verdict out (first_word words positions)).
    Proved when the candidates of the last position have one character. *)
Theorem C36_ligatures_partial : forall sort words positions out,
  is_std_sort (list_ltb Z.ltb) sort -> Forall well_formed words -> ~ In [] words -> letters words < 4294967296 ->
  Forall (Forall (fun s => well_formed s /\ s <> [])) positions ->
  (forall init cands, positions = init ++ [cands] -> Forall one_char cands) ->
  exists nodes, make_dictionary sort words = Ok nodes /\
    disambiguous nodes positions out = Ok (verdict out (first_word words positions)).
Proof. exact disambiguous_first. Qed.
Print Assumptions C36_ligatures_partial.

(** In general the candidates are used as [readable] says: only the first
    character of those of the last position. *)
Theorem C36_ligatures_read : forall sort words ps out,
  is_std_sort (list_ltb Z.ltb) sort -> Forall well_formed words -> ~ In [] words -> letters words < 4294967296 ->
  Forall (Forall (Forall is_char)) ps ->
  exists nodes, make_dictionary sort words = Ok nodes /\
    disambiguous nodes (texts ps) out = Ok (verdict out (first_word words (texts (readable ps)))).
Proof. exact disambiguous_exact. Qed.
Print Assumptions C36_ligatures_read.

Example C36_nonvacuous :
  run [str "office"; str "of"] [[str "o"]; [str "H"; str "ffi"]; [str "c"]; [str "o"; str "e"]] [] = Ok (true, str "office") /\
  first_word [str "office"; str "of"] [[str "o"]; [str "H"; str "ffi"]; [str "c"]; [str "o"; str "e"]] = Some (str "office").
Proof. split; vm_compute; reflexivity. Qed.

(** A ligature in the last position: a word that no choice spells is output, and
    a word that a choice spells is missed. *)
Theorem C36_last_ligature_refuted :
  (run [str "of"] [[str "o"]; [str "ffi"]] [] = Ok (true, str "of") /\
   first_word [str "of"] [[str "o"]; [str "ffi"]] = None) /\
  (run [str "offi"] [[str "o"]; [str "ffi"]] [] = Ok (false, []) /\
   first_word [str "offi"] [[str "o"]; [str "ffi"]] = Some (str "offi")).
Proof. exact last_ligature. Qed.
Print Assumptions C36_last_ligature_refuted.
