(** The unit tests of /repo/tests, as examples about the models.  (Written by
    tools/gen_conformance.py from the test sources.) *)
From Verif Require Import Base SortModel SortProofs ImageModel PnmModel BoxModel StratModel ZoneModel DatasModel DatasSpec StreamModel
  GlyphIoModel DatasIoModel DictIoModel TrieModel SpellModel IndexModel FloatModel RecogModel RecogWitness UtilModel ShowModel.

(** image/image_from_string.cpp 27-36. *)
Definition rows (w : Z) (l : list string) : image := mkimage w (Z.of_nat (List.length l)) (flat_map str l).

(** tests/strategies/test_dzdensity.cpp. *)
Example test_dzdensity : map (fun im => dzdensity im) [(rows 1 ["-"]%string);
    (rows 2 ["--"; "--"]%string);
    (rows 2 ["--"; "--"; "--"; "--"]%string);
    (rows 1 ["-"; "-"; "-"; "-"]%string);
    (rows 3 ["---"; "---"; "---"]%string);
    (rows 3 ["-x-"; "---"; "---"]%string);
    (rows 3 ["---"; "--x"; "---"]%string);
    (rows 3 ["---"; "---"; "-x-"]%string);
    (rows 3 ["---"; "x--"; "---"]%string);
    (rows 3 ["x--"; "---"; "---"]%string);
    (rows 3 ["--x"; "---"; "---"]%string);
    (rows 3 ["---"; "---"; "--x"]%string);
    (rows 3 ["---"; "---"; "x--"]%string);
    (rows 3 ["---"; "-x-"; "---"]%string);
    (rows 3 ["---"; "x--"; "--x"]%string);
    (rows 3 ["--x"; "---"; "--x"]%string);
    (rows 3 ["--x"; "--x"; "---"; "--x"; "--x"]%string);
    (rows 5 ["-----"; "-----"; "---xx"; "-----"; "-----"; "-----"; "---xx"]%string);
    (rows 6 ["xx----"; "xxx---"; "-xxx--"; "--xxx-"; "---xxx"; "----xx"]%string);
    (rows 6 ["xxxxxx"; "xxxxxx"; "xxxxxx"; "xxxxxx"; "xxxxxx"; "xxxxxx"]%string);
    (rows 6 ["xx----"; "--xx--"; "----xx"]%string);
    (rows 6 ["xxxxxx"; "xxxxxx"; "xxxxxx"]%string)] =
  map Ok [0; 0; 0; 0; 0; 0; 0; 0; 0; 33; 0; 33; 0; 33; 33; 33; 33; 9; 100; 100; 100; 100].
Proof. vm_compute. reflexivity. Qed.

(** tests/strategies/test_hbar.cpp. *)
Example test_hbar : map (fun im => hbar im) [(rows 3 ["---"; "---"; "---"]%string);
    (rows 3 ["-x-"; "---"; "---"]%string);
    (rows 3 ["---"; "---"; "-x-"]%string);
    (rows 3 ["---"; "-x-"; "---"]%string);
    (rows 3 ["--x"; "x--"; "--x"]%string);
    (rows 3 ["--x"; "---"; "--x"]%string);
    (rows 3 ["--x"; "---"; "---"; "x-x"; "--x"]%string);
    (rows 3 ["xxx"; "---"; "--x"]%string);
    (rows 3 ["xxx"; "---"; "--x"]%string);
    (rows 3 ["xxx"; "xxx"; "--x"]%string);
    (rows 3 ["xxx"; "xxx"; "--x"; "xxx"; "xxx"]%string);
    (rows 3 ["xx-"; "xxx"; "--x"; "xxx"; "x-x"]%string)] =
  map Ok [0; 0; 0; 0; 0; 0; 0; 1; 1; 1; 2; 2].
Proof. vm_compute. reflexivity. Qed.
Example test_hbar_relation : map (fun p => equal_compute (fst p) (snd p)) [(0, 0); (2, 2); (2, 1)] = [true; true; false].
Proof. vm_compute. reflexivity. Qed.

(** tests/strategies/test_hdirection.cpp. *)
Example test_hdirection : map (fun im => hdirection im) [(rows 3 ["---"; "---"; "---"]%string);
    (rows 3 ["-x-"; "---"; "---"]%string);
    (rows 3 ["---"; "---"; "-x-"]%string);
    (rows 3 ["---"; "-x-"; "---"]%string);
    (rows 3 ["--x"; "x--"; "--x"]%string);
    (rows 3 ["--x"; "---"; "--x"]%string);
    (rows 3 ["--x"; "---"; "---"; "x-x"; "--x"]%string)] =
  map Ok [100; 200; 0; 100; 100; 100; 50].
Proof. vm_compute. reflexivity. Qed.
Example test_hdirection_relation : map (fun p => interval_compute 200 (fst p) (snd p)) [(100, 100); (200, 100); (150, 100); (50, 100); (50, 0); (50, 200); (50, 33); (88, 45)] = map Ok [100; 50; 75; 75; 75; 25; 92; 79].
Proof. vm_compute. reflexivity. Qed.

(** tests/strategies/test_hdirection2.cpp. *)
Example test_hdirection2 : map (fun im => hdirection2 im) [(rows 3 ["xxx"; "---"; "-x-"]%string);
    (rows 3 ["-x-"; "---"; "xxx"]%string);
    (rows 3 ["---"; "-x-"; "---"]%string);
    (rows 3 ["--x"; "x--"; "--x"]%string);
    (rows 3 ["--x"; "---"; "--x"]%string);
    (rows 3 ["--x"; "---"; "---"; "x-x"; "--x"]%string)] =
  map Ok [83; 16; 50; 50; 50; 33].
Proof. vm_compute. reflexivity. Qed.
Example test_hdirection2_relation : map (fun p => interval_compute 100 (fst p) (snd p)) [(50, 50); (100, 50); (75, 50); (25, 50); (25, 0); (25, 100); (25, 16); (88, 45)] = map Ok [100; 50; 75; 75; 75; 25; 91; 57].
Proof. vm_compute. reflexivity. Qed.

(** tests/strategies/test_hgravity.cpp. *)
Example test_hgravity : map (fun im => hgravity im) [(rows 3 ["---"; "---"; "---"]%string);
    (rows 3 ["-x-"; "---"; "---"]%string);
    (rows 3 ["---"; "---"; "-x-"]%string);
    (rows 3 ["---"; "-x-"; "---"]%string);
    (rows 3 ["--x"; "x--"; "--x"]%string);
    (rows 3 ["--x"; "---"; "--x"]%string);
    (rows 3 ["--x"; "---"; "---"; "x-x"; "--x"]%string)] =
  map Ok [100; 200; 0; 100; 100; 100; 66].
Proof. vm_compute. reflexivity. Qed.
Example test_hgravity_relation : map (fun p => interval_compute 200 (fst p) (snd p)) [(100, 100); (200, 100); (150, 100); (50, 100); (50, 0); (50, 200); (50, 33); (88, 45)] = map Ok [100; 50; 75; 75; 75; 25; 92; 79].
Proof. vm_compute. reflexivity. Qed.

(** tests/strategies/test_hgravity2.cpp. *)
Example test_hgravity2 : map (fun im => hgravity2 im) [(rows 3 ["xxx"; "---"; "-x-"]%string);
    (rows 3 ["-x-"; "---"; "xxx"]%string);
    (rows 3 ["---"; "-x-"; "---"]%string);
    (rows 3 ["--x"; "x--"; "--x"]%string);
    (rows 3 ["--x"; "---"; "--x"]%string);
    (rows 3 ["--x"; "---"; "---"; "x-x"; "--x"]%string)] =
  map Ok [83; 16; 50; 50; 50; 38].
Proof. vm_compute. reflexivity. Qed.
Example test_hgravity2_relation : map (fun p => interval_compute 100 (fst p) (snd p)) [(50, 50); (100, 50); (75, 50); (25, 50); (25, 0); (25, 100); (25, 16); (88, 45)] = map Ok [100; 50; 75; 75; 75; 25; 91; 57].
Proof. vm_compute. reflexivity. Qed.

(** tests/strategies/test_proportionality.cpp. *)
Example test_proportionality : map (fun im => proportionality im) [(rows 3 ["---"; "---"; "---"]%string);
    (rows 3 ["--x"; "--x"; "---"; "--x"; "--x"]%string);
    (rows 5 ["-----"; "-----"; "---xx"; "-----"; "-----"; "-----"; "---xx"]%string);
    (rows 7 ["-------"; "-------"; "-------"; "-------"; "-------"]%string);
    (rows 6 ["------"; "------"; "------"; "------"]%string)] =
  map Ok [50; 37; 41; 58; 60].
Proof. vm_compute. reflexivity. Qed.
Example test_proportionality_relation : map (fun p => interval_compute 100 (fst p) (snd p)) [(20, 6); (6, 20)] = map Ok [86; 86].
Proof. vm_compute. reflexivity. Qed.

(** tests/strategies/test_zone.cpp. *)
Definition zone_of (im : image) : res (list Z) := zc <- count_zone_compute (fun _ => 7) im new_zone_ctx ;; zone_value im (zc_zone zc).
Example test_zone : map zone_of [(rows 3 ["xxx"; "---"; "-x-"]%string);
    (rows 3 ["--x"; "---"; "---"; "xxx"; "--x"]%string);
    (rows 3 ["-x-"; "x-x"; "xxx"; "x-x"]%string);
    (rows 5 ["--x--"; "-x-x-"; "x---x"; "xxxxx"; "x---x"; "x---x"]%string)] =
  map Ok [[1; 0; 0; 1; 1; 1; 0]; [0; 1; 1; 1; 1; 2; 0]; [0; 1; 2; 1; 1; 1; 1]; [0; 1; 2; 1; 1; 1; 1]].
Proof. vm_compute. reflexivity. Qed.

(** tests/strategies/test_proportionality_zone.cpp. *)
Definition proportions_of (im : image) : res (list Z) := zc <- count_zone_compute (fun _ => 7) im new_zone_ctx ;; pz_load (isort Z.ltb) (zc_zone zc).
Example test_proportionality_zone : map proportions_of [(rows 3 ["---"; "---"; "---"]%string);
    (rows 3 ["--x"; "--x"; "---"; "--x"; "--x"]%string);
    (rows 5 ["-----"; "-----"; "xxxxx"; "-----"; "-----"; "-----"; "---xx"]%string);
    (rows 7 ["-------"; "--xxx--"; "--x-x--"; "--xxx--"; "-------"]%string);
    (rows 7 ["----x--"; "--xxx--"; "--xxx--"; "-xxxx--"; "-x---x-"]%string);
    (rows 6 ["x-x-x-"; "-X-X-x"; "x-x-x-"; "-X-x-x"]%string)] =
  map Ok [[100]; [100]; [37; 62]; [100]; [22; 33; 44]; [20; 20; 20; 40]].
Proof. vm_compute. reflexivity. Qed.

(** tests/strategies/test_alternations.cpp. *)
Definition alternations_of (im : image) : res (list alternation) := im90 <- rotate90 im ;; alternations im im90.
Definition alts1 : list alternation := [mkalt true 3; mkalt true 2; mkalt true 1; mkalt true 1; mkalt true 5; mkalt true 1; mkalt true 3].
Definition alts2 : list alternation := [mkalt true 3; mkalt true 2; mkalt true 3; mkalt true 1; mkalt false 4; mkalt true 1; mkalt true 3].
Example test_alternations : map alternations_of [(rows 6 ["-xxxx-"; "xx--xx"; "xx--xx"; "xxxxxx"; "xx----"; "xx--xx"; "-xxxx-"]%string);
    (rows 6 ["-x--x-"; "xx--xx"; "xx--xx"; "xxxxxx"; "xx----"; "xx--xx"; "-xxxx-"]%string)] = map Ok [alts1; alts2] /\
  array_compute alt_eqb alts1 alts1 = Ok 100 /\ array_compute alt_eqb alts1 alts2 = Ok (5 * 100 / 7) /\ array_compute alt_eqb alts2 alts1 = Ok (5 * 100 / 7) /\
  fst (read_cells read_alt (repeat (mkalt false 0) 7) (open_stream (flat_map (fun x => write_alt x ++ [32]) alts2))) = alts2.
Proof. repeat split; vm_compute; reflexivity. Qed.

(** tests/loader2/test_datas_loader.cpp. *)
Definition three : list strategy := [mkst Hgravity false; mkst Hgravity true; mkst Hdirection false].
Definition loaded : res (list (list Z)) :=
  d <- datas_load_all (fun _ => 7) (isort Z.ltb) three (mkdatas [[]; []; []] new_ctxs) (let a := (rows 3 ["x--"; "xxx"; "x-x"]%string) in [a; a; (rows 3 ["x-x"; "xxx"; "x-x"]%string)]) ;;
  Ok (map nums_of (d_cols d)).
Definition scores (c : list Z) : list (res Z) := [interval_compute 200 (nth 0 c 0) (nth 1 c 0); interval_compute 200 (nth 1 c 0) (nth 2 c 0)].
Example test_datas_loader : (cols <- loaded ;; Ok (map scores cols)) = Ok [[Ok 100; Ok 83]; [Ok 100; Ok 90]; [Ok 100; Ok 83]].
Proof. vm_compute. reflexivity. Qed.

(** tests/loader2/test_glyphs_loader.cpp. *)
Definition two_glyphs : list glyph := [mkglyph (rows 3 ["x--"; "xxx"; "x-x"]%string) [mkview (str "h") (str "imaginary") 0]; mkglyph (rows 3 ["x-X"; "xxx"; "x-x"]%string) [mkview (str "H") (str "imaginary") 0]].
Example test_glyphs_loader : write_glyphs two_glyphs = flat_map (fun l => str l ++ [10]) ["3 3 x--xxxx-x"; "1"; "h imaginary 0"; "3 3 x-Xxxxx-x"; "1"; "H imaginary 0"]%string /\
  ('(gs, _) <- read_glyphs (open_stream (write_glyphs two_glyphs)) ;; Ok gs) = Ok two_glyphs.
Proof. split; vm_compute; reflexivity. Qed.

(** tests/container/test_trie.cpp. *)
Definition trie_words : list (list Z) := isort (list_ltb Z.ltb) (map str ["abcd"; "abce"; "abcehn"; "abcehne"; "abcehnu"; "abcej"; "azerty"; "abc"; "bob"; "coco"; "paco"; "parano"]%string).
Fixpoint tree_lines (depth : nat) (n : tnode) : list (list Z) :=
  (repeat 32 depth ++ [tvalue n] ++ (if tterm n then str " @" else [])) :: flat_map (tree_lines (S depth)) (tkids n).
Example test_trie : (t <- make_trie trie_words ;; Ok (flat_map (tree_lines 0) t)) = Ok (map str ["a"; " b"; "  c @"; "   d @"; "   e @"; "    h"; "     n @"; "      e @"; "      u @"; "    j @"; " z"; "  e"; "   r"; "    t"; "     y @"; "b"; " o"; "  b @"; "c"; " o"; "  c"; "   o @"; "p"; " a"; "  c"; "   o @"; "  r"; "   a"; "    n"; "     o @"]%string) /\
  (t <- make_trie trie_words ;; Ok (List.length t)) = Ok 4%nat /\
  (t <- make_trie trie_words ;; ns <- flatten t ;; Ok (map (fun n => (fn_char n, if fn_count n =? 0 then 0 else fn_pos n, fn_count n, fn_term n)) ns)) =
   Ok (map (fun '(c, p, n, t) => (nth 0 (str c) 0, p, n, t)) [("a"%string, 4, 2, false); ("b"%string, 5, 1, false); ("c"%string, 5, 1, false); ("p"%string, 5, 1, false); ("b"%string, 5, 1, false); ("z"%string, 5, 1, false); ("o"%string, 5, 1, false); ("o"%string, 5, 1, false); ("a"%string, 5, 2, false); ("c"%string, 6, 2, true); ("e"%string, 7, 1, false); ("b"%string, 0, 0, true); ("c"%string, 6, 1, false); ("c"%string, 6, 1, false); ("r"%string, 6, 1, false); ("d"%string, 0, 0, true); ("e"%string, 5, 2, true); ("r"%string, 6, 1, false); ("o"%string, 0, 0, true); ("o"%string, 0, 0, true); ("a"%string, 4, 1, false); ("h"%string, 4, 1, false); ("j"%string, 0, 0, true); ("t"%string, 3, 1, false); ("n"%string, 3, 1, false); ("n"%string, 3, 2, true); ("y"%string, 0, 0, true); ("o"%string, 0, 0, true); ("e"%string, 0, 0, true); ("u"%string, 0, 0, true)]).
Proof. repeat split; vm_compute; reflexivity. Qed.

(** tests/spell/test_dictionary.cpp. *)
Definition a_grave : list Z := [195; 160].
Example test_dictionary : (ns <- make_dictionary (isort (list_ltb Z.ltb)) trie_words ;; '(ns', s) <- read_dict (open_stream (write_dict ns)) ;; Ok (is_eof s, ns')) =
  (ns <- make_dictionary (isort (list_ltb Z.ltb)) trie_words ;; Ok (true, ns)) /\
  (ns <- make_dictionary (isort (list_ltb Z.ltb)) [a_grave] ;; Ok (List.length ns)) = Ok 1%nat.
Proof. split; vm_compute; reflexivity. Qed.

(** tests/spell/test_word_disambiguouser.cpp. *)
Definition spelled (ps : list (list (list Z))) : res (bool * list Z) := ns <- make_dictionary (isort (list_ltb Z.ltb)) (trie_words ++ [a_grave]) ;; disambiguous ns ps [].
Definition letters_of (l : list (list string)) : list (list (list Z)) := map (map str) l.
Definition word1 : list (list string) := [["a"]; ["b"; "z"]; ["e"]; ["r"]; ["u"; "t"]; ["y"]]%string.
Definition word2 : list (list string) := [["a"]; ["b"; "z"; "i"]; ["e"]; ["r"]; ["u"; "t"]; ["y"]]%string.
Example test_word_disambiguouser : spelled (letters_of word1) = Ok (true, str "azerty") /\ spelled (letters_of word2) = Ok (true, str "azerty") /\
  ('(b, _) <- spelled (letters_of (word2 ++ [["y"%string]])) ;; Ok b) = Ok false /\ ('(b, _) <- spelled (letters_of (firstn 5 word2)) ;; Ok b) = Ok false /\
  spelled [[a_grave]] = Ok (true, a_grave).
Proof. repeat split; vm_compute; reflexivity. Qed.

(** tests/utils/reindex.cpp. *)
Definition reindexed (is v : list Z) : res (list Z) := reindex 0 (fun x => x) is v.
Example test_reindex : let order := [0; 1; 2; 3; 4] in reindexed order order = Ok order /\
  (v <- reindexed order order ;; reindexed [4; 3; 2; 1; 0] v) = Ok [4; 3; 2; 1; 0] /\
  (v <- reindexed order order ;; v <- reindexed [4; 3; 2; 1; 0] v ;; reindexed [3; 0; 2; 4; 1] v) = Ok [1; 4; 2; 0; 3].
Proof. repeat split; vm_compute; reflexivity. Qed.

(** tests/ocr2/test_compute_image.cpp. *)
Definition two_lists : list strategy := [mkst Hdirection false; mkst Hdirection true].
Definition img_T : image := (rows 5 ["xxxxx"; "--x--"; "--x--"; "--x--"; "--x--"]%string).
Definition img_Y : image := (rows 5 ["x---x"; "-x-x-"; "-x-x-"; "--x--"; "--x--"]%string).
Definition two_views : list (list oview) := [[mkov 0 0]; [mkov 1 0]].
Definition two_table : res table :=
  d <- datas_load_all (fun _ => 7) (isort Z.ltb) two_lists (mkdatas [[]; []] new_ctxs) [img_T; img_Y] ;;
  words <- indexes_by_words two_views ;;
  let c := nums_of (nth 0 (d_cols d) []) in
  Ok (mktable two_lists (d_cols d) (indexes_ordered (isort (index_lt c)) c) words two_views (views_indexes_ordered (isort (ref_lt two_views)) two_views)).
(** 0.92 and 0.8464. *)
Definition d92 : double := ddiv (double_of 92) (double_of 100).
Definition d8464 : double := ddiv (double_of 8464) (double_of 10000).
Definition by_row (ps : list prob) : list prob := isort (fun a b => pr_i a <? pr_i b) ps.
Example test_compute_image :
  (t <- two_table ;;
   '(p1, _) <- compute_simple_universe (to_input img_T) t two_lists new_ctxs ;;
   '(p2, _) <- compute_simple_universe (to_input img_Y) t two_lists new_ctxs ;;
   '(p3, _) <- reduce_complex (to_input img_T) t two_lists p2 new_ctxs ;;
   '(p4, _) <- reduce_complex (to_input img_Y) t two_lists p3 new_ctxs ;;
   '(p5, _) <- reduce_exclusive (to_input img_T) t two_lists p4 new_ctxs ;;
   Ok (map by_row [p1; p2; p3; p4; p5])) =
  Ok (map (fun '(a, b) => [mkpr 0 a; mkpr 1 b]) [(d1, d92); (d92, d1); (d92, d92); (d8464, d92); (d8464, d92)]).
Proof. vm_compute. reflexivity. Qed.

(** tests/test_image.cpp, with the files tests/images/image1.pbm and image2.pnm. *)
Definition image1_pbm : list Z := [80; 52; 10; 35; 32; 67; 82; 69; 65; 84; 79; 82; 58; 32; 71; 73; 77; 80; 32; 80; 78; 77; 32; 70; 105; 108; 116; 101; 114; 32; 86; 101; 114; 115; 105; 111; 110; 32; 49; 46; 49; 10; 56; 32; 49; 49; 10; 255; 255; 255; 195; 249; 193; 153; 153; 193; 255; 255].
Definition image2_pnm : list Z := [80; 54; 10; 35; 32; 67; 82; 69; 65; 84; 79; 82; 58; 32; 71; 73; 77; 80; 32; 80; 78; 77; 32; 70; 105; 108; 116; 101; 114; 32; 86; 101; 114; 115; 105; 111; 110; 32; 49; 46; 49; 10; 56; 32; 49; 52; 10; 50; 53; 53; 10; 8; 36; 107; 8; 36; 107; 8; 36; 107; 8; 36; 107; 8; 36; 107; 8; 36; 107; 8; 36; 107; 8; 36; 107; 8; 36; 107; 8; 36; 107; 8; 36; 107; 8; 36; 107; 8; 36; 107; 8; 36; 107; 8; 36; 107; 8; 36; 107; 8; 36; 107; 8; 36; 107; 8; 36; 107; 8; 36; 107; 8; 36; 107; 8; 36; 107; 8; 36; 107; 8; 36; 107; 8; 36; 107; 8; 36; 107; 8; 36; 107; 8; 36; 107; 8; 36; 107; 8; 36; 107; 8; 36; 107; 8; 36; 107; 8; 36; 107; 8; 36; 107; 255; 255; 255; 255; 255; 255; 255; 255; 255; 255; 255; 255; 8; 36; 107; 8; 36; 107; 8; 36; 107; 255; 255; 255; 255; 255; 255; 8; 36; 107; 8; 36; 107; 255; 255; 255; 255; 255; 255; 8; 36; 107; 8; 36; 107; 255; 255; 255; 255; 255; 255; 8; 36; 107; 8; 36; 107; 255; 255; 255; 255; 255; 255; 8; 36; 107; 8; 36; 107; 255; 255; 255; 255; 255; 255; 255; 255; 255; 255; 255; 255; 255; 255; 255; 255; 255; 255; 8; 36; 107; 8; 36; 107; 255; 255; 255; 255; 255; 255; 8; 36; 107; 8; 36; 107; 8; 36; 107; 8; 36; 107; 8; 36; 107; 8; 36; 107; 255; 255; 255; 255; 255; 255; 8; 36; 107; 8; 36; 107; 255; 255; 255; 255; 255; 255; 8; 36; 107; 8; 36; 107; 8; 36; 107; 255; 255; 255; 255; 255; 255; 255; 255; 255; 255; 255; 255; 8; 36; 107; 8; 36; 107; 8; 36; 107; 8; 36; 107; 8; 36; 107; 8; 36; 107; 8; 36; 107; 8; 36; 107; 8; 36; 107; 8; 36; 107; 8; 36; 107; 8; 36; 107; 8; 36; 107; 8; 36; 107; 8; 36; 107; 8; 36; 107; 8; 36; 107; 8; 36; 107; 8; 36; 107; 8; 36; 107; 8; 36; 107; 8; 36; 107; 8; 36; 107; 8; 36; 107; 8; 36; 107; 8; 36; 107].
Example test_image : (im <- image_of_bytes image1_pbm 128 ;; show_image im) = Ok (flat_map (fun l => str l ++ [10]) ["::::::::::"; ":--------:"; ":--------:"; ":--------:"; ":--xxxx--:"; ":-----xx-:"; ":--xxxxx-:"; ":-xx--xx-:"; ":-xx--xx-:"; ":--xxxxx-:"; ":--------:"; ":--------:"; "::::::::::"]%string) /\
  (im <- image_of_bytes image2_pnm 128 ;; show_image im) = Ok (flat_map (fun l => str l ++ [10]) ["::::::::::"; ":--------:"; ":--------:"; ":--------:"; ":--------:"; ":--xxxx--:"; ":-xx--xx-:"; ":-xx--xx-:"; ":-xxxxxx-:"; ":-xx-----:"; ":-xx--xx-:"; ":--xxxx--:"; ":--------:"; ":--------:"; ":--------:"; "::::::::::"]%string) /\
  (im <- image_of_bytes image2_pnm 128 ;; im <- rotate90 im ;; show_image im) = Ok (flat_map (fun l => str l ++ [10]) ["::::::::::::::::"; ":--------------:"; ":-----xxx-x----:"; ":----xxxx-xx---:"; ":----x--x--x---:"; ":----x--x--x---:"; ":----xxxxxxx---:"; ":-----xxxxx----:"; ":--------------:"; "::::::::::::::::"]%string).
Proof. repeat split; vm_compute; reflexivity. Qed.
Definition pixels (im : image) (y : Z) : list (res bool) := map (fun x => normal_pixel (idata im) (to_size_t im x y)) (zrange 8).
Definition blocks (im : image) (y h : Z) : list (res bool) := map (fun x => any_pixel (idata im) h (iw im) (to_size_t im x y)) (zrange 8).
Fixpoint alternations_found (n : nat) (im : image) (it last : Z) : res (list bool) :=
  match n with
  | O => Ok []
  | S n => '(b, it) <- next_alternation (normal_pixel (idata im)) it last ;; l <- alternations_found n im it last ;; Ok (b :: l)
  end.
Definition marks (s : string) : list (res bool) := map (fun c => Ok (c =? 120)) (str s).
Example test_ranges : (im <- image_of_bytes image2_pnm 128 ;; Ok (pixels im 5)) = Ok (marks "-xx--xx-") /\
  (im <- image_of_bytes image2_pnm 128 ;; Ok (blocks im 5 3)) = Ok (marks "-xxxxxx-") /\
  (im <- image_of_bytes image2_pnm 128 ;; alternations_found 5 im (to_size_t im 0 5) (to_size_t im 8 5)) = Ok [true; true; true; true; false].
Proof. repeat split; vm_compute; reflexivity. Qed.

(** tests/test_make_box_character.cpp, with the first 59 columns of the file
    tests/images/computer.pnm (there is no ink in the others). *)
Definition computer_pnm : list Z := str "P6" ++ [10] ++ str "59 18" ++ [10] ++ str "255" ++ [10] ++
  flat_map (fun '(r, g, b, n) => flat_map (fun _ => [r; g; b]) (zrange n)) [(8, 36, 107, 298); (255, 255, 255, 5); (8, 36, 107, 33); (255, 255, 255, 2); (8, 36, 107, 18); (255, 255, 255, 2); (8, 36, 107, 37); (255, 255, 255, 2); (8, 36, 107, 18); (255, 255, 255, 2); (8, 36, 107, 6); (255, 255, 255, 4); (8, 36, 107, 2); (255, 255, 255, 5); (8, 36, 107, 1); (255, 255, 255, 3); (8, 36, 107, 2); (255, 255, 255, 5); (8, 36, 107, 2); (255, 255, 255, 2); (8, 36, 107, 2); (255, 255, 255, 2); (8, 36, 107, 1); (255, 255, 255, 4); (8, 36, 107, 2); (255, 255, 255, 4); (8, 36, 107, 2); (255, 255, 255, 2); (8, 36, 107, 1); (255, 255, 255, 1); (8, 36, 107, 4); (255, 255, 255, 2); (8, 36, 107, 5); (255, 255, 255, 2); (8, 36, 107, 2); (255, 255, 255, 2); (8, 36, 107, 1); (255, 255, 255, 2); (8, 36, 107, 2); (255, 255, 255, 2); (8, 36, 107, 2); (255, 255, 255, 2); (8, 36, 107, 1); (255, 255, 255, 2); (8, 36, 107, 2); (255, 255, 255, 2); (8, 36, 107, 1); (255, 255, 255, 2); (8, 36, 107, 2); (255, 255, 255, 2); (8, 36, 107, 1); (255, 255, 255, 2); (8, 36, 107, 3); (255, 255, 255, 2); (8, 36, 107, 2); (255, 255, 255, 2); (8, 36, 107, 1); (255, 255, 255, 4); (8, 36, 107, 4); (255, 255, 255, 2); (8, 36, 107, 5); (255, 255, 255, 2); (8, 36, 107, 2); (255, 255, 255, 2); (8, 36, 107, 1); (255, 255, 255, 2); (8, 36, 107, 2); (255, 255, 255, 2); (8, 36, 107, 2); (255, 255, 255, 2); (8, 36, 107, 1); (255, 255, 255, 2); (8, 36, 107, 2); (255, 255, 255, 2); (8, 36, 107, 1); (255, 255, 255, 2); (8, 36, 107, 2); (255, 255, 255, 2); (8, 36, 107, 1); (255, 255, 255, 2); (8, 36, 107, 3); (255, 255, 255, 6); (8, 36, 107, 1); (255, 255, 255, 2); (8, 36, 107, 6); (255, 255, 255, 2); (8, 36, 107, 5); (255, 255, 255, 2); (8, 36, 107, 2); (255, 255, 255, 2); (8, 36, 107, 1); (255, 255, 255, 2); (8, 36, 107, 2); (255, 255, 255, 2); (8, 36, 107, 2); (255, 255, 255, 2); (8, 36, 107, 1); (255, 255, 255, 2); (8, 36, 107, 2); (255, 255, 255, 2); (8, 36, 107, 1); (255, 255, 255, 2); (8, 36, 107, 2); (255, 255, 255, 2); (8, 36, 107, 1); (255, 255, 255, 2); (8, 36, 107, 3); (255, 255, 255, 2); (8, 36, 107, 5); (255, 255, 255, 2); (8, 36, 107, 6); (255, 255, 255, 2); (8, 36, 107, 5); (255, 255, 255, 2); (8, 36, 107, 2); (255, 255, 255, 2); (8, 36, 107, 1); (255, 255, 255, 2); (8, 36, 107, 2); (255, 255, 255, 2); (8, 36, 107, 2); (255, 255, 255, 2); (8, 36, 107, 1); (255, 255, 255, 2); (8, 36, 107, 2); (255, 255, 255, 2); (8, 36, 107, 1); (255, 255, 255, 2); (8, 36, 107, 2); (255, 255, 255, 2); (8, 36, 107, 1); (255, 255, 255, 2); (8, 36, 107, 3); (255, 255, 255, 2); (8, 36, 107, 5); (255, 255, 255, 2); (8, 36, 107, 7); (255, 255, 255, 5); (8, 36, 107, 2); (255, 255, 255, 4); (8, 36, 107, 2); (255, 255, 255, 2); (8, 36, 107, 2); (255, 255, 255, 2); (8, 36, 107, 2); (255, 255, 255, 2); (8, 36, 107, 1); (255, 255, 255, 5); (8, 36, 107, 3); (255, 255, 255, 5); (8, 36, 107, 2); (255, 255, 255, 3); (8, 36, 107, 2); (255, 255, 255, 5); (8, 36, 107, 1); (255, 255, 255, 2); (8, 36, 107, 31); (255, 255, 255, 2); (8, 36, 107, 57); (255, 255, 255, 2); (8, 36, 107, 207)].
Definition box_dumps : res (list (list Z)) :=
  im <- image_of_bytes computer_pnm 128 ;; boxes <- segment im ;;
  map_res (fun b => s <- section im (bx b) (by_ b) (bw b) (bh b) ;; show_image s) boxes.
Example test_make_box_character : box_dumps = Ok [flat_map (fun l => str l ++ [10]) ["::::::::"; ":-xxxxx:"; ":xx----:"; ":xx----:"; ":xx----:"; ":xx----:"; ":xx----:"; ":xx----:"; ":-xxxxx:"; "::::::::"]%string;
  flat_map (fun l => str l ++ [10]) ["::::::::"; ":-xxxx-:"; ":xx--xx:"; ":xx--xx:"; ":xx--xx:"; ":xx--xx:"; ":-xxxx-:"; "::::::::"]%string;
  flat_map (fun l => str l ++ [10]) ["::::::::::::"; ":xxxxx-xxx-:"; ":xx--xx--xx:"; ":xx--xx--xx:"; ":xx--xx--xx:"; ":xx--xx--xx:"; ":xx--xx--xx:"; "::::::::::::"]%string;
  flat_map (fun l => str l ++ [10]) ["::::::::"; ":xxxxx-:"; ":xx--xx:"; ":xx--xx:"; ":xx--xx:"; ":xx--xx:"; ":xxxxx-:"; ":xx----:"; ":xx----:"; "::::::::"]%string;
  flat_map (fun l => str l ++ [10]) ["::::::::"; ":xx--xx:"; ":xx--xx:"; ":xx--xx:"; ":xx--xx:"; ":xx--xx:"; ":-xxxxx:"; "::::::::"]%string;
  flat_map (fun l => str l ++ [10]) ["::::::"; ":xx--:"; ":xx--:"; ":xxxx:"; ":xx--:"; ":xx--:"; ":xx--:"; ":xx--:"; ":-xxx:"; "::::::"]%string;
  flat_map (fun l => str l ++ [10]) ["::::::::"; ":-xxxx-:"; ":xx--xx:"; ":xxxxxx:"; ":xx----:"; ":xx----:"; ":-xxxxx:"; "::::::::"]%string;
  flat_map (fun l => str l ++ [10]) ["::::::"; ":xx-x:"; ":xxxx:"; ":xx--:"; ":xx--:"; ":xx--:"; ":xx--:"; "::::::"]%string].
Proof. vm_compute. reflexivity. Qed.
