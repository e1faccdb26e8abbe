#!/usr/bin/env python3
"""Writes rocq/theories/Conformance.v: the assertions of /repo/tests about the features, as examples about the models."""
import re, os
T = "/repo/tests/"
out = []
w = out.append
def src(f): return open(T + f).read()
def lit(rows): return '(rows %d [%s]%%string)' % (len(rows[0]), '; '.join('"%s"' % r for r in rows))
w('''(** The unit tests of /repo/tests, as examples about the models.  (Written by
    tools/gen_conformance.py from the test sources.) *)
From Verif Require Import Base SortModel SortProofs ImageModel PnmModel BoxModel StratModel ZoneModel DatasModel DatasSpec StreamModel
  GlyphIoModel DatasIoModel DictIoModel TrieModel SpellModel IndexModel FloatModel RecogModel RecogWitness UtilModel ShowModel.

(** image/image_from_string.cpp 27-36. *)
Definition rows (w : Z) (l : list string) : image := mkimage w (Z.of_nat (List.length l)) (flat_map str l).
''')
def feature(f, func, fn, interval, line):
    s = src(f)
    items = []
    pat = re.compile(func + r'\(\{(\d+), (\d+)\},\s*((?:"[^"]*"\s*)+)\);\s*BOOST_CHECK_EQUAL\(\w+, ([^;]*)\);')
    for m in pat.finditer(s):
        width, height = int(m.group(1)), int(m.group(2))
        r = re.findall(r'"([^"]*)"', m.group(3))
        assert len(r) == height and all(len(x) == width for x in r)
        e = eval(m.group(4).replace('/', '//'), {'hInterval': interval})
        items.append((r, e))
    n = len(pat.findall(s)); assert n == s.count(func + '({'), (f, n)
    w('(** tests/%s. *)' % f)
    w('Example test_%s : map (fun im => %s im) [%s] =\n  map Ok [%s].' % (fn, fn, ';\n    '.join(lit(r) for r, _ in items), '; '.join(str(e) for _, e in items)))
    w('Proof. vm_compute. reflexivity. Qed.')
    rel = re.findall(r'BOOST_CHECK_EQUAL\((\w+),\s*relationship::compute\(([^,]*), ([^)]*)\)\)', s)
    if rel:
        ev = lambda x: eval(x.replace('/', '//'), {'hInterval': interval})
        if rel[0][0] in ('true', 'false'):
            w('Example test_%s_relation : map (fun p => equal_compute (fst p) (snd p)) [%s] = [%s].' % (fn, '; '.join('(%s, %s)' % (a, b) for _, a, b in rel), '; '.join(r for r, _, _ in rel)))
        else:
            w('Example test_%s_relation : map (fun p => interval_compute %s (fst p) (snd p)) [%s] = map Ok [%s].' % (fn, line, '; '.join('(%d, %d)' % (ev(a), ev(b)) for _, a, b in rel), '; '.join(r for r, _, _ in rel)))
        w('Proof. vm_compute. reflexivity. Qed.')
    w('')
feature('strategies/test_dzdensity.cpp', 'to_ddensity_id', 'dzdensity', 0, '100')
feature('strategies/test_hbar.cpp', 'to_hbar_value', 'hbar', 0, '')
feature('strategies/test_hdirection.cpp', 'to_hdirection_value', 'hdirection', 100, '200')
feature('strategies/test_hdirection2.cpp', 'to_hdirection2_value', 'hdirection2', 50, '100')
feature('strategies/test_hgravity.cpp', 'to_hgravity_value', 'hgravity', 100, '200')
feature('strategies/test_hgravity2.cpp', 'to_hgravity2_value', 'hgravity2', 50, '100')
feature('strategies/test_proportionality.cpp', 'to_proportion', 'proportionality', 0, '100')

# zones
def zones(f, func):
    s = src(f)
    return [re.findall(r'"([^"]*)"', m.group(1)) for m in re.finditer(func + r'\(\{\d+, \d+\},\s*((?:"[^"]*"\s*)+)\);', s)]
z = zones('strategies/test_zone.cpp', 'mk_zone')
exp = re.findall(r'A\{\{([\d, ]*)\}\}', src('strategies/test_zone.cpp'))
assert len(z) == len(exp) == 4
w('(** tests/strategies/test_zone.cpp. *)')
w('Definition zone_of (im : image) : res (list Z) := zc <- count_zone_compute (fun _ => 7) im new_zone_ctx ;; zone_value im (zc_zone zc).')
w('Example test_zone : map zone_of [%s] =\n  map Ok [%s].' % (';\n    '.join(lit(r) for r in z), '; '.join('[%s]' % e.replace(',', ';') for e in exp)))
w('Proof. vm_compute. reflexivity. Qed.\n')
z = zones('strategies/test_proportionality_zone.cpp', 'to_proportion')
s = src('strategies/test_proportionality_zone.cpp')
exp, cur = [], None
for m in re.finditer(r'proportion2 = \{([\d, ]*)\}|CHECK_EQUAL_COLLECTIONS\(proportion\.begin', s):
    if m.group(1): cur = m.group(1)
    else: exp.append(cur)
assert len(z) == len(exp) == 6
w('(** tests/strategies/test_proportionality_zone.cpp. *)')
w('Definition proportions_of (im : image) : res (list Z) := zc <- count_zone_compute (fun _ => 7) im new_zone_ctx ;; pz_load (isort Z.ltb) (zc_zone zc).')
w('Example test_proportionality_zone : map proportions_of [%s] =\n  map Ok [%s].' % (';\n    '.join(lit(r) for r in z), '; '.join('[%s]' % e.replace(',', ';') for e in exp)))
w('Proof. vm_compute. reflexivity. Qed.\n')

# alternations
s = src('strategies/test_alternations.cpp')
im = [re.findall(r'"([^"]*)"', m.group(1)) for m in re.finditer(r'image_from_string\(\{6, 7\},\s*((?:"[^"]*"\s*)+)\)', s)]
a = [re.findall(r'BOOST_CHECK\(%s\[\d\] == alternations_t\(\{(\d), (\d)\}\)\)' % v, s) for v in ('a', 'a2')]
assert len(im) == 2 and len(a[0]) == len(a[1]) == 7
alts = ['[%s]' % '; '.join('mkalt %s %s' % ('true' if x == '1' else 'false', y) for x, y in l) for l in a]
w('(** tests/strategies/test_alternations.cpp. *)')
w('Definition alternations_of (im : image) : res (list alternation) := im90 <- rotate90 im ;; alternations im im90.')
w('Definition alts1 : list alternation := %s.\nDefinition alts2 : list alternation := %s.' % tuple(alts))
w('Example test_alternations : map alternations_of [%s] = map Ok [alts1; alts2] /\\\n  array_compute alt_eqb alts1 alts1 = Ok 100 /\\ array_compute alt_eqb alts1 alts2 = Ok (5 * 100 / 7) /\\ array_compute alt_eqb alts2 alts1 = Ok (5 * 100 / 7) /\\' % ';\n    '.join(lit(r) for r in im))
w('  fst (read_cells read_alt (repeat (mkalt false 0) 7) (open_stream (flat_map (fun x => write_alt x ++ [32]) alts2))) = alts2.')
w('Proof. repeat split; vm_compute; reflexivity. Qed.\n')

# datas loader
s = src('loader2/test_datas_loader.cpp')
im = [re.findall(r'"([^"]*)"', m.group(1)) for m in re.finditer(r'image_from_string\(\s*\{3, 3\},\s*((?:"[^"]*"\s*)+)\)', s)]
assert len(im) == 2
w('(** tests/loader2/test_datas_loader.cpp. *)')
w('Definition three : list strategy := [mkst Hgravity false; mkst Hgravity true; mkst Hdirection false].')
w('Definition loaded : res (list (list Z)) :=\n  d <- datas_load_all (fun _ => 7) (isort Z.ltb) three (mkdatas [[]; []; []] new_ctxs) (let a := %s in [a; a; %s]) ;;\n  Ok (map nums_of (d_cols d)).' % (lit(im[0]), lit(im[1])))
w('Definition scores (c : list Z) : list (res Z) := [interval_compute 200 (nth 0 c 0) (nth 1 c 0); interval_compute 200 (nth 1 c 0) (nth 2 c 0)].')
w('Example test_datas_loader : (cols <- loaded ;; Ok (map scores cols)) = Ok [[Ok 100; Ok 83]; [Ok 100; Ok 90]; [Ok 100; Ok 83]].')
w('Proof. vm_compute. reflexivity. Qed.\n')

# glyph loader
s = src('loader2/test_glyphs_loader.cpp')
im = [re.findall(r'"([^"]*)"', m.group(1)) for m in re.finditer(r'image_from_string\(\s*\{3, 3\},\s*((?:"[^"]*"\s*)+)\)', s)]
txt = re.findall(r'"([^"]*)\\n"', s)
assert len(im) == 2 and len(txt) == 6
w('(** tests/loader2/test_glyphs_loader.cpp. *)')
w('Definition two_glyphs : list glyph := [mkglyph %s [mkview (str "h") (str "imaginary") 0]; mkglyph %s [mkview (str "H") (str "imaginary") 0]].' % (lit(im[0]), lit(im[1])))
w('Example test_glyphs_loader : write_glyphs two_glyphs = flat_map (fun l => str l ++ [10]) [%s]%%string /\\\n  (\'(gs, _) <- read_glyphs (open_stream (write_glyphs two_glyphs)) ;; Ok gs) = Ok two_glyphs.' % '; '.join('"%s"' % t for t in txt))
w('Proof. split; vm_compute; reflexivity. Qed.\n')

# trie
s = src('container/test_trie.cpp')
words = re.search(r'strings\{([^}]*)\}', s).group(1).replace(',', ';')
parts = s.split('flat_char_trie flat_trie(trie);')
tree = re.findall(r'"([^"\n]*)\\n"', parts[0][parts[0].index('BOOST_CHECK_EQUAL'):])
flat = re.findall(r'"([a-z]) +(\d+) (\d+)( @)?\\n"', parts[1])
assert len(tree) == len(flat) == 30
w('(** tests/container/test_trie.cpp. *)')
w('Definition trie_words : list (list Z) := isort (list_ltb Z.ltb) (map str [%s]%%string).' % words)
w('''Fixpoint tree_lines (depth : nat) (n : tnode) : list (list Z) :=
  (repeat 32 depth ++ [tvalue n] ++ (if tterm n then str " @" else [])) :: flat_map (tree_lines (S depth)) (tkids n).''')
w('Example test_trie : (t <- make_trie trie_words ;; Ok (flat_map (tree_lines 0) t)) = Ok (map str [%s]%%string) /\\' % '; '.join('"%s"' % t for t in tree))
w('  (t <- make_trie trie_words ;; Ok (List.length t)) = Ok 4%nat /\\')
w('  (t <- make_trie trie_words ;; ns <- flatten t ;; Ok (map (fun n => (fn_char n, if fn_count n =? 0 then 0 else fn_pos n, fn_count n, fn_term n)) ns)) =\n   Ok (map (fun \'(c, p, n, t) => (nth 0 (str c) 0, p, n, t)) [%s]).' % '; '.join('("%s"%%string, %s, %s, %s)' % (c, p, n, 'true' if t else 'false') for c, p, n, t in flat))
w('Proof. repeat split; vm_compute; reflexivity. Qed.\n')

# dictionary
w('(** tests/spell/test_dictionary.cpp. *)')
w('Definition a_grave : list Z := [195; 160].')
w('Example test_dictionary : (ns <- make_dictionary (isort (list_ltb Z.ltb)) trie_words ;; \'(ns\', s) <- read_dict (open_stream (write_dict ns)) ;; Ok (is_eof s, ns\')) =\n  (ns <- make_dictionary (isort (list_ltb Z.ltb)) trie_words ;; Ok (true, ns)) /\\')
w('  (ns <- make_dictionary (isort (list_ltb Z.ltb)) [a_grave] ;; Ok (List.length ns)) = Ok 1%nat.')
w('Proof. split; vm_compute; reflexivity. Qed.\n')

# disambiguouser
w('(** tests/spell/test_word_disambiguouser.cpp. *)')
w('Definition spelled (ps : list (list (list Z))) : res (bool * list Z) := ns <- make_dictionary (isort (list_ltb Z.ltb)) (trie_words ++ [a_grave]) ;; disambiguous ns ps [].')
w('''Definition letters_of (l : list (list string)) : list (list (list Z)) := map (map str) l.
Definition word1 : list (list string) := [["a"]; ["b"; "z"]; ["e"]; ["r"]; ["u"; "t"]; ["y"]]%string.
Definition word2 : list (list string) := [["a"]; ["b"; "z"; "i"]; ["e"]; ["r"]; ["u"; "t"]; ["y"]]%string.
Example test_word_disambiguouser : spelled (letters_of word1) = Ok (true, str "azerty") /\\ spelled (letters_of word2) = Ok (true, str "azerty") /\\
  (\'(b, _) <- spelled (letters_of (word2 ++ [["y"%string]])) ;; Ok b) = Ok false /\\ (\'(b, _) <- spelled (letters_of (firstn 5 word2)) ;; Ok b) = Ok false /\\
  spelled [[a_grave]] = Ok (true, a_grave).
Proof. repeat split; vm_compute; reflexivity. Qed.
''')
w('''(** tests/utils/reindex.cpp. *)
Definition reindexed (is v : list Z) : res (list Z) := reindex 0 (fun x => x) is v.
Example test_reindex : let order := [0; 1; 2; 3; 4] in reindexed order order = Ok order /\\
  (v <- reindexed order order ;; reindexed [4; 3; 2; 1; 0] v) = Ok [4; 3; 2; 1; 0] /\\
  (v <- reindexed order order ;; v <- reindexed [4; 3; 2; 1; 0] v ;; reindexed [3; 0; 2; 4; 1] v) = Ok [1; 4; 2; 0; 3].
Proof. repeat split; vm_compute; reflexivity. Qed.
''')

# compute_image
s = src('ocr2/test_compute_image.cpp')
im = [re.findall(r'"([^"]*)"', m.group(1)) for m in re.finditer(r'image_from_string\(\s*\{5, 5\},\s*((?:"[^"]*"\s*)+)\)', s)]
assert len(im) == 2
w('''(** tests/ocr2/test_compute_image.cpp. *)
Definition two_lists : list strategy := [mkst Hdirection false; mkst Hdirection true].
Definition img_T : image := %s.
Definition img_Y : image := %s.
Definition two_views : list (list oview) := [[mkov 0 0]; [mkov 1 0]].
Definition two_table : res table :=
  d <- datas_load_all (fun _ => 7) (isort Z.ltb) two_lists (mkdatas [[]; []] new_ctxs) [img_T; img_Y] ;;
  words <- indexes_by_words two_views ;;
  let c := nums_of (nth 0 (d_cols d) []) in
  Ok (mktable two_lists (d_cols d) (indexes_ordered (isort (index_lt c)) c) words two_views (views_indexes_ordered (isort (ref_lt two_views)) two_views)).
(** 0.92 and 0.8464. *)
Definition d92 : double := ddiv (double_of 92) (double_of 100).
Definition d8464 : double := ddiv (double_of 8464) (double_of 10000).
Definition by_row (ps : list prob) : list prob := isort (fun a b => pr_i a <? pr_i b) ps.
Example test_compute_image :
  (t <- two_table ;;
   '(p1, _) <- compute_simple_universe (to_input img_T) t two_lists new_ctxs ;;
   '(p2, _) <- compute_simple_universe (to_input img_Y) t two_lists new_ctxs ;;
   '(p3, _) <- reduce_complex (to_input img_T) t two_lists p2 new_ctxs ;;
   '(p4, _) <- reduce_complex (to_input img_Y) t two_lists p3 new_ctxs ;;
   '(p5, _) <- reduce_exclusive (to_input img_T) t two_lists p4 new_ctxs ;;
   Ok (map by_row [p1; p2; p3; p4; p5])) =
  Ok (map (fun '(a, b) => [mkpr 0 a; mkpr 1 b]) [(d1, d92); (d92, d1); (d92, d92); (d8464, d92); (d8464, d92)]).
Proof. vm_compute. reflexivity. Qed.
''' % (lit(im[0]), lit(im[1])))

# images
s = src('test_image.cpp')
dumps = [re.findall(r'"(:[^"]*)\\n"', m) for m in s.split('BOOST_CHECK_EQUAL(oss.str(),')[1:4]]
b1 = list(open(T + 'images/image1.pbm', 'rb').read()); b2 = list(open(T + 'images/image2.pnm', 'rb').read())
strs = lambda d: 'flat_map (fun l => str l ++ [10]) [%s]%%string' % '; '.join('"%s"' % x for x in d)
w('(** tests/test_image.cpp, with the files tests/images/image1.pbm and image2.pnm. *)')
w('Definition image1_pbm : list Z := [%s].' % '; '.join(map(str, b1)))
w('Definition image2_pnm : list Z := [%s].' % '; '.join(map(str, b2)))
w('Example test_image : (im <- image_of_bytes image1_pbm 128 ;; show_image im) = Ok (%s) /\\' % strs(dumps[0]))
w('  (im <- image_of_bytes image2_pnm 128 ;; show_image im) = Ok (%s) /\\' % strs(dumps[1]))
w('  (im <- image_of_bytes image2_pnm 128 ;; im <- rotate90 im ;; show_image im) = Ok (%s).' % strs(dumps[2]))
w('Proof. repeat split; vm_compute; reflexivity. Qed.')
rng = re.findall(r'BOOST_CHECK_EQUAL\(s, "([^"]*)"\)', s)
w('''Definition pixels (im : image) (y : Z) : list (res bool) := map (fun x => normal_pixel (idata im) (to_size_t im x y)) (zrange 8).
Definition blocks (im : image) (y h : Z) : list (res bool) := map (fun x => any_pixel (idata im) h (iw im) (to_size_t im x y)) (zrange 8).
Fixpoint alternations_found (n : nat) (im : image) (it last : Z) : res (list bool) :=
  match n with
  | O => Ok []
  | S n => '(b, it) <- next_alternation (normal_pixel (idata im)) it last ;; l <- alternations_found n im it last ;; Ok (b :: l)
  end.
Definition marks (s : string) : list (res bool) := map (fun c => Ok (c =? 120)) (str s).
Example test_ranges : (im <- image_of_bytes image2_pnm 128 ;; Ok (pixels im 5)) = Ok (marks "%s") /\\
  (im <- image_of_bytes image2_pnm 128 ;; Ok (blocks im 5 3)) = Ok (marks "%s") /\\
  (im <- image_of_bytes image2_pnm 128 ;; alternations_found 5 im (to_size_t im 0 5) (to_size_t im 8 5)) = Ok [true; true; true; true; false].
Proof. repeat split; vm_compute; reflexivity. Qed.
''' % tuple(rng))

# boxes
s = src('test_make_box_character.cpp')
body = s[s.index('characters[]{'):s.index('};')]
chars = [re.findall(r'"(:[^"]*)\\n"', c) for c in body.split('\n    ,\n')]
assert len(chars) == 8
data = open(T + 'images/computer.pnm', 'rb').read()
hdr = data.split(b'\n', 3)
assert hdr[0] == b'P6' and hdr[2] == b'255'
W, H = map(int, hdr[1].split()); px = hdr[3]; assert len(px) == 3 * W * H
lum = lambda c: (c[0] * 299 + c[1] * 587 + c[2] * 114) // 1000
pix = [[px[3*(y*W+x):3*(y*W+x)+3] for x in range(W)] for y in range(H)]
ink = [x for x in range(W) for y in range(H) if lum(pix[y][x]) >= 128]
w1 = max(ink) + 3
runs = []
for y in range(H):
    for x in range(w1):
        c = tuple(pix[y][x])
        if runs and runs[-1][0] == c: runs[-1][1] += 1
        else: runs.append([c, 1])
w('(** tests/test_make_box_character.cpp, with the first %d columns of the file\n    tests/images/computer.pnm (there is no ink in the others). *)' % w1)
w('Definition computer_pnm : list Z := str "P6" ++ [10] ++ str "%d %d" ++ [10] ++ str "255" ++ [10] ++\n  flat_map (fun \'(r, g, b, n) => flat_map (fun _ => [r; g; b]) (zrange n)) [%s].' % (w1, H, '; '.join('(%d, %d, %d, %d)' % (c + (n,)) for c, n in runs)))
w('Definition box_dumps : res (list (list Z)) :=\n  im <- image_of_bytes computer_pnm 128 ;; boxes <- segment im ;;\n  map_res (fun b => s <- section im (bx b) (by_ b) (bw b) (bh b) ;; show_image s) boxes.')
w('Example test_make_box_character : box_dumps = Ok [%s].' % ';\n  '.join(strs(c) for c in chars))
w('Proof. vm_compute. reflexivity. Qed.')
OUT = os.path.join(os.path.dirname(os.path.dirname(os.path.abspath(__file__))), 'rocq/theories/Conformance.v')
open(OUT, 'w').write('\n'.join(out) + '\n')
