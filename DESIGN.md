# Design of the formal model of ppocr

## 1. Method

The C++ sources in `/repo/src/ppocr` (and the drivers in `/repo/main`) are read
as text and transcribed, function by function, into total computable Gallina
functions (Coq 8.16.1).  Each area has four kinds of file in `rocq/theories`:

* `*Model.v`  transcription of the code; no proof; each definition cites file and
  lines of `/repo`;
* `*Spec.v`   small independent vocabulary (pixels, paths, runs, words, ...) in
  which the properties are stated, not mentioning the model's helpers;
* `*Proofs.v` lemmas;
* `Prop*.v`   only the property theorems, each closed by `exact <lemma>`,
  followed by `Print Assumptions`, and by an `Example` showing that a concrete
  non-trivial case meets the hypotheses.

### Conventions of the model

* **Outcomes.** A C++ computation is a value of `res A` = `Ok a` | `Throw e` |
  `UB` | `NoFuel`.  `UB` is produced by out-of-bounds reads or writes, division
  by zero, reading uninitialised memory.  `NoFuel` is the explicit "loop did not
  finish" outcome of fuelled loops; theorems always exclude it (they state
  `= Ok ...`), or quantify over all fuels when the claim is divergence.
* **Integers.** `unsigned` values are `Z`; arithmetic that may wrap goes through
  `u32 z = z mod 2^32` (`u64` for `size_t`).  Signed `int` arithmetic is `Z` with
  truncated division (`Z.quot`), overflow of `int` is `UB` where it can occur.
* **Memory.** Arrays are lists, pointers into them are integer offsets, reads are
  `rd` and writes `wr`/`emit` (bounds checked, `UB` otherwise).  Forming (not
  dereferencing) an out-of-range pointer is not tracked.
* **`assert`** is not part of the models (release semantics, the default build); it only restricts behaviour. `AssertModel.v` and `AssertModel2.v` (C90) give the values of the assertions about images, relationships, distances, groups and the assembly of a line.
* **std algorithms.** `std::sort` is *any* function returning a sorted
  permutation (theorems quantify over it: `is_std_sort`); `std::lower_bound` /
  `upper_bound` are the halving loops; `std::map`/`std::set` are sorted
  association lists using the comparator of the code; `std::unique`,
  `remove_if`, `find_if`... are the obvious list functions.
* **Streams.** `std::istream` is a record (rest of the characters, eofbit,
  failbit, skipws); `>>` for unsigned/bool/string/char, `ignore`, `read`,
  `snextc`, the sentry are transcribed from the standard's rules ("C" locale).
* **Floating point.** `double` scores are IEEE-754 binary64 computed with the
  standard library's `SpecFloat` (round to nearest even).
* **Allocation** never fails.

## 2. Properties

`Mod` = what is modelled, `Proof` = how it is proved.

| id | Mod / Proof |
|----|-------------|
| C01 C02 C03 | `image.cpp` rotate90/section/clone as pointer loops; loop invariants give a closed form of the output list, pixel law by index arithmetic; C02 by extensionality of pixels |
| C04 | `image_compare`, `operator==`; case analysis and induction on the first mismatch |
| C05 C06 C07 C08 | `image_from_file.cpp` header parser and the decoders on byte lists, 32-bit wrap of the length checks; induction over rows/pixels; C07/C08 refuted by computed witnesses, guarded versions proved |
| C09 C10 C11 | `make_box_character.cpp` pointer loops and the driver loop; invariants over columns; C11 refuted for the last column and proved for the others |
| C12 | `relationship.hpp`, `interval.hpp`, `equal.hpp`, `array_compare.hpp` with wrap; arithmetic |
| C13-C17 | the strategy `.cpp` files as pointer loops with wrap; sums over pixels as specification; arithmetic for ranges |
| C18 C19 | run counting against an inductive definition of maximal runs |
| C20 C21 | the flood fill with its explicit stack in a shared buffer; invariant: labelled set closed under adjacency except through the stack; specification by paths |
| C22 C23 | value computation and comparison; C23 refuted by a real image, proved under the "no common zero" guard |
| C24 | contexts as a memo table, `Datas::load`; simulation with the memo-free semantics |
| C25 | `cmp_datas`; eq proved, lt refuted as strict weak order |
| C26-C29 | writers as functions to character lists, readers over the stream model; round trip by induction; C29 refuted by a witness, with a characterisation |
| C30 | `utf.hpp` iterators over NUL terminated arrays; per length case analysis; any bytes are read as groups whose sizes the first bytes tell (`DecodeSpec`) |
| C31-C33 | `trie.hpp` (construction with `upper_bound`, BFS flattening), `dictionary.cpp`; induction on total word length / on queue |
| C34-C36 | `word_disambiguouser.hpp`; induction on positions; C36 refuted by witness |
| C37-C42 | `ocr2` recognition core (`compute_image.hpp`) with abstract sorts and binary64 scores; the candidates are described by the features of glyph and picture, the ranking by the order of the scores; C41 refuted where the comparison of zone proportions divides by zero |
| C43-C46 | `glyphs.cpp`/`glyphs.hpp` on files of any bytes: the word table as bytes (little endian, 4-byte `unsigned`; `memcmp` reads only up to the first difference), `words_infos.hpp` |
| C47-C49 | `filter_by_font.cpp`, `filter_by_lines.cpp`: exact results (`C49_lines_partial` gives the lines and the lists); overflow of the histogram refuted by witnesses |
| C50 | map keyed by images; history induction |
| C51 C59 | `disambiguous_with_dict.cpp`: the text of a line; candidate texts are evaluated eagerly in the model (they cannot fail) |
| C52 C60 | `replacement.hpp` with fuel; divergence = out of fuel for every fuel; `length_error` is not modelled; the rule file reader |
| C53 C61 C64 C89 | `main/normalize_glyphs.cpp`; moved-from images are images without data |
| C54 C55 | `reindex.hpp`, `image_context.hpp` (contents of buffers are arbitrary) |
| C56-C58 | reading a file does not depend on the sizes of the reads (C56); what a truncated glyph file gives (C57); what a truncated feature file gives, an empty one being undefined (C58) |
| C62 | `make_trie_dictionary` driver: an `ifstream` that is opened a second time keeps the first file |
| C63 C65 C66 | `main/write_glyphs.cpp`, `main/write_datas.cpp`, accepted dictionary files |
| C67-C70 | composition of write_glyphs, normalize_glyphs, write_datas and ocr2_extract_text through their files; each program's theorem gives the hypotheses of the next |
| C71-C77 | `main/extract_text6.cpp`: bit masks against a description of the rows; double exchange of the images; groups of rows; cache; text; the whole program composed with write_datas; `OcrOutcome.v` and `OcrOutcome2.v` say for arbitrary tables exactly when the recognition and the program have a result |
| C78-C81 | `main/extract_text8.cpp`: the decision among candidates is that of extract_text6 (`OcrProofs.v`, for any candidates with scores in the unit interval; `FloatProofs2.v` for products of ratios); `find_duplicates` is computed exactly, then `std::copy_if`/`std::copy` by an invariant on the positions; the words of each row by an invariant on the merged positions (`Ocr8Outcome.v`) |
| C82-C86 | `main/show_glyphs.cpp`, the arguments of write_glyphs, `operator<<`/`>>`/`==` of images and coordinates: closed form of what is printed, injectivity by peeling lines; `strtoul` on C strings (errno is 0 at the start) |
| C87 C88 | `almost_equal.hpp` on SpecFloat's binary64, `integer_iterator.hpp` for `unsigned` |
| C91 C92 | `horizontal_zone.hpp`; `enum_io.hpp` for underlying type `unsigned`: a variable that `operator>>` does not set has no value |
| C93 | the whole `main` of `ocr2_extract_text.cpp` with its standard output: the disk is a function from names to optional contents; files that are missing or refused |
| C94 | `operator<<` of doubles (`%g` of precision 6) by exact integer arithmetic; the specification is the nearest rational with six digits and the shape of the text |
| C95 | the whole `main` of `extract_text6.cpp` and `extract_text8.cpp` with their standard output (`OcrOut*`): the text of a picture is described from its candidates, and erasing the text gives the models of C71 to C81 |
| C96 | the `main` of `write_datas.cpp`, `normalize_glyphs.cpp` and `make_trie_dictionary.cpp` (`Prog*`): standard output and result, with missing and spoilt files |
| C97 | `write_glyphs`, `normalize_glyphs`, `write_datas` and `ocr2_extract_text` run in a row, each output kept as a file (`Chain*`) |
| C98 | `unique_sort_definitions`: `std::sort` as any legal sort, `std::unique` comparing with the last element kept (`Defs*`) |
| C99 | the readers of glyphs, of pictures with lines of labels and of word lines, on files of any bytes (`GlyphText*`) |
| C100 | the reader of feature tables on files of any bytes, for any list of features (`TableText*`) |
| C101 | the loader of pictures on files of any bytes (`PictureText*`) |
| C102 | every run of the modelled programs ends: a measure for each loop, from the rows and columns of a picture to the bytes left in a file (`Ends*`) |
| C103 | two runs with different sorts and memory print the same: rankings with the same rows, classes and scores are the same up to ties, and the loop over the characters goes in step (`Same*`) |
| C104 | the training programs: normalising has one result whatever the sizes of the images (`full_image`), sorted words are unique, and two loops over the pictures of a file go in step (`SameProofs3`, `PropTrain`) |
| C105 | extract_text6: two orders of the same rows are related by a bijection (`moves`), under which close, kept and final are the same; the rankings are then equal as lists of words and scores (`SameProofs4` to `SameProofs6`, `PropSame6`) |
| C106 | extract_text8: the bijection of C105 for the rows of C78, and the scores of C79 as functions of the glyph (`Same8Spec`, `SameProofs7`, `PropSame8`); refuted by a file that one sort makes readable and another makes undefined, and by the content of moved strings |
| C107 | the chain of C97 with extract_text6 (`Chain6*`): a picture with the tenths of one word only has the score 1 on one row of candidates; refuted for a lesson that C97 reads |
| C108 | ranges (`Range*`): pointers are positions in a buffer, arithmetic outside it is undefined |
| C109 | turned images (`Turn*`): no new model; relations between the features of an image and of its turns |
| C110 | margins (`Margin*`): no new model; relations between the runs of the programs on a picture and on the same one with margins |
| C111 | pictures side by side (`Compose*`): no new model; relations between the runs of the programs on a picture and on its parts |
| C112 | what is learnt (`Teach*`): no new model; relations between runs of write_glyphs, normalize_glyphs and make_trie_dictionary |
| C113 | what more glyphs change (`More*`): no new model; relations between runs of ocr2_extract_text and extract_text6 with fewer and more glyphs |
| C114 | enlarged images (`Scale*`): no new model; relations between the features and the characters of an image and of the same one with blocks for pixels |
| C115 | files that show the same image (`Copy*`): no new model; the files of each format that show an image, and the programs on them |
| C116 | mirrored images (`Mirror*`): no new model; relations between the features of an image and of its mirror images |
| C117 | dictionaries with more words (`MoreWords*`): no new model; relations between the results of the programs with two dictionaries |
| C118 | the luminance (`Lum*`): no new model; relations between the images of a file with two luminances |
| C119 | other files of lines (`MoreLines*`): no new model; two runs of the model of ocr2_extract_text |
| C120 | the set of words (`WordSet*`): no new model; two runs of the model of make_trie_dictionary |
| C121 | the file of features (`FeatSet*`): no new model; two runs of the model of write_datas |
| C122 | glyph files (`Taught*`): no new model; two runs of the models of the reading programs |
| C123 | unknown characters (`Strange*`): no new model; consequences of the exact results of the reading programs |
| C90 | the assertions that a debug build evaluates, as lists of truth values |

`Conformance.v` and `Golden.v` evaluate the models on the unit tests of the
repository and on some of its recorded data.

### Outcomes of the properties

The statements of `properties.jsonl` are what the code is supposed to do.  When the
code does not do it, the theorem about the part that holds is called `..._partial`
and has the full statement in its comment, and a theorem `..._refuted` has a concrete
witness (an image, a file, a table) for which the model of the code does something
else, undefined behaviour included.  The notes of `MANIFEST.json` list them.

## 3. Trusted base

* Coq's kernel (8.16.1) and `coqc`; no axioms of our own.
* Every property theorem is followed by `Print Assumptions`.  All of them are closed
  under the global context; the seven constants of `Coq.ssr.ssrunder` that a listing
  of the loaded libraries shows come from the standard library and are used by none.
* The reading of `/repo`: nothing of it is executed, so the tie between model and code
  is the citation in each definition's comment.

### Validation of the models on the data of the repository

The models were extracted to OCaml once and run on the data files of the repository
(the extraction harness is not part of this directory, which holds no OCaml file).
The results are the recorded files byte for byte:

* learning all the latin fonts and normalising the glyphs gives
  `glyphs/normalized-glyphs-latin.txt` (106296 lines, 3493493 bytes, from about
  126000 learnt glyphs);
* the model of write_datas applied to it gives `datas/latin.txt`;
* likewise for the cyrillic features (1205966 bytes) and the latin and cyrillic ones
  (1559818 bytes).

### Mutation tests

`tools/mutate.py` applies the edits of `seeded/mutants/*.py` to a scratch copy of
the models, one at a time, and rebuilds.  A lemma that no longer goes through is
replaced by an axiom in the copy, and the theorems whose assumptions then mention it
are those that failed.  "caught" in `seeded/LOG.jsonl` means that a theorem of the
claim is among them: its proof no longer goes through.  Mutants that survived led to
tightened theorems (`tightened`), with a second attempt in the log; some edits are
marked as equivalent, or as the correction of a defect, in which case it is the
`_refuted` theorem that must fail.

## 4. Simplifications

* Forming (without dereferencing) pointers out of range is not tracked.
* The buffer of the flood fill (`Zone`) and the image contexts have arbitrary initial
  contents (`junk`), so that no theorem depends on them.
* The contexts shared by the strategies are memo tables; `tb_feature` is the shared
  computation of the top/bottom features.
* Streams: no I/O error in the middle of a file, no conversion of newlines, the "C"
  locale.
* Only what is printed on the standard output is modelled, not the times and the
  messages on the error stream.

## 5. Not modelled

Programs of `main/` that include headers absent from the repository, and therefore
cannot be compiled: `baseline_learning`, `graphic_datas`,
`learning2`, `normalize_learning`, `show_stats`, `stat_definitions`, `tree`; likewise
`read_definitions_file_and_normalize` and `unique_sort_definition` of
`src/ppocr/utils`.  `box` does not compile either (it calls `cbox.w()`, which
`Box` does not have) and no target of the build uses it.  Also `font2png` (drawing of
fonts with an external library) and memory allocation failure.  The code is single threaded.
