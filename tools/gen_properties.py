#!/usr/bin/env python3
# Writes properties.jsonl (one property per line) from the table below.
import json, os
P = []
def p(title, statement, quantifier, why, anchors):
    P.append(dict(id="C%02d" % (len(P)+1), title=title, statement=statement,
                  quantifier=quantifier, why_tests_cant=why, anchors=anchors))
I = "src/ppocr/image/"; S = "src/ppocr/strategies/"; O = "src/ppocr/ocr2/"; L = "src/ppocr/loader2/"

# ---- images -----------------------------------------------------------------
p("rotate90 is the quarter turn",
  "Image::rotate90 never touches memory outside the source or destination, returns an image with width and height exchanged, and pixel (x,y) of the result is pixel (W-1-y, x) of the source.",
  "every image of every size (including empty and one-pixel ones) and every pixel position",
  "unit tests compare a handful of fixed bitmaps; the law must hold for every size, in particular non-square and degenerate ones",
  [I+"image.cpp:Image::rotate90", I+"image.hpp:Image"])
p("Four quarter turns restore the image",
  "Applying rotate90 four times to an image gives back an image equal to it (operator==).",
  "every image",
  "quantifies over all bitmaps of all sizes",
  [I+"image.cpp:Image::rotate90", I+"image.cpp:operator=="])
p("section copies exactly the requested window",
  "For a window lying inside the image, Image::section succeeds, the result has the requested size and pixel (x,y) of the result is pixel (ox+x, oy+y) of the source; section of the whole image (clone) is equal to the image.",
  "every image, every window contained in it",
  "all offsets/sizes: off-by-one at row ends only shows on particular widths",
  [I+"image.cpp:Image::section", I+"image.cpp:Image::clone"])
p("Image comparison is a total order compatible with equality",
  "image_compare is reflexive-zero, antisymmetric in sign and transitive, and returns 0 exactly for equal images; so image ordering is a legal key order for the recognition cache and for sorting, and operator== coincides with it.",
  "every pair/triple of images",
  "transitivity and totality are universally quantified over triples; a violation would corrupt std::map silently",
  ["src/ppocr/utils/image_compare.cpp:image_compare", I+"image.cpp:operator==", O+"cache.hpp"])

# ---- pnm ---------------------------------------------------------------------
p("P6 files decode to the luminance threshold",
  "A binary colour PNM file with a well formed header whose payload has exactly 3*w*h bytes is accepted and pixel k is background exactly when the weighted luminance of byte triple k is below the threshold; any other payload length is rejected with an exception.",
  "every header size, every payload, every threshold",
  "all 2^24 triples times all positions; tests load two pictures",
  [I+"image_from_file.cpp:image_from_file", I+"image_from_file.cpp:PnmHeader"])
p("P4 files decode bit by bit with row padding",
  "A binary bitmap PNM of at least 9 bytes whose width is below 2^31 and whose payload has exactly ceil(w/8)*h bytes is accepted, pixel (x,y) being background exactly when bit 7-(x mod 8) of byte y*ceil(w/8)+x/8 is set; other payload lengths are rejected.",
  "every width (multiple of 8 or not), height and payload",
  "row padding bugs appear only for some widths modulo 8 and some row counts",
  [I+"image_from_file.cpp:image_from_file"])
p("Loading a picture never reads outside the file contents",
  "Decoding a picture file reads only bytes of the file: for every byte string the loader either returns an image or throws. (Holds for bitmap widths below 2^31; fails beyond: signed overflow from 2^31 on, and from 2^32-7 on the wrapped length check lets the decoder read past the file.)",
  "every byte string given as file contents",
  "adversarial headers; tests only use valid files",
  [I+"image_from_file.cpp:image_from_file", I+"image_from_file.cpp:PnmHeader::parse"])
p("Complete ASCII bitmaps are accepted, incomplete ones rejected",
  "An ASCII bitmap with exactly w*h digits is accepted and decodes digit by digit; one with fewer digits is rejected. (The code does the opposite.)",
  "every ASCII payload",
  "no ASCII sample in the tests; the defect concerns every complete file",
  [I+"image_from_file.cpp:image_from_file"])

# ---- boxes -------------------------------------------------------------------
p("A character box is the tight bounding box of a connected column run",
  "Starting a search at column s, the box returned starts at the first column >= s holding ink, spans consecutive columns each 8-adjacent to the next, is followed by a column that is not 8-adjacent to its last one (unless it stops at the last column of the picture), and its first and last rows are the first and last rows with ink inside these columns; no memory outside the picture is read.",
  "every picture, every start column",
  "all bitmaps; adjacency and border effects only show on particular ink layouts",
  ["src/ppocr/box_char/make_box_character.cpp:make_box_character", "src/ppocr/box_char/box.hpp:Box"])
p("Line segmentation terminates with ordered disjoint boxes",
  "Repeating the box search from the end of the previous box stops after at most W boxes; the boxes are non empty, inside the picture, strictly ordered and column-disjoint.",
  "every picture",
  "termination and disjointness are statements about all runs",
  ["main/ocr2_extract_text.cpp:main", "main/write_glyphs.cpp:main", "src/ppocr/box_char/make_box_character.cpp:make_box_character"])
p("Segmentation loses no ink",
  "Every ink pixel of the picture lies in one of the boxes found. (True for every pixel outside the last column; ink of the last column is always lost.)",
  "every picture and every ink pixel",
  "requires looking at every pixel of every picture",
  ["src/ppocr/box_char/make_box_character.cpp:make_box_character", "main/ocr2_extract_text.cpp:main"])

# ---- strategies ----------------------------------------------------------------
p("Similarity of two feature values is a bounded symmetric score",
  "For values not exceeding the declared interval, the interval similarity is between 0 and 100, equals 100 on equal values, is symmetric, and does not increase when the distance grows; the distance filter of the interval relationship answers true exactly for values farther apart than the tolerance.",
  "every pair of values and every interval/tolerance without 32-bit overflow",
  "ranges over all pairs of values",
  [S+"utils/relationship.hpp:compute_relationship", S+"relationship/interval.hpp:interval", S+"relationship/equal.hpp", S+"relationship/array_compare.hpp"])
p("Horizontal direction features measure the top/bottom ink balance",
  "hdirection is floor(200*top/(top+bottom)) (100 without ink) and hdirection2 is floor(100*(half_area+top-bottom)/(2*half_area)) (50 for heights below 2), where top/bottom count ink in the upper/lower half rows, the middle row of odd heights excluded; both stay inside their declared intervals [0,200] and [0,100] and never read outside the image.",
  "every image whose area times 200 fits in 32 bits",
  "all images and parities of height",
  [S+"hdirection.cpp", S+"hdirection2.cpp", S+"utils/horizontal_direction.hpp"])
p("Horizontal gravity features measure the weighted balance",
  "hgravity/hgravity2 use row weights increasing with the distance to the middle; they equal their closed formula, stay in [0,200] and [0,100] and never read outside the image.",
  "every image within the no-overflow bound",
  "all images and sizes",
  [S+"hgravity.cpp", S+"hgravity2.cpp", S+"utils/horizontal_gravity.hpp"])
p("Diagonal features stay in range and in bounds",
  "dvdirection, dvdirection2, dvgravity and dvgravity2 never read outside the image, equal their closed formula over the two diagonal wedges, and stay inside their declared intervals. (The second variants use the upper wedge only: the lower half cancels out of their formula.)",
  "every image within the no-overflow bound",
  "the wedge boundaries use nested integer divisions, correct only if leftmost <= rightmost for every size",
  [S+"dvdirection.cpp", S+"dvdirection2.cpp", S+"dvgravity.cpp", S+"dvgravity2.cpp", S+"utils/diagonal_vertical_direction.hpp", S+"utils/diagonal_vertical_gravity.hpp"])
p("Density and proportion features are percentages",
  "density is floor(100*ink/area), proportionality floor(100*w/(w+h)), both within [0,100] for every non empty image whose area times 100 fits in 32 bits; beyond this bound the result can be wrong.",
  "every non empty image",
  "overflow needs pictures of more than 42 million pixels",
  [S+"density.cpp", S+"proportionality.cpp"])
p("Diagonal zone density is well defined",
  "dzdensity never divides by zero, never reads outside the image, returns 0 under 3x3 and otherwise the floored percentage of ink in the diagonal band, within [0,100].",
  "every image within the no-overflow bound",
  "band limits use truncated signed division; a single size with an empty or inverted band would crash",
  [S+"dzdensity.cpp"])
p("Alternation features count colour runs",
  "Each of the seven alternation entries gives the colour of the first pixel of the scanned line (two rows, the middle column, or the union of the lines of the top, bottom, left or right third) and the number of maximal runs of equal colour along it.",
  "every non empty image",
  "all lines; run counting at the end of line",
  [S+"alternations.cpp", I+"image.hpp:HorizontalRange"])
p("hbar counts full-row bars",
  "hbar is the number of maximal groups of consecutive rows entirely inked.",
  "every non empty image",
  "all row patterns",
  [S+"hbar.cpp"])
p("Zone labelling computes the 4-connected components of the background",
  "count_zone terminates, writes only inside its buffer, and two background pixels get the same label exactly when they are linked by a path of horizontally/vertically adjacent background pixels; labels are 1..k in order of first pixel and ink gets no label.",
  "every image",
  "flood fill correctness and stack bounds quantify over all mazes",
  [S+"utils/count_zone.hpp:count_zone_fn"])
p("Zone border counters are exact",
  "For each zone the four counters are the numbers of pixels of the zone on the top, right, bottom and left borders; the derived numbers of zones touching a border or touching none are exact.",
  "every image",
  "all mazes",
  [S+"utils/count_zone.hpp", S+"zone.cpp"])
p("Zone proportions are sorted percentages",
  "proportionality_zone returns one percentage per zone that touches the border, sorted, each at most 100, without dividing by zero.",
  "every image within the no-overflow bound",
  "all mazes",
  [S+"proportionality_zone.cpp"])
p("Comparing zone proportions is total",
  "Comparing two zone proportion lists returns a score in [0,100] and 100 on identical lists. (Divides by zero when both lists hold a 0 at the same position, which a real image produces; otherwise holds.)",
  "every pair of lists the feature extractor can produce",
  "the crash needs a long thin zone against a tiny one",
  [S+"proportionality_zone.cpp:proportionality_zone::relationship"])
p("Feature extraction is history independent",
  "Loading a sequence of images into a feature set gives for each image the features of that image alone, although intermediate results are cached and shared between strategies.",
  "every sequence of images loaded through the same context",
  "stale cache bugs depend on the history of calls",
  [L+"datas_loader.hpp:Datas", S+"utils/context.hpp:cache_context", "src/ppocr/defined_loader.hpp"])
p("Row comparison of feature sets",
  "eq(i,j) holds exactly when rows i and j agree on every feature; lt is a strict weak order usable for sorting. (eq holds; lt is not a strict weak order.)",
  "every feature table, every pair/triple of rows",
  "order axioms over all triples",
  [L+"datas_loader.hpp:cmp_datas", L+"datas_loader.hpp:Datas"])

# ---- files ---------------------------------------------------------------------
p("Glyph files round-trip",
  "Writing a list of labelled glyphs and reading it back gives the same list and reaches the end of the file, provided labels and font names are non empty and free of white space.",
  "every list of glyphs, every pixel content",
  "all contents; delimiters inside pixels or labels",
  [L+"glyphs_loader.cpp", L+"image_io.cpp", "src/ppocr/utils/read_file.hpp"])
p("Feature files round-trip",
  "Writing a feature table and reading it back gives the same table and reaches the end of the file.",
  "every table",
  "all sizes and values",
  ["src/ppocr/defined_loader.hpp", L+"datas_loader.hpp"])
p("Dictionary files round-trip",
  "Writing a dictionary and reading it back gives the same dictionary and reaches the end of the file.",
  "every dictionary",
  "all tries",
  ["src/ppocr/spell/dictionary.cpp"])
p("Truncated dictionary files are detected",
  "A strict prefix of a dictionary file is rejected by the loader. (Every cut inside a record is accepted silently and can leave child links that point outside the table.)",
  "every dictionary and every cut point",
  "crash points: every prefix of every file",
  ["src/ppocr/spell/dictionary.cpp:operator>>", "src/ppocr/utils/read_file.hpp"])

# ---- spelling ------------------------------------------------------------------
p("Packed UTF-8 decoding is lossless",
  "For well formed UTF-8 text the packed decoder yields one value per character, reads nothing past the terminator, and emitting the values gives back the text; the Unicode decoder yields the code points encoded.",
  "every well formed UTF-8 string",
  "all 1.1 million code points in all sequences",
  ["src/ppocr/utils/utf.hpp", "src/ppocr/spell/word_disambiguouser.hpp:set_c"])
p("The trie holds exactly the words it was built from",
  "Building a trie from a sorted duplicate-free list of non empty words succeeds and following a word from the root ends on a terminal node exactly for the words of the list.",
  "every list of words, every probe word",
  "membership for all probes and all word sets",
  ["src/ppocr/container/trie.hpp:trie"])
p("The flat trie navigates like the trie",
  "The breadth-first array built from a trie accepts exactly the same words when navigated with its relative offsets, and no offset leaves the array.",
  "every trie, every probe word",
  "relative offset arithmetic over all shapes",
  ["src/ppocr/container/trie.hpp:flat_trie"])
p("A dictionary contains exactly its words",
  "A dictionary built from any list of non empty well formed words (duplicates, any order) accepts exactly those words.",
  "every word list, every probe",
  "end-to-end over all inputs",
  ["src/ppocr/spell/dictionary.cpp:Dictionary", "src/ppocr/container/trie.hpp"])
p("Spell disambiguation only outputs dictionary words",
  "When the disambiguation of candidate lists succeeds, the text appended to the output is a word of the dictionary; when it fails, the output is unchanged.",
  "every dictionary, every list of candidate lists, every previous output",
  "backtracking search over all combinations",
  ["src/ppocr/spell/word_disambiguouser.hpp"])
p("Spell disambiguation finds the first spelling",
  "When every candidate is a single character, disambiguation succeeds exactly when some choice of candidates spells a dictionary word, and outputs the first such choice in candidate order.",
  "every dictionary, every list of lists of single characters",
  "exponential number of combinations",
  ["src/ppocr/spell/word_disambiguouser.hpp"])
p("Spell disambiguation handles ligature candidates",
  "The word found is a concatenation of one candidate per position, also when candidates have several characters. (Wrong at the last position: only the first character of the candidate is considered.)",
  "every dictionary, every list of candidate lists",
  "needs a ligature in final position",
  ["src/ppocr/spell/word_disambiguouser.hpp:disambiguous_utf_char"])

# ---- recognition -----------------------------------------------------------------
p("Range queries on a feature column are exact",
  "The range returned for a value v and tolerance d lists exactly the rows whose value is within d of v, each once.",
  "every column, every v and d without overflow",
  "binary search boundaries with duplicates",
  [O+"data_indexes_ordered.hpp", O+"indexes_ordered.hpp"])
p("Same-word index is exact",
  "For each glyph the same-word index lists exactly the other glyphs whose first label is the same word, each once.",
  "every glyph table where each glyph has a label",
  "swap-based construction over all group sizes",
  [O+"data_indexes_by_words.cpp"])
p("View classes identify glyphs with the same words",
  "Two glyphs get the same view class exactly when they carry the same word sequence. (True when the table is already sorted by words; false in general: classes are attributed by sorted rank.)",
  "every glyph table, every pair of glyphs",
  "depends on the global order of the table",
  [O+"views_index_ordered.hpp", O+"glyphs.hpp:LtViews"])
p("Candidate selection is exact",
  "The candidates kept by the simple features are exactly the glyphs whose every simple feature is within one tenth of its range of the image's, each once, and never more than the number of glyphs (the buffer never overflows).",
  "every image, every glyph table",
  "all tables",
  [O+"compute_image.hpp:initialize_universe", O+"compute_image.hpp:reduce_universe_with_distance", O+"probabilities.hpp"])
p("Scores are probabilities and results are ranked",
  "Every score is in [0,1] (never NaN), returned labels come from glyphs of the table, in decreasing score order, and only from glyphs with score at least half the best one.",
  "every image, every glyph table",
  "all tables, floating point",
  [O+"compute_image.hpp:compute_image", O+"sort_probabilities.hpp", O+"insert_views.hpp"])
p("A known image is recognised with score 1",
  "If the features of the image are those of some glyph of the table, the result is non empty and its first label comes from a glyph with score 1.",
  "every table and every glyph of it",
  "all tables",
  [O+"compute_image.hpp:compute_image"])
p("Glyph words resolve to the words of the file",
  "After loading a glyph table, the word stored for each label is the word of the file, labels with the same word share the same word id, and different words have different ids.",
  "every glyph file",
  "all word lengths modulo 4 and all orders",
  [O+"glyphs.cpp", O+"glyphs.hpp:Glyphs"])
p("Word lookup by text is exact",
  "Looking a text up in the word table returns the id of that word, and reports absence otherwise. (Present words are found; absent ones that are a prefix of a stored word are reported present.)",
  "every word table and every text",
  "prefix relations among words",
  [O+"glyphs.hpp:word_index_of"])
p("Stored words are NUL terminated inside their slot",
  "Every stored word is followed by a NUL byte inside the table. (Fails for words whose length is a multiple of 4: the last such word overflows the table by one byte.)",
  "every glyph file",
  "needs a final word of length 4k",
  [O+"glyphs.cpp"])
p("Word-line lookup is exact",
  "The line information returned for a word is one registered for that word, and absence is reported exactly when none is registered.",
  "every table, every word",
  "binary search with duplicates",
  [O+"words_infos.hpp"])
p("Font filtering keeps candidate lists sensible",
  "Font filtering never empties a list, leaves single-candidate lists unchanged, reduces the others only to one of their own candidates, the one with the elected font if present, and the elected font is a most frequent one among single-candidate lists.",
  "every list of candidate lists",
  "all vote distributions and ties",
  [O+"filter_by_font.cpp"])
p("Line filtering removes exactly the inconsistent words",
  "Given a predicate telling which words contradict the line, filtering keeps exactly the candidates whose word does not contradict it when the list has several words. (The second word is kept untested if the first is kept.)",
  "every candidate list grouped by word, every predicate",
  "needs particular sequences of verdicts",
  [O+"filter_by_lines.cpp:filter_line"])
p("Line detection never writes outside its histogram",
  "For every list of boxes the baseline/meanline histogram accesses stay in bounds. (Fails exactly when the first box is lower than all others, including a single box.)",
  "every non empty list of boxes",
  "depends on the order of the boxes",
  [O+"filter_by_lines.cpp:MinMaxBox", O+"filter_by_lines.cpp:filter_by_lines"])
p("The recognition cache is transparent",
  "Looking up and filling the cache by image gives for each character the same candidate list as recognising it afresh.",
  "every sequence of character images",
  "histories of lookups",
  [O+"cache.hpp", "main/ocr2_extract_text.cpp:main"])
p("Text assembly terminates and is exact without dictionary",
  "With an empty dictionary the assembled text is, after the leading run of punctuation/unrecognised characters of the first word, the first candidate of each character, '?' for unrecognised ones, one space per recorded word break; the number of unrecognised ones is the number of '?' added; the assembly loop terminates.",
  "every list of candidate lists, every increasing list of breaks",
  "interleavings of punctuation, unknown characters and breaks",
  [O+"disambiguous_with_dict.cpp"])
p("Replacement rules terminate",
  "Applying the replacement rules to a text terminates and the patterns no longer occur. (Holds for termination when every replacement is shorter than its pattern; diverges e.g. for a pattern that is a prefix of its replacement.)",
  "every text and every rule list",
  "non termination cannot be observed by a test",
  [O+"replacement.hpp:replace_words"])
p("Glyph normalisation merges duplicates without loss",
  "Normalising a glyph list gives strictly increasing distinct images, and the set of (image,label) pairs is unchanged.",
  "every list of glyphs, every legal sort",
  "depends on positions of duplicates",
  ["main/normalize_glyphs.cpp"])
p("Reindexing applies the permutation",
  "Reindexing a container by a list of indexes puts at position k the element formerly at the k-th index.",
  "every container and permutation",
  "all permutations",
  ["src/ppocr/utils/reindex.hpp"])
p("Image buffers of the recogniser do not overlap",
  "For every history of images given to the recognition context, the image and its rotation are stored in disjoint parts of a large enough buffer and the rotated view is the quarter turn of the current image.",
  "every sequence of images",
  "buffer reuse depends on history",
  [O+"image_context.hpp"])
p("Reading a file does not depend on the read sizes",
  "Reading a whole file returns its exact contents whatever the sizes of the partial reads the system delivers, and fails only if the system reports an error or an early end of file.",
  "every file contents and every schedule of short reads",
  "the schedule of short reads is chosen by the system, not by the test",
  [I+"image_from_file.cpp:image_from_file"])
p("A truncated glyph file gives only glyphs of the file",
  "Loading any truncation of a glyph file gives, without an error, the glyphs completely written before the cut, possibly followed by the glyph in which the cut falls with its exact image, words and fonts (only the ignored line number of its last label may differ).",
  "every list of glyphs and every cut point of its file",
  "crash points: every prefix of every file",
  [L+"glyphs_loader.cpp", L+"image_io.cpp", "src/ppocr/utils/read_file.hpp"])
p("A truncated feature file is detected",
  "Loading a strict prefix of a feature file fails or gives a table whose columns all have the same height. (False: every truncation is accepted; the columns completely written are intact and every later column but one or two is empty, so indexing rows of the table reads out of bounds.)",
  "every table and every cut point of its file",
  "crash points: every prefix of every file",
  ["src/ppocr/defined_loader.hpp:operator>>", "src/ppocr/utils/read_file.hpp"])
p("Every unrecognised character is shown and counted",
  "The text assembled for a line shows each unrecognised character as '?', and the number returned with it is the number of unrecognised characters of the line. (Those at the beginning of the line are silently dropped.)",
  "every list of candidate lists, every increasing list of breaks",
  "depends on where the unrecognised characters are",
  [O+"disambiguous_with_dict.cpp"])
p("A file of replacement rules is read as written",
  "Reading a file of one rule per line, a pattern and an optional replacement separated by a space, gives the rules of the lines in order. (Without the last end of line a pattern gets the replacement of the previous rule; a space or carriage return after a pattern shifts or loses rules.)",
  "every list of rules of visible characters",
  "depends on the separators after each word",
  [O+"replacement.hpp", O+"replacement.cpp"])
p("Normalised glyphs have distinct labels",
  "After normalisation the labels of every glyph are in strictly increasing order, hence distinct. (The glyphs before the first repeated image keep their labels as they were.)",
  "every list of glyphs, every legal sort",
  "depends on the position of the first repeated image",
  ["main/normalize_glyphs.cpp"])

p("A dictionary contains the words of its files",
  "The dictionary printed by the dictionary program can be loaded, and contains exactly the lines of the files given. (Only the first file that can be opened is read: the stream is not closed before the next; an empty line is read out of bounds.)",
  "every list of files of well formed UTF-8 lines",
  "depends on the number of files and on which can be opened",
  ["main/make_trie_dictionary.cpp"])
p("Learning labels each character with the word of the same rank",
  "Learning a line prints, for each character box from left to right, a glyph with exactly the pixels of the box and the word of the same rank of the text file; it succeeds if and only if there are as many boxes as words.",
  "every image, text and font",
  "all images and texts",
  ["main/write_glyphs.cpp"])
p("Normalising glyph files keeps every label",
  "Normalising a list of glyph files prints a glyph file that can be read, whose images are distinct and in increasing order, and whose images and (image, label) pairs are exactly those of the files.",
  "every list of glyph files, every legal sort",
  "all lists of files and all legal sorts",
  ["main/normalize_glyphs.cpp"])
p("The feature table has the features of glyph i in row i",
  "The feature file printed for a glyph file can be loaded, has one row per glyph, and row i holds the features of the image of glyph i computed on its own, whatever the contents of the reused buffers.",
  "every list of glyphs whose images are small enough for no feature to overflow",
  "all images; contents of reused buffers",
  ["main/write_datas.cpp", L+"datas_loader.hpp"])

p("Only dictionary records are accepted",
  "A dictionary file is accepted if and only if it is a sequence of records, each made of three numbers below 2^32 and a flag separated by single spaces and ended by a newline, possibly followed by a record cut before its end; the nodes are then those of the records. In particular a wrong separator, an overflowing number or a wrong flag is refused.",
  "every sequence of bytes",
  "all files, well formed or not",
  ["src/ppocr/spell/dictionary.cpp:operator>>", "src/ppocr/utils/read_file.hpp"])

p("A line that was learnt is read back",
  "After learning lines, normalising the glyphs and computing their features, the extraction program prints the text of each of the lines, with a blank for each gap, and no unknown character, whatever the legal sorts, the contents of the buffers, and with or without a dictionary and word lines. (Refuted for pictures that the features do not tell apart, for a first character lower than all others, and for a gap after leading marks.)",
  "every list of lessons (image, text, font), every image made of their characters, every legal sort",
  "all images, and the composition of four programs through three file formats",
  ["main/write_glyphs.cpp", "main/normalize_glyphs.cpp", "main/write_datas.cpp", "main/ocr2_extract_text.cpp"])

p("The rate printed is the percentage of unrecognised characters",
  "The rate printed after the text is 100 times the number of unrecognised characters divided by the number of characters. (False: the divisor is 1 unless the line is empty, and then 0, so that 100 times the number is printed, or not-a-number.)",
  "every number of characters and of unrecognised characters",
  "floating-point rounding for all pairs of numbers",
  ["main/ocr2_extract_text.cpp"])
p("Every image is read with the words of near glyphs",
  "With a glyph file and the features written from it, the extraction program ends on every image and prints a text in which each character is one of the words of glyphs near its picture (every simple feature within a tenth of its range) or unknown, and a picture that resembles a glyph is not unknown. (Refuted: a division by zero for pictures that have no row of score 1, an out of bounds write for a line of one dot, and nothing printed for a line of unknown characters.)",
  "every image, every glyph file, every legal sort, with or without word lines and dictionary",
  "all images, including those that were not learnt",
  ["main/ocr2_extract_text.cpp"])
p("Features of other glyphs are refused",
  "The extraction program refuses a feature file that was not written from the glyph file. (Proved when they have different sizes; files of the same size are accepted, and words are exchanged.)",
  "every pair of glyph files",
  "all pairs of files",
  ["main/ocr2_extract_text.cpp"])

X6 = ["main/extract_text6.cpp"]
p("The bit masks of extract_text6 select the rows in the same tenths",
  "The candidates found with the bit masks are exactly the rows whose first feature is at two tenths at most from that of the picture and whose other simple features are in the same tenths, once each and in the order of the rows; the score of a candidate is 1 when its first feature is in the same tenth, and 0 otherwise. No mask or counter is accessed out of bounds. (Refuted for feature files whose first feature is 210 or more: the counters are written out of bounds.)",
  "every table of features in range and every picture whose features are in range",
  "all tables, masks that straddle words of 64 bits",
  X6)
p("extract_text6 computes the features of a character as those of the glyphs",
  "Each feature of a character is computed from the image or from its quarter turn as the feature of the same column was, so that a glyph that was learnt is read as itself. (False: the two images are exchanged twice, so that every feature is computed from the image that is not turned; proved for the glyphs whose tenths the turn does not change.)",
  "every image, every table",
  "all images",
  X6 + [L+"datas_loader.hpp:loader2"])
p("make_data_by_word gives the rows with the same first word",
  "The list made for a row contains exactly the other rows whose first word is the same, once each. (Refuted for glyphs without labels, for which the first element of an empty vector is read.)",
  "every list of labelled glyphs",
  "all lists of words; the last row of each group is handled apart",
  X6 + ["main/extract_text6.cpp:make_data_by_word"])
p("extract_text6 reads the characters of a line in order, with a cache",
  "The characters of the line are recognised from left to right, a break is added where more than four columns are empty, and a picture that comes again has the words it had the first time. (False for unrecognised pictures: a question mark the first time, then the character _.)",
  "every image whose characters are small, every sound table",
  "all images; the cache across characters",
  X6)
p("extract_text6 prints the text of the line, each word in its spelling",
  "The third result is the text of the candidates, in which each group of characters between marks is replaced by its spelling if the dictionary has one. (False: the marks and the unknown characters at the beginning of the line are left out; proved for the line without them.)",
  "every list of candidates, every dictionary",
  "all lists",
  X6)
p("extract_text6 reads every image with the words of near glyphs",
  "With a glyph file and the features written from it, extract_text6 ends on every image, the words it gives to a picture are those of glyphs near it (the first feature at two tenths, the others in the same tenth), among them all those of the glyphs in the same tenths, and it prints the text of these words. (Proved when the zone proportions can be compared.)",
  "every glyph file, every image, every legal sort, with or without a dictionary",
  "all images, and the composition of two programs through two file formats",
  X6 + ["main/write_datas.cpp"])
p("extract_text6 keeps the rows in the same tenths, or those that resemble the picture",
  "The words of a picture are those of the rows in the same tenths if there are any; otherwise those of the candidates that resemble the picture by half for each complex feature, and whose word is on no other row, or on one that resembles the picture by half; otherwise the picture is unknown. Rows with the same words count once. (Refuted: a division by zero when two zone proportions are 0.)",
  "every sound table and every small picture",
  "all tables and pictures, floating-point scores",
  X6)

X8 = ["main/extract_text8.cpp"]
p("extract_text8 merges the glyphs that have the same features",
  "When the tables are loaded, glyphs with the same features are replaced by one of them with the words of all, and the other glyphs keep their features and words. (False: it is the glyphs whose features are not those of the first that are taken for repetitions; with one of them, or three or more, and so with every file with four different glyphs, the program writes out of its buffers; with two, the words are wrong. Proved when all the glyphs have the same features.)",
  "every glyph file with the features written from it, every legal sort, whatever is left in moved strings",
  "all files; the undefined behaviour is proved for all files with four different glyphs",
  X8 + ["src/ppocr/utils/reindex.hpp"])
p("extract_text8 keeps the rows at a tenth of the range of each feature, with their scores",
  "The candidates for a picture are exactly the rows whose simple features are all at a tenth of their range at most from those of the picture, once each and in order; the score of a candidate is the floating-point product of the similarities of the features, it is between 0 and 1, and it is 1 exactly when all the simple features are the same.",
  "every table and every small picture",
  "all tables and pictures, floating-point rounding in the product of twenty factors",
  X8)
p("extract_text8 recognises every picture as specified from its candidates",
  "The words of a picture are those of the candidates of score 1 if there are any, otherwise those of the best candidates that resemble the picture by half for each complex feature; the words of a row that has the simple features of the picture are always among them. (Refuted: a division by zero when two zone proportions are 0.)",
  "every sound table and every small picture",
  "all tables and pictures",
  X8)
p("extract_text8 reads every image with the words of near glyphs",
  "With a glyph file and the features written from it, extract_text8 ends on every image, the words it gives to a picture are those of glyphs near it, among them those of the glyphs with the same simple features, and it prints the text of these words. (Proved when the glyphs have the same features; whenever the tables are built, the text is that of the specified recognition with these tables.)",
  "every glyph file, every image, every legal sort, with or without a dictionary",
  "all images, and the composition of two programs through two file formats",
  X8 + ["main/write_datas.cpp"])

SHOW = ["main/show_glyphs.cpp", "src/ppocr/image/image.cpp"]
p("show_glyphs shows every character of its pictures, in order and in full",
  "For the files of its arguments, show_glyphs prints one frame for every character box of every picture, from left to right, with exactly the pixels of the box; the text printed determines the list of the pictures. It stops at the first file that cannot be loaded, after the frames of the files before it.",
  "every list of files, every picture whose offsets do not wrap",
  "all pictures and sizes; injectivity of the display",
  SHOW + ["src/ppocr/box_char/make_box_character.cpp"])
p("The option -l of the programs takes a number",
  "show_glyphs and write_glyphs use the number given after -l as luminance, and refuse any other text. (Refuted: the number is reduced modulo 2^32, so that 4294967296 and -1 are accepted and give another luminance; without files, the option itself is taken for a file.)",
  "every text of the option, every list of arguments",
  "all texts, including blanks, signs and numbers out of range",
  ["main/show_glyphs.cpp", "main/write_glyphs.cpp"])
p("write_glyphs learns all the images of its arguments",
  "With arguments image, text, font, image, text, font..., write_glyphs prints the glyphs of all the images, each labelled with the word of the same rank in its text and with its font, decoded with the luminance of the option or 128; a number of arguments that is not a positive multiple of 3 is refused.",
  "every list of triples of files",
  "all argument lists and files; composition of the decoder, the segmentation and the text reader",
  ["main/write_glyphs.cpp", "src/ppocr/image/image_from_file.cpp"])
p("Coordinates and boxes that are printed are read back",
  "Reading with operator>> an Index or Bounds printed by operator<< gives it back, wherever it is in a stream, and a printed Box is its index followed by its bounds; a reading that fails leaves the variable unchanged.",
  "every coordinates of 32 bits, every text after them, every stream",
  "all 2^64 pairs and all streams",
  ["src/ppocr/image/coordinate.cpp", "src/ppocr/box_char/box.cpp"])
p("Coordinates and boxes are equal when they are the same",
  "operator== of Index, Bounds and Box holds exactly between equal values. (Refuted for Box: the position is ignored, two different characters of the same size in one line are equal.)",
  "every pair of values",
  "all pairs of boxes",
  ["src/ppocr/box_char/box.hpp", "src/ppocr/image/coordinate.hpp"])
p("almost_equal accepts exactly the close numbers",
  "almost_equal(x, y, ulp) holds exactly when the two doubles are equal or differ by at most ulp units in the last place; it does not depend on the order of the two. (Symmetry, equal and neighbouring finite numbers proved; refuted: x+y may overflow, then DBL_MAX and DBL_MAX/2 are almost equal; infinity is not almost equal to itself; the tolerance is up to 3 units for 1.)",
  "every pair of doubles and every ulp",
  "2^128 pairs; the overflow is in the last binade",
  ["src/ppocr/math/almost_equal.hpp"])
p("integer_iterator behaves as the number it holds",
  "Iterators over integers are compared, moved and subtracted as their numbers, and a vector made from a range has the numbers of the range. (Refuted: operator<= is <, so an iterator is not <= itself, and the distance to a greater iterator is reduced modulo 2^32 instead of being negative; the vectors of indexes made by the reading programs are exact.)",
  "every pair of unsigned numbers",
  "all 2^64 pairs",
  ["src/ppocr/utils/integer_iterator.hpp", "main/extract_text6.cpp", "main/extract_text8.cpp"])
p("Normalising glyphs gives one result, and twice is once",
  "The glyphs that normalize_glyphs makes from a list of glyphs do not depend on the order of the list (hence of the files of its arguments), nor on the order in which std::sort leaves equal elements; normalising them again changes nothing.",
  "every list of glyphs, every permutation of it, every legal std::sort",
  "all permutations and all behaviours of an unstable sort",
  ["main/normalize_glyphs.cpp"])
p("No assertion of the code is ever false",
  "In a build with assertions, cutting an image into boxes, cloning it, computing its features, comparing feature values of their interval, grouping the glyphs of extract_text6, and assembling a line with a dictionary evaluate only true assertions. (Refuted for images of one row without ink in the last column: the search of the next character evaluates image.data at the end of the image; clone() of an image without pixels.)",
  "every image and feature value; the end of a line is reached by every program",
  "all images; the failing ones have one row",
  ["src/ppocr/image/image.hpp", "src/ppocr/image/image.cpp", "src/ppocr/box_char/make_box_character.cpp", "src/ppocr/strategies/utils/relationship.hpp", "main/extract_text6.cpp", "src/ppocr/ocr2/disambiguous_with_dict.cpp", "src/ppocr/loader2/datas_loader.hpp"])
p("The zone of a balance grows with the balance",
  "horizontal_zone_1_2_3_4_5 gives 3 when the top and bottom sums differ by at most a quarter of the height, 4 or 2 when they differ by at most the height, and 5 or 1 beyond; it is from 1 to 5, monotone in the difference, and exchanging the sums exchanges z and 6 - z.",
  "every height and every pair of sums of 32 bits",
  "all 2^64 pairs; unsigned subtraction in both directions",
  ["src/ppocr/strategies/utils/horizontal_zone.hpp"])
p("Enumerations that are written are read back",
  "Reading with read_enum a value written by write_enum gives it back, and reading is defined for every stream. (Refuted at the end of a stream or on a failed one: the variable that operator>> has not set is read.)",
  "every value of the underlying type unsigned, every stream",
  "all streams and states",
  ["src/ppocr/utils/enum_io.hpp"])
p("The recognition program prints each picture once, then the text",
  "A run of ocr2_extract_text that ends well prints the sizes of its tables, then once for each different picture of a character, in the order of the line, the picture in a frame followed by the words of its candidates, then the text with the counts and the rate in six digits; when a file is refused or missing only the lines before it are printed, and with less than three arguments nothing is.",
  "every disk and argument list, every legal std::sort",
  "all lines; repeated and unknown characters, optional files",
  ["main/ocr2_extract_text.cpp", "src/ppocr/image/image.cpp"])
p("The numbers printed are the numbers rounded to six digits",
  "A double written to a stream with its default format is printed as the number with six significant digits that is nearest to it, to even when there are two, without useless zeros, with an exponent below 0.0001 and from a million; the text is determined by the number, numbers with six digits are exact, the order is kept and the error is at most a two hundred thousandth.",
  "every finite double of binary64, the subnormal ones included",
  "all 2^64 doubles, ties and carries",
  ["main/extract_text6.cpp", "main/extract_text8.cpp", "main/ocr2_extract_text.cpp"])

p("extract_text6 and extract_text8 print the candidates of each picture",
  "A run of extract_text6 or extract_text8 that ends well prints its steps with the sizes of its tables, then once for each different picture, in the order of the line, the picture in a frame and its candidates: one list, or a second one when no score is 1, each with the greatest score, the words that have it, and the other words with their scores in decreasing order, every list of words once; then the three results. When a file is refused or missing only the lines before it are printed, and with less than three arguments nothing is.",
  "every disk and argument list, every legal std::sort, every table of features",
  "all lines and tables; equal scores, repeated pictures, pictures without candidate",
  ["main/extract_text6.cpp", "main/extract_text8.cpp"])
p("The training programs print a table exactly when their files are complete",
  "write_datas, normalize_glyphs and make_trie_dictionary print their table and end with 0 when their files are complete; when a file is missing or is not complete they print no table and end with another code: 1 for wrong arguments, 2 for a missing file, 5 for a file with something else, whose rest write_datas prints in brackets. (Refuted: make_trie_dictionary ends with 0 and prints an empty dictionary when no file can be opened; a glyph file cut in the labels of its last glyph is taken as complete, and write_datas keeps a row for the glyph that normalize_glyphs drops.)",
  "every disk and argument list, every list of glyphs, every text after it",
  "all files; blanks, texts and cuts after the glyphs",
  ["main/write_datas.cpp", "main/normalize_glyphs.cpp", "main/make_trie_dictionary.cpp"])
p("Images that are learnt are read by the four programs in a row",
  "When images and texts are learnt with write_glyphs and its output goes through normalize_glyphs and write_datas, every program ends with 0, and ocr2_extract_text with these files prints the text of each image that was learnt, each different picture with its word, no unknown character, and the number of different pictures as the sizes of the tables. (Refuted when the images are learnt with another luminance than 128, the only one that ocr2_extract_text uses.)",
  "every disk, list of lessons and legal std::sort; the files of write_glyphs with any luminance",
  "all lessons whose pictures determine their words; repeated lessons, options",
  ["main/write_glyphs.cpp", "main/normalize_glyphs.cpp", "main/write_datas.cpp", "main/ocr2_extract_text.cpp"])
p("Definitions are sorted and made unique",
  "unique_sort_definitions puts the definitions in strictly increasing order of character, font and picture: each one that is kept was given, each one given has one with the same character, font and picture among those kept, and no two of those kept are alike. When definitions that are alike have the same features the result does not depend on how std::sort orders equivalent elements.",
  "every list of definitions with images of any sizes and any legal std::sort",
  "all lists; repetitions, any order, features of any type",
  ["src/ppocr/utils/unique_sort_definition.cpp:27-60", "src/ppocr/utils/image_compare.cpp:26-46"])

p("A glyph file of any bytes is read as the glyphs written in it",
  "Whatever its bytes, a glyph file is read by the training programs as the glyphs written in it up to the first thing that is not one, and it is accepted exactly when what stops the reading is the end of the file; each picture has width times height pixels. normalize_glyphs then normalizes the glyphs of all its files or ends with the code of the first one missing or refused, write_datas writes the features of the pictures, and a file of word lines is read as the words followed by four numbers. (Refuted for the pixels: the number of pixels is the product modulo 2^32; refuted for write_datas on a picture without size: its features divide by zero.)",
  "every list of bytes, every disk and list of names, any sort",
  "all bytes; cut files, numbers too large or negative, missing words, unexpected characters",
  ["src/ppocr/loader2/glyphs_loader.cpp", "src/ppocr/loader2/image_io.cpp", "main/write_datas.cpp", "main/normalize_glyphs.cpp", "src/ppocr/ocr2/word_lines.cpp:24-52"])

p("A feature file of any bytes is read as the values written in it",
  "Whatever its bytes, a feature file that is not blank is read as the numbers written in it, up to the first thing that is not one, and it is accepted exactly when what stops the reading is the end of the file. A file with all the values that it announces and nothing else is accepted and gives a complete table; otherwise the values missing in the column where the reading stops are zeros, and the columns after it are empty. The values are always those of the type of their feature. Loading a blank file is undefined behaviour.",
  "every list of bytes and every list of features",
  "all bytes; cut files, numbers too large or negative, unexpected characters, blank files",
  ["src/ppocr/defined_loader.hpp:198-263", "src/ppocr/strategies/alternations.cpp:82-84", "src/ppocr/utils/read_file.hpp"])

p("A picture file of any bytes is read as the picture written in it",
  "Whatever its bytes, a picture file is read as what its header and its data say: the picture of a map of colours or of bits when the data have the length that the header announces, the digits 0 and 1 of a written map when they are fewer than announced, and otherwise one definite exception for each fault - no header, a size of zero or of 2^32 pixels or more, a wrong length, a wrong character, an unsupported type. The type, the size and the data are unique. The luminance matters only for maps of colours, a greater one never adds ink, 0 gives only ink and 256 none. Loading is undefined behaviour exactly for a bitmap of one row of at least 2^31 pixels whose length agrees modulo 2^32.",
  "every list of bytes and every luminance",
  "all bytes; complete, cut and too long files of each type, comments, sizes that wrap",
  ["src/ppocr/image/image_from_file.cpp:111-190", "src/ppocr/image/image_from_file.cpp:196-299"])

p("Every run of the programs ends",
  "No program goes on for ever: whatever the arguments and whatever the files, show_glyphs, write_glyphs, normalize_glyphs, write_datas, make_trie_dictionary and the three programs that read a line of text come to an end, with a result, an exception or undefined behaviour, and every loop of the model stops within the number of rounds that is written at its head. The same holds of the extraction of the features of one picture of any size.",
  "every list of arguments and every disk (files of bytes, less than 2^32 of them, where a picture or a dictionary is read); every sorting function",
  "all disks and arguments; well formed, cut and foreign files, empty pictures, sizes that wrap modulo 2^32",
  ["main/show_glyphs.cpp", "main/write_glyphs.cpp", "main/write_datas.cpp", "main/normalize_glyphs.cpp", "main/make_trie_dictionary.cpp", "main/ocr2_extract_text.cpp", "main/extract_text6.cpp", "main/extract_text8.cpp", "src/ppocr/box_char/make_box_character.cpp", "src/ppocr/strategies/dvdirection.cpp", "src/ppocr/strategies/zone.cpp"])

p("What ocr2_extract_text prints depends on its files only, unless glyphs tie",
  "The order in which std::sort leaves equivalent elements, the content of fresh memory and the contexts of the features cannot be seen in what ocr2_extract_text prints, nor in how it ends: two runs on the same arguments and the same files print the same bytes, when glyphs of equal scores have equal labels and no word has two entries in the file of lines. The features of a picture never depend on the sort. (Refuted without these conditions: a picture learnt with two words is read as one or the other word according to the sort, and so is a word with two entries of lines.)",
  "every pair of legal runtimes, every disk and arguments; when all files are loaded, a feature file with a value for each glyph, and characters whose features do not overflow",
  "all files and all sorts; missing and refused files, pictures with one candidate, with several, with none, division by zero in the comparison of zones",
  ["main/ocr2_extract_text.cpp", "src/ppocr/ocr2/compute_image.hpp", "src/ppocr/ocr2/sort_probabilities.hpp", "src/ppocr/ocr2/words_infos.hpp", "src/ppocr/strategies/proportionality_zone.cpp"])

p("What the training programs print depends on their files only",
  "The order in which std::sort leaves equivalent elements, the content of fresh memory and the contexts of the features cannot be seen in what normalize_glyphs, make_trie_dictionary and write_datas print, nor in how they end: two runs on the same arguments and the same files print the same bytes, whether the files are well formed, cut, missing or foreign.",
  "every pair of legal sorts, every disk and arguments; for write_datas, any fresh memory and a file whose pictures have fewer than 2^30 pixels each (none included)",
  "all files and all sorts; repeated pictures and words, pictures without pixels, sizes that wrap modulo 2^32",
  ["main/normalize_glyphs.cpp", "main/make_trie_dictionary.cpp", "main/write_datas.cpp", "src/ppocr/loader2/datas_loader.hpp", "src/ppocr/strategies/proportionality_zone.cpp"])

p("What extract_text6 prints depends on its files only, unless glyphs tie",
  "With the glyphs and the features that the training programs write, the order in which std::sort leaves equivalent elements and the content of fresh memory cannot be seen in what extract_text6 does: two runs on the same files have the same three results when, for each picture of the line, the glyphs with its tenths have the same words or, if there is none, the glyphs near it have the same words; and they print the same bytes when near glyphs with equal scores have the same words. Files that are refused give the same output in all runs. (Refuted without these conditions: a picture learnt with two words is read as one or the other word according to the sort.)",
  "every pair of legal runtimes, every trainable list of glyphs, every readable line, every dictionary and every place of the files",
  "all lines and all sorts; pictures with one candidate, with several, with none, refused and missing files",
  ["main/extract_text6.cpp:172-239", "main/extract_text6.cpp:568-688", "main/extract_text6.cpp:732-883"])

p("What extract_text8 prints depends on its files only, unless glyphs differ or tie",
  "With the glyphs and the features that the training programs write, the order in which std::sort leaves equivalent elements, the content of fresh memory and that of the strings that were moved cannot be seen in what extract_text8 prints, nor in its results: two runs on the same files are the same, when all the glyphs have the same features and those near a picture with a score in common have the same words. A single picture is recognised in the same way whatever the order of the rows, for any glyphs without such ties. Files that are refused give the same output in all runs. (Refuted in general: for one file of three glyphs the program reads the line with one sort and goes out of its buffers with another; the content of moved strings is printed; and a picture learnt with two words is read as one or the other.)",
  "every pair of legal runtimes, every trainable list of glyphs without two that differ, every readable line, every dictionary and every place of the files",
  "all lines and all sorts; pictures with one candidate, with several, with none, glyphs with the same first feature, moved strings that are empty or keep their content",
  ["main/extract_text8.cpp:615-680", "main/extract_text8.cpp"])

p("Images that are learnt are read by extract_text6 after the training programs",
  "When images and texts are learnt with write_glyphs and its output goes through normalize_glyphs and write_datas, every program ends with 0, and extract_text6 with these files prints the text of each image that was learnt in its three results, and below each different picture its word with the score 1. More generally a picture whose simple features have the tenths of glyphs of one word only is printed with this word. (Refuted for images whose characters change their tenths when they are turned, such as all those that are higher than wide: the image of C97 that ocr2_extract_text reads gives two unknown characters, since extract_text6 does not turn the pictures that it reads.)",
  "all lists of images and texts, all legal sorts and runtimes, every place of the files, every dictionary",
  "all lines; repeated pictures, words that are repeated, glyphs near a picture with a null score, images with another luminance",
  ["main/write_glyphs.cpp", "main/normalize_glyphs.cpp", "main/write_datas.cpp", "main/extract_text6.cpp:690-883"])

p("A range shows the proxies of the cells between its two positions",
  "The values of a loop over a range_iterator are the proxies of the cells between its two pointers, in order; size, empty, operator[], front and back agree with that list. With pointers in the wrong order, or a last one outside the buffer, the loop is undefined. An iterator of a range applies the proxy, whereas the iterators that its operators ++ and + return give the cells themselves. The range that the ordered indexes give, for any value and any distance, is well placed and goes through the rows of get_range.",
  "all buffers, positions and proxies, every legal std::sort of the indexes, every value and distance",
  "all positions and proxies; empty ranges, whole buffers, crossed positions, sums that wrap modulo 2^32",
  ["src/ppocr/utils/range_iterator.hpp", "src/ppocr/ocr2/indexes_ordered.hpp:56-75", "src/ppocr/ocr2/data_indexes_ordered.hpp:42-50"])

p("The features of a turned image follow the turn",
  "When an image is turned by half a turn (rotate90 twice) its density, its proportion, its diagonal density and its number of bars do not change; each top/bottom balance becomes its opposite, up to one unit lost in rounding; the lines of the alternations are those seen from the other ends; the corners are exchanged, the zones of the top with those of the bottom and those of the right with those of the left, and the zones that touch no side are as many. A quarter turn keeps the density, the numbers of zones that touch a side (which turn with the image) or none, and the number of zone proportions, and exchanges the sizes in the proportion. (Refuted for dvdirection2 and dvgravity2, which ignore the lower wedge, for the values of the zone proportions, and for the two rows and the column of the alternations when the height is not 2 modulo 3 or the width is even.)",
  "all images with 100 * w * h * (w + h) below 2^31, whatever the zone contexts hold",
  "all images of any sizes; odd and even heights and widths, blank and full images, images of one row or one column",
  ["src/ppocr/image/image.cpp", "src/ppocr/strategies/hdirection.cpp", "src/ppocr/strategies/hgravity.cpp", "src/ppocr/strategies/dvdirection.cpp", "src/ppocr/strategies/dvgravity2.cpp", "src/ppocr/strategies/alternations.cpp:29-76", "src/ppocr/strategies/zone.cpp", "src/ppocr/strategies/proportionality_zone.cpp:28-60", "src/ppocr/strategies/hbar.cpp", "src/ppocr/strategies/dzdensity.cpp"])

p("The margins of a picture change nothing",
  "When blank columns and rows are added around the picture of a line (whose last column is blank), the characters found are the same ones, moved; write_glyphs and show_glyphs print the same; extract_text6 and extract_text8 print the same, character by character and result by result, and end in the same way. So does ocr2_extract_text when the first character starts more than 4 columns from the left side in both pictures or in none, or is neither a mark nor unknown, and the line is not a single character one row high in the second row. (Refuted otherwise: an unknown first character is printed and counted only after a wide left margin; a single character one row high is read in the first row and makes the program write outside of its buffer in the second one.)",
  "all images, all margins for which w * h + w is below 2^32, all glyph, feature, line and dictionary files, all legal sorts",
  "all images and all margins, compared two by two; a first character that is unknown, a mark or a letter; lines of no, one or several characters",
  ["src/ppocr/box_char/make_box_character.cpp:26-103", "main/ocr2_extract_text.cpp:107-197", "src/ppocr/ocr2/filter_by_lines.cpp:74-183", "src/ppocr/ocr2/disambiguous_with_dict.cpp:44-213", "main/write_glyphs.cpp:53-93", "main/show_glyphs.cpp:31-43"])

p("Pictures side by side are learnt and read one after the other",
  "In a picture made of pictures side by side (whose last columns are blank), the characters found are those of these pictures, in order, moved. write_glyphs, with the texts one after the other, prints what it prints for each; so does show_glyphs. In ocr2_extract_text the candidates of the characters, before the filters, are those they have in the parts. The words that extract_text6 and extract_text8 give are those of the parts, and the text is theirs with blanks between when the parts are four columns apart, all their words are known and none begins with a mark. (Refuted otherwise: ocr2_extract_text chooses one font for the whole line, so that a part may be read in another way; an unknown character is a question mark the first time and an underscore the next; ink in the last column of a part is lost there only; a word too many in one text and one too few in the next are refused apart and accepted together.)",
  "all images and all numbers of parts, for which w * h + w is below 2^32; all texts; all trained glyph and feature files; all legal sorts; with or without a dictionary for extract_text6, without for extract_text8",
  "all images put side by side, two runs compared; no part, one, several; parts with no character; parts at different heights; parts that touch, are close or apart; the same picture in several parts; unknown characters and marks",
  ["src/ppocr/box_char/make_box_character.cpp:26-103", "main/write_glyphs.cpp:53-93", "main/show_glyphs.cpp:31-43", "main/ocr2_extract_text.cpp:107-197", "main/extract_text6.cpp:792-872", "src/ppocr/ocr2/filter_by_font.cpp:23-50"])


p("What is learnt depends on the pictures and their labels only",
  "Runs of write_glyphs on the same images, texts and fonts, in any order, any number of times and in any number of runs, print files that normalize_glyphs turns into the same file, on which alone the features and the recognition depend. Lists of glyphs whose labels are in order are normalised to the same list exactly when they hold the same pictures with the same labels; a normalised file counts as the files it was made from, so that more can be learnt later. Glyph files of any bytes that are accepted give the same in any order. make_trie_dictionary prints the same for the same lines of its file in any order and any number of times.",
  "all images, texts and fonts that write_glyphs accepts, all numbers of runs, all legal sorts; glyph files of any bytes for the order; dictionary files of any bytes",
  "all lists of files, two runs compared; no repetition, some, all; one run or several; glyphs with no, one or several labels; files that are missing or spoilt",
  ["main/write_glyphs.cpp:53-119", "main/normalize_glyphs.cpp:30-94", "main/make_trie_dictionary.cpp:30-54", "src/ppocr/spell/dictionary.cpp:36-51"])


p("Learning more glyphs changes what is read only by the glyphs that are like the characters",
  "A line whose characters all resemble glyphs of one word is read with the same text by ocr2_extract_text and by extract_text6 when more glyphs are learnt, none of those that resemble a character having another word. The words that extract_text6 finds for a picture are those of the glyphs with its tenths; if there is none, those of the glyphs near it that resemble it and are backed by another glyph of their word, if there is another; and otherwise the unknown word. No word is lost by more glyphs if one had the tenths of the picture, and glyphs that are far from it and whose first words are not those of a glyph near it change nothing. (Refuted otherwise: in ocr2_extract_text, glyphs that no character resembles make the program lose a candidate, depending on their places in the file; in both programs another picture of the word of a character, however far, makes the program lose the character when no glyph is the same.)",
  "all trained glyph and feature files, all images whose characters have areas below the limits of C19, all legal sorts, with or without lines and dictionary files",
  "all ways of adding glyphs, two runs compared; glyphs before, between and after the others; one or several glyphs with the same picture or the same word; characters that no glyph is like",
  ["main/ocr2_extract_text.cpp:107-197", "main/extract_text6.cpp:568-790", "src/ppocr/ocr2/reduce_universe.hpp", "src/ppocr/ocr2/data_indexes_by_words.cpp"])


p("An image that is enlarged keeps the features that count, not those that follow rows or diagonals",
  "When each pixel becomes a block of j columns and k rows, the density, the number of bars and the zones are the same; so are the proportions of the sides and of the zones when j = k, and the direction features when the height is even, the gravity being given by an exact formula. The alternations of the second row and of the middle column are the same; those of the first row unless the height is 1 modulo 3, those of the thirds when 3 divides the height or the width. The characters found are the same ones, enlarged, if the last column is blank. (Refuted otherwise: the direction with an odd height, gravities, diagonal features and density by zones, the proportions when only the height changes, the alternations for the other sizes; ink in the last column is seen once it has several columns; a character that was taught is not read when it is twice as large.)",
  "all images and all j and k for which 100 w h (w + h) of the enlarged image is below 2^31, and w * h + w below 2^32 for the characters",
  "all images and all factors, two images compared; j = 1, k = 1, j = k, j and k different; even and odd heights; heights and widths of all remainders modulo 3; last column blank or not",
  ["src/ppocr/strategies/density.cpp", "src/ppocr/strategies/hdirection.cpp", "src/ppocr/strategies/hgravity.cpp", "src/ppocr/strategies/alternations.cpp", "src/ppocr/strategies/zone.cpp", "src/ppocr/strategies/proportionality_zone.cpp", "src/ppocr/box_char/make_box_character.cpp:26-103"])


p("Files that show the same image are read the same",
  "A file is read as a whole image exactly if it is a map of colours (P6) whose ink alone has at least the luminance, or a map of bits (P4) of at least 9 bytes whose blank pixels are 1, the bits after a row being any. Every image has copies of both kinds. When pictures are replaced by others that show the same image, show_glyphs, write_glyphs, ocr2_extract_text, extract_text6 and extract_text8 print the same and end in the same way. (Refuted for the other formats: an image in digits is always refused once it has all its digits, maps of greys are refused, a map of bits of fewer than 9 bytes is refused, and the ink is 0 in bits but 1 in digits.)",
  "all byte strings, all images, all luminances; all other files and arguments of the programs",
  "all files that show an image, compared two by two; headers with and without comments, any numerals; any colours; widths of all remainders modulo 8, with any bits after the rows",
  ["src/ppocr/image/image_from_file.cpp:111-299", "main/show_glyphs.cpp:31-67", "main/write_glyphs.cpp:53-119", "main/ocr2_extract_text.cpp:101-112", "main/extract_text6.cpp", "main/extract_text8.cpp"])


p("The features of an image and of the same one in a mirror",
  "When left and right are exchanged, the density, the proportionality, the horizontal bars and the measures of the halves and of the wedges (hdirection, hdirection2, hgravity, hgravity2, dvdirection, dvdirection2, dvgravity, dvgravity2) stay the same; the rows and the upper and lower bands of the alternations are seen from their other ends, the left and right bands are exchanged, the zones of the left and of the right are exchanged, the corners are those of the other side, and there are as many proportions of zones. When top and bottom are exchanged, the measures of the halves and of both wedges are opposite, and the zones of the top and of the bottom are exchanged. (Refuted: dzdensity, the middle column when the width is even, the proportions of zones, and dvdirection2 upside down.)",
  "all images for which 100 w h (w + h) is below 2^31; for the alternations, of at least two rows",
  "all images, two images compared; even and odd widths and heights; zones that touch several sides; one column",
  ["src/ppocr/strategies/density.cpp", "src/ppocr/strategies/hdirection.cpp", "src/ppocr/strategies/hgravity.cpp", "src/ppocr/strategies/dvdirection.cpp", "src/ppocr/strategies/dvgravity.cpp", "src/ppocr/strategies/hbar.cpp", "src/ppocr/strategies/alternations.cpp", "src/ppocr/strategies/zone.cpp", "src/ppocr/strategies/proportionality_zone.cpp"])


p("More words in the dictionary change a text only where a word that was added can be read",
  "When words are added to a dictionary, what is spelled of some positions is the same, or is a word that was added, that is a choice, and before which no choice is a word. The two other results of extract_text6 and extract_text8 never depend on the dictionary, nor do the numbers of characters and of unknown ones of ocr2_extract_text. With the files of trained glyphs whose labels have one character, what is read of the image does not depend on it either: two dictionaries only spell the same line, so that the programs give the same results when the dictionaries have the same words among those that can be written with the labels. (Refuted: a word that was spelled can be replaced by one that was added; a ligature in the last position can be spelled as a word that no choice is.)",
  "all dictionaries of well-formed non empty words of fewer than 2^32 letters, or none; all trained glyph and feature files and images whose characters have areas below the limits of C19, all legal sorts; for extract_text8, glyphs whose zones do not tell them apart",
  "all pairs of dictionaries, two runs compared; no dictionary, words that cannot be written, words read before or after those that were there; one or several candidates",
  ["src/ppocr/spell/word_disambiguouser.hpp", "src/ppocr/spell/dictionary.cpp", "src/ppocr/ocr2/disambiguous_with_dict.cpp:44-213", "main/ocr2_extract_text.cpp:51-197", "main/extract_text6.cpp:568-790", "main/extract_text8.cpp"])


p("A greater luminance only takes ink away",
  "When the same file is loaded with two luminances, both fail in the same way, or both give images of the same sizes, the one with the greater luminance having the ink of the other except for some pixels; so its density is not greater. The images are the same exactly if no colour has a luminance between the two; all is ink with 0 and nothing with 256, and every other luminance gives what the nearest of 0 to 256 gives. The luminance does not matter for the files that are not maps of colours, nor does the option of show_glyphs and write_glyphs when no image is one. (Refuted: the number of characters may increase or decrease.)",
  "all byte strings and all luminances; for the density, images of fewer than 2^32 / 100 pixels",
  "all files and pairs of luminances, two images compared; colours just below, at and above the luminances",
  ["src/ppocr/image/image_from_file.cpp:111-299", "src/ppocr/strategies/density.cpp", "main/show_glyphs.cpp:46-68", "main/write_glyphs.cpp:98-120"])


p("The order of the lines of words, and the lines about other words, do not matter",
  "Every file of lines tells, for the labels of the glyphs, one list of words with their four values modulo 8: a line of more than 8 bytes or whose text starts no label is skipped, any other is about the least label that its text starts. ocr2_extract_text prints the same and ends in the same way with two files that tell the same list, or that tell each word once and the same words in any order, whatever the features, the image and the dictionary; so a file about other words only is as no file. (Refuted: when a word is told twice, the text can depend on the order of its lines.)",
  "all trained glyph files, all pairs of files of lines written as word and four numbers, all features, images and dictionaries, all legal sorts",
  "all pairs of files, two runs compared; sorts that are not stable; words that start other words; values equal modulo 8 only",
  ["src/ppocr/ocr2/words_infos.hpp:40-65", "src/ppocr/ocr2/word_lines.cpp:41-53", "src/ppocr/ocr2/glyphs.cpp", "main/ocr2_extract_text.cpp:62-104"])


p("The dictionary that is printed depends on the set of words only, and tells it",
  "make_trie_dictionary makes the same of two files exactly if no dictionary can be made of either, or one can be made of both and their lines spell the same characters, in any order and any number of times. For files of UTF-8 words that are not empty, it prints the same exactly if the words are the same ones. (Refuted for other lines: different lines can give the same dictionary.)",
  "all pairs of files of fewer than 2^32 bytes, whatever the bytes, and of file names of which only some can be opened; all legal sorts",
  "all pairs of files, two runs compared, and the converse: files that print the same; any order and repetition; malformed characters; the order of equal words is left to the sort",
  ["main/make_trie_dictionary.cpp:30-54", "src/ppocr/spell/dictionary.cpp:36-51", "src/ppocr/container/trie.hpp", "src/ppocr/utils/utf.hpp"])


p("The file of features depends on the features of the pictures only, and tells them",
  "write_datas prints the same for two glyph files exactly if they have as many glyphs and the glyphs of the same rank have the same features, each computed alone from the picture and its quarter turn; in particular the labels do not matter. (Refuted: the features do not tell the pictures; two squares of different sizes have the same ones.)",
  "all pairs of glyph files of fewer than 2^64 glyphs whose pictures have areas below the limits of C19; all contents of the buffers, all legal sorts",
  "all pairs of glyph files, two runs compared, and the converse: files that print the same; the values left in the buffers by other pictures",
  ["main/write_datas.cpp", "src/ppocr/loader2/datas_loader.hpp", "src/ppocr/ocr2/compute_image.hpp"])


p("What the reading programs take from the glyph file",
  "extract_text6 and extract_text8 give the same results, print the same and end in the same way with two glyph files that can be loaded, have as many glyphs and give the same words to the glyphs of the same rank, apart from words repeated at once: the pictures, the fonts and the numbers of lines do not matter. ocr2_extract_text does so with two files that also have the same fonts, or the same ones with other names. (Refuted: the text of ocr2_extract_text depends on the fonts, and that of extract_text6 on the order of the words of a glyph.)",
  "all pairs of glyph files, whatever the bytes (for ocr2_extract_text, all that can be written), all features, images, dictionaries and files of lines, all runtimes",
  "all pairs of files, two runs compared, with the same features; other pictures, fonts, lines; words repeated",
  ["main/extract_text6.cpp:732-790", "main/extract_text8.cpp:581-691", "main/ocr2_extract_text.cpp:51-104", "src/ppocr/ocr2/glyphs.cpp:29-97", "src/ppocr/loader2/glyphs_loader.cpp"])


p("Characters that no glyph is near are unknown, and what is printed of them",
  "When no glyph is near any character of an image, extract_text6 and extract_text8 give the mark '_' for each character in the first two results; in the third, a picture seen for the first time has no candidate and one that was seen has the mark, so that nothing is printed when the characters are all different. ocr2_extract_text gives the text of a line of unknown characters, which is empty, with 0 unknown ones, when there is no space between them. It is so for every image when nothing was learnt. (Refuted: that unknown characters are all shown and counted.)",
  "all trained glyph and feature files, none included, all images whose characters are below the limits of C19, all dictionaries and files of lines; for extract_text8 the loading of some glyph files has undefined behaviour (C78); for ocr2_extract_text the images of C69",
  "all images; pictures that are seen once or more; spaces or none; a division by zero when the characters are compared",
  ["main/extract_text6.cpp:568-883", "main/extract_text8.cpp:407-784", "main/ocr2_extract_text.cpp:51-197", "src/ppocr/ocr2/disambiguous_with_dict.cpp:44-213"])


out = os.path.join(os.path.dirname(os.path.dirname(os.path.abspath(__file__))), "properties.jsonl")
with open(out, "w") as f:
    for d in P: f.write(json.dumps(d) + "\n")
print(len(P))
