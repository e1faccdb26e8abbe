{"id": "C01", "title": "rotate90 is the quarter turn", "statement": "Image::rotate90 never touches memory outside the source or destination, returns an image with width and height exchanged, and pixel (x,y) of the result is pixel (W-1-y, x) of the source.", "quantifier": "every image of every size (including empty and one-pixel ones) and every pixel position", "why_tests_cant": "unit tests compare a handful of fixed bitmaps; the law must hold for every size, in particular non-square and degenerate ones", "anchors": ["src/ppocr/image/image.cpp:Image::rotate90", "src/ppocr/image/image.hpp:Image"]}
{"id": "C02", "title": "Four quarter turns restore the image", "statement": "Applying rotate90 four times to an image gives back an image equal to it (operator==).", "quantifier": "every image", "why_tests_cant": "quantifies over all bitmaps of all sizes", "anchors": ["src/ppocr/image/image.cpp:Image::rotate90", "src/ppocr/image/image.cpp:operator=="]}
{"id": "C03", "title": "section copies exactly the requested window", "statement": "For a window lying inside the image, Image::section succeeds, the result has the requested size and pixel (x,y) of the result is pixel (ox+x, oy+y) of the source; section of the whole image (clone) is equal to the image.", "quantifier": "every image, every window contained in it", "why_tests_cant": "all offsets/sizes: off-by-one at row ends only shows on particular widths", "anchors": ["src/ppocr/image/image.cpp:Image::section", "src/ppocr/image/image.cpp:Image::clone"]}
{"id": "C04", "title": "Image comparison is a total order compatible with equality", "statement": "image_compare is reflexive-zero, antisymmetric in sign and transitive, and returns 0 exactly for equal images; so image ordering is a legal key order for the recognition cache and for sorting, and operator== coincides with it.", "quantifier": "every pair/triple of images", "why_tests_cant": "transitivity and totality are universally quantified over triples; a violation would corrupt std::map silently", "anchors": ["src/ppocr/utils/image_compare.cpp:image_compare", "src/ppocr/image/image.cpp:operator==", "src/ppocr/ocr2/cache.hpp"]}
{"id": "C05", "title": "P6 files decode to the luminance threshold", "statement": "A binary colour PNM file with a well formed header whose payload has exactly 3*w*h bytes is accepted and pixel k is background exactly when the weighted luminance of byte triple k is below the threshold; any other payload length is rejected with an exception.", "quantifier": "every header size, every payload, every threshold", "why_tests_cant": "all 2^24 triples times all positions; tests load two pictures", "anchors": ["src/ppocr/image/image_from_file.cpp:image_from_file", "src/ppocr/image/image_from_file.cpp:PnmHeader"]}
{"id": "C06", "title": "P4 files decode bit by bit with row padding", "statement": "A binary bitmap PNM of at least 9 bytes whose width is below 2^31 and whose payload has exactly ceil(w/8)*h bytes is accepted, pixel (x,y) being background exactly when bit 7-(x mod 8) of byte y*ceil(w/8)+x/8 is set; other payload lengths are rejected.", "quantifier": "every width (multiple of 8 or not), height and payload", "why_tests_cant": "row padding bugs appear only for some widths modulo 8 and some row counts", "anchors": ["src/ppocr/image/image_from_file.cpp:image_from_file"]}
{"id": "C07", "title": "Loading a picture never reads outside the file contents", "statement": "Decoding a picture file reads only bytes of the file: for every byte string the loader either returns an image or throws. (Holds for bitmap widths below 2^31; fails beyond: signed overflow from 2^31 on, and from 2^32-7 on the wrapped length check lets the decoder read past the file.)", "quantifier": "every byte string given as file contents", "why_tests_cant": "adversarial headers; tests only use valid files", "anchors": ["src/ppocr/image/image_from_file.cpp:image_from_file", "src/ppocr/image/image_from_file.cpp:PnmHeader::parse"]}
{"id": "C08", "title": "Complete ASCII bitmaps are accepted, incomplete ones rejected", "statement": "An ASCII bitmap with exactly w*h digits is accepted and decodes digit by digit; one with fewer digits is rejected. (The code does the opposite.)", "quantifier": "every ASCII payload", "why_tests_cant": "no ASCII sample in the tests; the defect concerns every complete file", "anchors": ["src/ppocr/image/image_from_file.cpp:image_from_file"]}
{"id": "C09", "title": "A character box is the tight bounding box of a connected column run", "statement": "Starting a search at column s, the box returned starts at the first column >= s holding ink, spans consecutive columns each 8-adjacent to the next, is followed by a column that is not 8-adjacent to its last one (unless it stops at the last column of the picture), and its first and last rows are the first and last rows with ink inside these columns; no memory outside the picture is read.", "quantifier": "every picture, every start column", "why_tests_cant": "all bitmaps; adjacency and border effects only show on particular ink layouts", "anchors": ["src/ppocr/box_char/make_box_character.cpp:make_box_character", "src/ppocr/box_char/box.hpp:Box"]}
{"id": "C10", "title": "Line segmentation terminates with ordered disjoint boxes", "statement": "Repeating the box search from the end of the previous box stops after at most W boxes; the boxes are non empty, inside the picture, strictly ordered and column-disjoint.", "quantifier": "every picture", "why_tests_cant": "termination and disjointness are statements about all runs", "anchors": ["main/ocr2_extract_text.cpp:main", "main/write_glyphs.cpp:main", "src/ppocr/box_char/make_box_character.cpp:make_box_character"]}
{"id": "C11", "title": "Segmentation loses no ink", "statement": "Every ink pixel of the picture lies in one of the boxes found. (True for every pixel outside the last column; ink of the last column is always lost.)", "quantifier": "every picture and every ink pixel", "why_tests_cant": "requires looking at every pixel of every picture", "anchors": ["src/ppocr/box_char/make_box_character.cpp:make_box_character", "main/ocr2_extract_text.cpp:main"]}
{"id": "C12", "title": "Similarity of two feature values is a bounded symmetric score", "statement": "For values not exceeding the declared interval, the interval similarity is between 0 and 100, equals 100 on equal values, is symmetric, and does not increase when the distance grows; the distance filter of the interval relationship answers true exactly for values farther apart than the tolerance.", "quantifier": "every pair of values and every interval/tolerance without 32-bit overflow", "why_tests_cant": "ranges over all pairs of values", "anchors": ["src/ppocr/strategies/utils/relationship.hpp:compute_relationship", "src/ppocr/strategies/relationship/interval.hpp:interval", "src/ppocr/strategies/relationship/equal.hpp", "src/ppocr/strategies/relationship/array_compare.hpp"]}
{"id": "C13", "title": "Horizontal direction features measure the top/bottom ink balance", "statement": "hdirection is floor(200*top/(top+bottom)) (100 without ink) and hdirection2 is floor(100*(half_area+top-bottom)/(2*half_area)) (50 for heights below 2), where top/bottom count ink in the upper/lower half rows, the middle row of odd heights excluded; both stay inside their declared intervals [0,200] and [0,100] and never read outside the image.", "quantifier": "every image whose area times 200 fits in 32 bits", "why_tests_cant": "all images and parities of height", "anchors": ["src/ppocr/strategies/hdirection.cpp", "src/ppocr/strategies/hdirection2.cpp", "src/ppocr/strategies/utils/horizontal_direction.hpp"]}
{"id": "C14", "title": "Horizontal gravity features measure the weighted balance", "statement": "hgravity/hgravity2 use row weights increasing with the distance to the middle; they equal their closed formula, stay in [0,200] and [0,100] and never read outside the image.", "quantifier": "every image within the no-overflow bound", "why_tests_cant": "all images and sizes", "anchors": ["src/ppocr/strategies/hgravity.cpp", "src/ppocr/strategies/hgravity2.cpp", "src/ppocr/strategies/utils/horizontal_gravity.hpp"]}
{"id": "C15", "title": "Diagonal features stay in range and in bounds", "statement": "dvdirection, dvdirection2, dvgravity and dvgravity2 never read outside the image, equal their closed formula over the two diagonal wedges, and stay inside their declared intervals. (The second variants use the upper wedge only: the lower half cancels out of their formula.)", "quantifier": "every image within the no-overflow bound", "why_tests_cant": "the wedge boundaries use nested integer divisions, correct only if leftmost <= rightmost for every size", "anchors": ["src/ppocr/strategies/dvdirection.cpp", "src/ppocr/strategies/dvdirection2.cpp", "src/ppocr/strategies/dvgravity.cpp", "src/ppocr/strategies/dvgravity2.cpp", "src/ppocr/strategies/utils/diagonal_vertical_direction.hpp", "src/ppocr/strategies/utils/diagonal_vertical_gravity.hpp"]}
{"id": "C16", "title": "Density and proportion features are percentages", "statement": "density is floor(100*ink/area), proportionality floor(100*w/(w+h)), both within [0,100] for every non empty image whose area times 100 fits in 32 bits; beyond this bound the result can be wrong.", "quantifier": "every non empty image", "why_tests_cant": "overflow needs pictures of more than 42 million pixels", "anchors": ["src/ppocr/strategies/density.cpp", "src/ppocr/strategies/proportionality.cpp"]}
{"id": "C17", "title": "Diagonal zone density is well defined", "statement": "dzdensity never divides by zero, never reads outside the image, returns 0 under 3x3 and otherwise the floored percentage of ink in the diagonal band, within [0,100].", "quantifier": "every image within the no-overflow bound", "why_tests_cant": "band limits use truncated signed division; a single size with an empty or inverted band would crash", "anchors": ["src/ppocr/strategies/dzdensity.cpp"]}
{"id": "C18", "title": "Alternation features count colour runs", "statement": "Each of the seven alternation entries gives the colour of the first pixel of the scanned line (two rows, the middle column, or the union of the lines of the top, bottom, left or right third) and the number of maximal runs of equal colour along it.", "quantifier": "every non empty image", "why_tests_cant": "all lines; run counting at the end of line", "anchors": ["src/ppocr/strategies/alternations.cpp", "src/ppocr/image/image.hpp:HorizontalRange"]}
{"id": "C19", "title": "hbar counts full-row bars", "statement": "hbar is the number of maximal groups of consecutive rows entirely inked.", "quantifier": "every non empty image", "why_tests_cant": "all row patterns", "anchors": ["src/ppocr/strategies/hbar.cpp"]}
{"id": "C20", "title": "Zone labelling computes the 4-connected components of the background", "statement": "count_zone terminates, writes only inside its buffer, and two background pixels get the same label exactly when they are linked by a path of horizontally/vertically adjacent background pixels; labels are 1..k in order of first pixel and ink gets no label.", "quantifier": "every image", "why_tests_cant": "flood fill correctness and stack bounds quantify over all mazes", "anchors": ["src/ppocr/strategies/utils/count_zone.hpp:count_zone_fn"]}
{"id": "C21", "title": "Zone border counters are exact", "statement": "For each zone the four counters are the numbers of pixels of the zone on the top, right, bottom and left borders; the derived numbers of zones touching a border or touching none are exact.", "quantifier": "every image", "why_tests_cant": "all mazes", "anchors": ["src/ppocr/strategies/utils/count_zone.hpp", "src/ppocr/strategies/zone.cpp"]}
{"id": "C22", "title": "Zone proportions are sorted percentages", "statement": "proportionality_zone returns one percentage per zone that touches the border, sorted, each at most 100, without dividing by zero.", "quantifier": "every image within the no-overflow bound", "why_tests_cant": "all mazes", "anchors": ["src/ppocr/strategies/proportionality_zone.cpp"]}
{"id": "C23", "title": "Comparing zone proportions is total", "statement": "Comparing two zone proportion lists returns a score in [0,100] and 100 on identical lists. (Divides by zero when both lists hold a 0 at the same position, which a real image produces; otherwise holds.)", "quantifier": "every pair of lists the feature extractor can produce", "why_tests_cant": "the crash needs a long thin zone against a tiny one", "anchors": ["src/ppocr/strategies/proportionality_zone.cpp:proportionality_zone::relationship"]}
{"id": "C24", "title": "Feature extraction is history independent", "statement": "Loading a sequence of images into a feature set gives for each image the features of that image alone, although intermediate results are cached and shared between strategies.", "quantifier": "every sequence of images loaded through the same context", "why_tests_cant": "stale cache bugs depend on the history of calls", "anchors": ["src/ppocr/loader2/datas_loader.hpp:Datas", "src/ppocr/strategies/utils/context.hpp:cache_context", "src/ppocr/defined_loader.hpp"]}
{"id": "C25", "title": "Row comparison of feature sets", "statement": "eq(i,j) holds exactly when rows i and j agree on every feature; lt is a strict weak order usable for sorting. (eq holds; lt is not a strict weak order.)", "quantifier": "every feature table, every pair/triple of rows", "why_tests_cant": "order axioms over all triples", "anchors": ["src/ppocr/loader2/datas_loader.hpp:cmp_datas", "src/ppocr/loader2/datas_loader.hpp:Datas"]}
{"id": "C26", "title": "Glyph files round-trip", "statement": "Writing a list of labelled glyphs and reading it back gives the same list and reaches the end of the file, provided labels and font names are non empty and free of white space.", "quantifier": "every list of glyphs, every pixel content", "why_tests_cant": "all contents; delimiters inside pixels or labels", "anchors": ["src/ppocr/loader2/glyphs_loader.cpp", "src/ppocr/loader2/image_io.cpp", "src/ppocr/utils/read_file.hpp"]}
{"id": "C27", "title": "Feature files round-trip", "statement": "Writing a feature table and reading it back gives the same table and reaches the end of the file.", "quantifier": "every table", "why_tests_cant": "all sizes and values", "anchors": ["src/ppocr/defined_loader.hpp", "src/ppocr/loader2/datas_loader.hpp"]}
{"id": "C28", "title": "Dictionary files round-trip", "statement": "Writing a dictionary and reading it back gives the same dictionary and reaches the end of the file.", "quantifier": "every dictionary", "why_tests_cant": "all tries", "anchors": ["src/ppocr/spell/dictionary.cpp"]}
{"id": "C29", "title": "Truncated dictionary files are detected", "statement": "A strict prefix of a dictionary file is rejected by the loader. (Every cut inside a record is accepted silently and can leave child links that point outside the table.)", "quantifier": "every dictionary and every cut point", "why_tests_cant": "crash points: every prefix of every file", "anchors": ["src/ppocr/spell/dictionary.cpp:operator>>", "src/ppocr/utils/read_file.hpp"]}
{"id": "C30", "title": "Packed UTF-8 decoding is lossless", "statement": "For well formed UTF-8 text the packed decoder yields one value per character, reads nothing past the terminator, and emitting the values gives back the text; the Unicode decoder yields the code points encoded.", "quantifier": "every well formed UTF-8 string", "why_tests_cant": "all 1.1 million code points in all sequences", "anchors": ["src/ppocr/utils/utf.hpp", "src/ppocr/spell/word_disambiguouser.hpp:set_c"]}
{"id": "C31", "title": "The trie holds exactly the words it was built from", "statement": "Building a trie from a sorted duplicate-free list of non empty words succeeds and following a word from the root ends on a terminal node exactly for the words of the list.", "quantifier": "every list of words, every probe word", "why_tests_cant": "membership for all probes and all word sets", "anchors": ["src/ppocr/container/trie.hpp:trie"]}
{"id": "C32", "title": "The flat trie navigates like the trie", "statement": "The breadth-first array built from a trie accepts exactly the same words when navigated with its relative offsets, and no offset leaves the array.", "quantifier": "every trie, every probe word", "why_tests_cant": "relative offset arithmetic over all shapes", "anchors": ["src/ppocr/container/trie.hpp:flat_trie"]}
{"id": "C33", "title": "A dictionary contains exactly its words", "statement": "A dictionary built from any list of non empty well formed words (duplicates, any order) accepts exactly those words.", "quantifier": "every word list, every probe", "why_tests_cant": "end-to-end over all inputs", "anchors": ["src/ppocr/spell/dictionary.cpp:Dictionary", "src/ppocr/container/trie.hpp"]}
{"id": "C34", "title": "Spell disambiguation only outputs dictionary words", "statement": "When the disambiguation of candidate lists succeeds, the text appended to the output is a word of the dictionary; when it fails, the output is unchanged.", "quantifier": "every dictionary, every list of candidate lists, every previous output", "why_tests_cant": "backtracking search over all combinations", "anchors": ["src/ppocr/spell/word_disambiguouser.hpp"]}
{"id": "C35", "title": "Spell disambiguation finds the first spelling", "statement": "When every candidate is a single character, disambiguation succeeds exactly when some choice of candidates spells a dictionary word, and outputs the first such choice in candidate order.", "quantifier": "every dictionary, every list of lists of single characters", "why_tests_cant": "exponential number of combinations", "anchors": ["src/ppocr/spell/word_disambiguouser.hpp"]}
{"id": "C36", "title": "Spell disambiguation handles ligature candidates", "statement": "The word found is a concatenation of one candidate per position, also when candidates have several characters. (Wrong at the last position: only the first character of the candidate is considered.)", "quantifier": "every dictionary, every list of candidate lists", "why_tests_cant": "needs a ligature in final position", "anchors": ["src/ppocr/spell/word_disambiguouser.hpp:disambiguous_utf_char"]}
{"id": "C37", "title": "Range queries on a feature column are exact", "statement": "The range returned for a value v and tolerance d lists exactly the rows whose value is within d of v, each once.", "quantifier": "every column, every v and d without overflow", "why_tests_cant": "binary search boundaries with duplicates", "anchors": ["src/ppocr/ocr2/data_indexes_ordered.hpp", "src/ppocr/ocr2/indexes_ordered.hpp"]}
{"id": "C38", "title": "Same-word index is exact", "statement": "For each glyph the same-word index lists exactly the other glyphs whose first label is the same word, each once.", "quantifier": "every glyph table where each glyph has a label", "why_tests_cant": "swap-based construction over all group sizes", "anchors": ["src/ppocr/ocr2/data_indexes_by_words.cpp"]}
{"id": "C39", "title": "View classes identify glyphs with the same words", "statement": "Two glyphs get the same view class exactly when they carry the same word sequence. (True when the table is already sorted by words; false in general: classes are attributed by sorted rank.)", "quantifier": "every glyph table, every pair of glyphs", "why_tests_cant": "depends on the global order of the table", "anchors": ["src/ppocr/ocr2/views_index_ordered.hpp", "src/ppocr/ocr2/glyphs.hpp:LtViews"]}
{"id": "C40", "title": "Candidate selection is exact", "statement": "The candidates kept by the simple features are exactly the glyphs whose every simple feature is within one tenth of its range of the image's, each once, and never more than the number of glyphs (the buffer never overflows).", "quantifier": "every image, every glyph table", "why_tests_cant": "all tables", "anchors": ["src/ppocr/ocr2/compute_image.hpp:initialize_universe", "src/ppocr/ocr2/compute_image.hpp:reduce_universe_with_distance", "src/ppocr/ocr2/probabilities.hpp"]}
{"id": "C41", "title": "Scores are probabilities and results are ranked", "statement": "Every score is in [0,1] (never NaN), returned labels come from glyphs of the table, in decreasing score order, and only from glyphs with score at least half the best one.", "quantifier": "every image, every glyph table", "why_tests_cant": "all tables, floating point", "anchors": ["src/ppocr/ocr2/compute_image.hpp:compute_image", "src/ppocr/ocr2/sort_probabilities.hpp", "src/ppocr/ocr2/insert_views.hpp"]}
{"id": "C42", "title": "A known image is recognised with score 1", "statement": "If the features of the image are those of some glyph of the table, the result is non empty and its first label comes from a glyph with score 1.", "quantifier": "every table and every glyph of it", "why_tests_cant": "all tables", "anchors": ["src/ppocr/ocr2/compute_image.hpp:compute_image"]}
{"id": "C43", "title": "Glyph words resolve to the words of the file", "statement": "After loading a glyph table, the word stored for each label is the word of the file, labels with the same word share the same word id, and different words have different ids.", "quantifier": "every glyph file", "why_tests_cant": "all word lengths modulo 4 and all orders", "anchors": ["src/ppocr/ocr2/glyphs.cpp", "src/ppocr/ocr2/glyphs.hpp:Glyphs"]}
{"id": "C44", "title": "Word lookup by text is exact", "statement": "Looking a text up in the word table returns the id of that word, and reports absence otherwise. (Present words are found; absent ones that are a prefix of a stored word are reported present.)", "quantifier": "every word table and every text", "why_tests_cant": "prefix relations among words", "anchors": ["src/ppocr/ocr2/glyphs.hpp:word_index_of"]}
{"id": "C45", "title": "Stored words are NUL terminated inside their slot", "statement": "Every stored word is followed by a NUL byte inside the table. (Fails for words whose length is a multiple of 4: the last such word overflows the table by one byte.)", "quantifier": "every glyph file", "why_tests_cant": "needs a final word of length 4k", "anchors": ["src/ppocr/ocr2/glyphs.cpp"]}
{"id": "C46", "title": "Word-line lookup is exact", "statement": "The line information returned for a word is one registered for that word, and absence is reported exactly when none is registered.", "quantifier": "every table, every word", "why_tests_cant": "binary search with duplicates", "anchors": ["src/ppocr/ocr2/words_infos.hpp"]}
{"id": "C47", "title": "Font filtering keeps candidate lists sensible", "statement": "Font filtering never empties a list, leaves single-candidate lists unchanged, reduces the others only to one of their own candidates, the one with the elected font if present, and the elected font is a most frequent one among single-candidate lists.", "quantifier": "every list of candidate lists", "why_tests_cant": "all vote distributions and ties", "anchors": ["src/ppocr/ocr2/filter_by_font.cpp"]}
{"id": "C48", "title": "Line filtering removes exactly the inconsistent words", "statement": "Given a predicate telling which words contradict the line, filtering keeps exactly the candidates whose word does not contradict it when the list has several words. (The second word is kept untested if the first is kept.)", "quantifier": "every candidate list grouped by word, every predicate", "why_tests_cant": "needs particular sequences of verdicts", "anchors": ["src/ppocr/ocr2/filter_by_lines.cpp:filter_line"]}
{"id": "C49", "title": "Line detection never writes outside its histogram", "statement": "For every list of boxes the baseline/meanline histogram accesses stay in bounds. (Fails exactly when the first box is lower than all others, including a single box.)", "quantifier": "every non empty list of boxes", "why_tests_cant": "depends on the order of the boxes", "anchors": ["src/ppocr/ocr2/filter_by_lines.cpp:MinMaxBox", "src/ppocr/ocr2/filter_by_lines.cpp:filter_by_lines"]}
{"id": "C50", "title": "The recognition cache is transparent", "statement": "Looking up and filling the cache by image gives for each character the same candidate list as recognising it afresh.", "quantifier": "every sequence of character images", "why_tests_cant": "histories of lookups", "anchors": ["src/ppocr/ocr2/cache.hpp", "main/ocr2_extract_text.cpp:main"]}
{"id": "C51", "title": "Text assembly terminates and is exact without dictionary", "statement": "With an empty dictionary the assembled text is, after the leading run of punctuation/unrecognised characters of the first word, the first candidate of each character, '?' for unrecognised ones, one space per recorded word break; the number of unrecognised ones is the number of '?' added; the assembly loop terminates.", "quantifier": "every list of candidate lists, every increasing list of breaks", "why_tests_cant": "interleavings of punctuation, unknown characters and breaks", "anchors": ["src/ppocr/ocr2/disambiguous_with_dict.cpp"]}
{"id": "C52", "title": "Replacement rules terminate", "statement": "Applying the replacement rules to a text terminates and the patterns no longer occur. (Holds for termination when every replacement is shorter than its pattern; diverges e.g. for a pattern that is a prefix of its replacement.)", "quantifier": "every text and every rule list", "why_tests_cant": "non termination cannot be observed by a test", "anchors": ["src/ppocr/ocr2/replacement.hpp:replace_words"]}
{"id": "C53", "title": "Glyph normalisation merges duplicates without loss", "statement": "Normalising a glyph list gives strictly increasing distinct images, and the set of (image,label) pairs is unchanged.", "quantifier": "every list of glyphs, every legal sort", "why_tests_cant": "depends on positions of duplicates", "anchors": ["main/normalize_glyphs.cpp"]}
{"id": "C54", "title": "Reindexing applies the permutation", "statement": "Reindexing a container by a list of indexes puts at position k the element formerly at the k-th index.", "quantifier": "every container and permutation", "why_tests_cant": "all permutations", "anchors": ["src/ppocr/utils/reindex.hpp"]}
{"id": "C55", "title": "Image buffers of the recogniser do not overlap", "statement": "For every history of images given to the recognition context, the image and its rotation are stored in disjoint parts of a large enough buffer and the rotated view is the quarter turn of the current image.", "quantifier": "every sequence of images", "why_tests_cant": "buffer reuse depends on history", "anchors": ["src/ppocr/ocr2/image_context.hpp"]}
{"id": "C56", "title": "Reading a file does not depend on the read sizes", "statement": "Reading a whole file returns its exact contents whatever the sizes of the partial reads the system delivers, and fails only if the system reports an error or an early end of file.", "quantifier": "every file contents and every schedule of short reads", "why_tests_cant": "the schedule of short reads is chosen by the system, not by the test", "anchors": ["src/ppocr/image/image_from_file.cpp:image_from_file"]}
{"id": "C57", "title": "A truncated glyph file gives only glyphs of the file", "statement": "Loading any truncation of a glyph file gives, without an error, the glyphs completely written before the cut, possibly followed by the glyph in which the cut falls with its exact image, words and fonts (only the ignored line number of its last label may differ).", "quantifier": "every list of glyphs and every cut point of its file", "why_tests_cant": "crash points: every prefix of every file", "anchors": ["src/ppocr/loader2/glyphs_loader.cpp", "src/ppocr/loader2/image_io.cpp", "src/ppocr/utils/read_file.hpp"]}
{"id": "C58", "title": "A truncated feature file is detected", "statement": "Loading a strict prefix of a feature file fails or gives a table whose columns all have the same height. (False: every truncation is accepted; the columns completely written are intact and every later column but one or two is empty, so indexing rows of the table reads out of bounds.)", "quantifier": "every table and every cut point of its file", "why_tests_cant": "crash points: every prefix of every file", "anchors": ["src/ppocr/defined_loader.hpp:operator>>", "src/ppocr/utils/read_file.hpp"]}
{"id": "C59", "title": "Every unrecognised character is shown and counted", "statement": "The text assembled for a line shows each unrecognised character as '?', and the number returned with it is the number of unrecognised characters of the line. (Those at the beginning of the line are silently dropped.)", "quantifier": "every list of candidate lists, every increasing list of breaks", "why_tests_cant": "depends on where the unrecognised characters are", "anchors": ["src/ppocr/ocr2/disambiguous_with_dict.cpp"]}
{"id": "C60", "title": "A file of replacement rules is read as written", "statement": "Reading a file of one rule per line, a pattern and an optional replacement separated by a space, gives the rules of the lines in order. (Without the last end of line a pattern gets the replacement of the previous rule; a space or carriage return after a pattern shifts or loses rules.)", "quantifier": "every list of rules of visible characters", "why_tests_cant": "depends on the separators after each word", "anchors": ["src/ppocr/ocr2/replacement.hpp", "src/ppocr/ocr2/replacement.cpp"]}
{"id": "C61", "title": "Normalised glyphs have distinct labels", "statement": "After normalisation the labels of every glyph are in strictly increasing order, hence distinct. (The glyphs before the first repeated image keep their labels as they were.)", "quantifier": "every list of glyphs, every legal sort", "why_tests_cant": "depends on the position of the first repeated image", "anchors": ["main/normalize_glyphs.cpp"]}
{"id": "C62", "title": "A dictionary contains the words of its files", "statement": "The dictionary printed by the dictionary program can be loaded, and contains exactly the lines of the files given. (Only the first file that can be opened is read: the stream is not closed before the next; an empty line is read out of bounds.)", "quantifier": "every list of files of well formed UTF-8 lines", "why_tests_cant": "depends on the number of files and on which can be opened", "anchors": ["main/make_trie_dictionary.cpp"]}
{"id": "C63", "title": "Learning labels each character with the word of the same rank", "statement": "Learning a line prints, for each character box from left to right, a glyph with exactly the pixels of the box and the word of the same rank of the text file; it succeeds if and only if there are as many boxes as words.", "quantifier": "every image, text and font", "why_tests_cant": "all images and texts", "anchors": ["main/write_glyphs.cpp"]}
{"id": "C64", "title": "Normalising glyph files keeps every label", "statement": "Normalising a list of glyph files prints a glyph file that can be read, whose images are distinct and in increasing order, and whose images and (image, label) pairs are exactly those of the files.", "quantifier": "every list of glyph files, every legal sort", "why_tests_cant": "all lists of files and all legal sorts", "anchors": ["main/normalize_glyphs.cpp"]}
{"id": "C65", "title": "The feature table has the features of glyph i in row i", "statement": "The feature file printed for a glyph file can be loaded, has one row per glyph, and row i holds the features of the image of glyph i computed on its own, whatever the contents of the reused buffers.", "quantifier": "every list of glyphs whose images are small enough for no feature to overflow", "why_tests_cant": "all images; contents of reused buffers", "anchors": ["main/write_datas.cpp", "src/ppocr/loader2/datas_loader.hpp"]}
{"id": "C66", "title": "Only dictionary records are accepted", "statement": "A dictionary file is accepted if and only if it is a sequence of records, each made of three numbers below 2^32 and a flag separated by single spaces and ended by a newline, possibly followed by a record cut before its end; the nodes are then those of the records. In particular a wrong separator, an overflowing number or a wrong flag is refused.", "quantifier": "every sequence of bytes", "why_tests_cant": "all files, well formed or not", "anchors": ["src/ppocr/spell/dictionary.cpp:operator>>", "src/ppocr/utils/read_file.hpp"]}
{"id": "C67", "title": "A line that was learnt is read back", "statement": "After learning lines, normalising the glyphs and computing their features, the extraction program prints the text of each of the lines, with a blank for each gap, and no unknown character, whatever the legal sorts, the contents of the buffers, and with or without a dictionary and word lines. (Refuted for pictures that the features do not tell apart, for a first character lower than all others, and for a gap after leading marks.)", "quantifier": "every list of lessons (image, text, font), every image made of their characters, every legal sort", "why_tests_cant": "all images, and the composition of four programs through three file formats", "anchors": ["main/write_glyphs.cpp", "main/normalize_glyphs.cpp", "main/write_datas.cpp", "main/ocr2_extract_text.cpp"]}
{"id": "C68", "title": "The rate printed is the percentage of unrecognised characters", "statement": "The rate printed after the text is 100 times the number of unrecognised characters divided by the number of characters. (False: the divisor is 1 unless the line is empty, and then 0, so that 100 times the number is printed, or not-a-number.)", "quantifier": "every number of characters and of unrecognised characters", "why_tests_cant": "floating-point rounding for all pairs of numbers", "anchors": ["main/ocr2_extract_text.cpp"]}
{"id": "C69", "title": "Every image is read with the words of near glyphs", "statement": "With a glyph file and the features written from it, the extraction program ends on every image and prints a text in which each character is one of the words of glyphs near its picture (every simple feature within a tenth of its range) or unknown, and a picture that resembles a glyph is not unknown. (Refuted: a division by zero for pictures that have no row of score 1, an out of bounds write for a line of one dot, and nothing printed for a line of unknown characters.)", "quantifier": "every image, every glyph file, every legal sort, with or without word lines and dictionary", "why_tests_cant": "all images, including those that were not learnt", "anchors": ["main/ocr2_extract_text.cpp"]}
{"id": "C70", "title": "Features of other glyphs are refused", "statement": "The extraction program refuses a feature file that was not written from the glyph file. (Proved when they have different sizes; files of the same size are accepted, and words are exchanged.)", "quantifier": "every pair of glyph files", "why_tests_cant": "all pairs of files", "anchors": ["main/ocr2_extract_text.cpp"]}
{"id": "C71", "title": "The bit masks of extract_text6 select the rows in the same tenths", "statement": "The candidates found with the bit masks are exactly the rows whose first feature is at two tenths at most from that of the picture and whose other simple features are in the same tenths, once each and in the order of the rows; the score of a candidate is 1 when its first feature is in the same tenth, and 0 otherwise. No mask or counter is accessed out of bounds. (Refuted for feature files whose first feature is 210 or more: the counters are written out of bounds.)", "quantifier": "every table of features in range and every picture whose features are in range", "why_tests_cant": "all tables, masks that straddle words of 64 bits", "anchors": ["main/extract_text6.cpp"]}
{"id": "C72", "title": "extract_text6 computes the features of a character as those of the glyphs", "statement": "Each feature of a character is computed from the image or from its quarter turn as the feature of the same column was, so that a glyph that was learnt is read as itself. (False: the two images are exchanged twice, so that every feature is computed from the image that is not turned; proved for the glyphs whose tenths the turn does not change.)", "quantifier": "every image, every table", "why_tests_cant": "all images", "anchors": ["main/extract_text6.cpp", "src/ppocr/loader2/datas_loader.hpp:loader2"]}
{"id": "C73", "title": "make_data_by_word gives the rows with the same first word", "statement": "The list made for a row contains exactly the other rows whose first word is the same, once each. (Refuted for glyphs without labels, for which the first element of an empty vector is read.)", "quantifier": "every list of labelled glyphs", "why_tests_cant": "all lists of words; the last row of each group is handled apart", "anchors": ["main/extract_text6.cpp", "main/extract_text6.cpp:make_data_by_word"]}
{"id": "C74", "title": "extract_text6 reads the characters of a line in order, with a cache", "statement": "The characters of the line are recognised from left to right, a break is added where more than four columns are empty, and a picture that comes again has the words it had the first time. (False for unrecognised pictures: a question mark the first time, then the character _.)", "quantifier": "every image whose characters are small, every sound table", "why_tests_cant": "all images; the cache across characters", "anchors": ["main/extract_text6.cpp"]}
{"id": "C75", "title": "extract_text6 prints the text of the line, each word in its spelling", "statement": "The third result is the text of the candidates, in which each group of characters between marks is replaced by its spelling if the dictionary has one. (False: the marks and the unknown characters at the beginning of the line are left out; proved for the line without them.)", "quantifier": "every list of candidates, every dictionary", "why_tests_cant": "all lists", "anchors": ["main/extract_text6.cpp"]}
{"id": "C76", "title": "extract_text6 reads every image with the words of near glyphs", "statement": "With a glyph file and the features written from it, extract_text6 ends on every image, the words it gives to a picture are those of glyphs near it (the first feature at two tenths, the others in the same tenth), among them all those of the glyphs in the same tenths, and it prints the text of these words. (Proved when the zone proportions can be compared.)", "quantifier": "every glyph file, every image, every legal sort, with or without a dictionary", "why_tests_cant": "all images, and the composition of two programs through two file formats", "anchors": ["main/extract_text6.cpp", "main/write_datas.cpp"]}
{"id": "C77", "title": "extract_text6 keeps the rows in the same tenths, or those that resemble the picture", "statement": "The words of a picture are those of the rows in the same tenths if there are any; otherwise those of the candidates that resemble the picture by half for each complex feature, and whose word is on no other row, or on one that resembles the picture by half; otherwise the picture is unknown. Rows with the same words count once. (Refuted: a division by zero when two zone proportions are 0.)", "quantifier": "every sound table and every small picture", "why_tests_cant": "all tables and pictures, floating-point scores", "anchors": ["main/extract_text6.cpp"]}
{"id": "C78", "title": "extract_text8 merges the glyphs that have the same features", "statement": "When the tables are loaded, glyphs with the same features are replaced by one of them with the words of all, and the other glyphs keep their features and words. (False: it is the glyphs whose features are not those of the first that are taken for repetitions; with one of them, or three or more, and so with every file with four different glyphs, the program writes out of its buffers; with two, the words are wrong. Proved when all the glyphs have the same features.)", "quantifier": "every glyph file with the features written from it, every legal sort, whatever is left in moved strings", "why_tests_cant": "all files; the undefined behaviour is proved for all files with four different glyphs", "anchors": ["main/extract_text8.cpp", "src/ppocr/utils/reindex.hpp"]}
{"id": "C79", "title": "extract_text8 keeps the rows at a tenth of the range of each feature, with their scores", "statement": "The candidates for a picture are exactly the rows whose simple features are all at a tenth of their range at most from those of the picture, once each and in order; the score of a candidate is the floating-point product of the similarities of the features, it is between 0 and 1, and it is 1 exactly when all the simple features are the same.", "quantifier": "every table and every small picture", "why_tests_cant": "all tables and pictures, floating-point rounding in the product of twenty factors", "anchors": ["main/extract_text8.cpp"]}
{"id": "C80", "title": "extract_text8 recognises every picture as specified from its candidates", "statement": "The words of a picture are those of the candidates of score 1 if there are any, otherwise those of the best candidates that resemble the picture by half for each complex feature; the words of a row that has the simple features of the picture are always among them. (Refuted: a division by zero when two zone proportions are 0.)", "quantifier": "every sound table and every small picture", "why_tests_cant": "all tables and pictures", "anchors": ["main/extract_text8.cpp"]}
{"id": "C81", "title": "extract_text8 reads every image with the words of near glyphs", "statement": "With a glyph file and the features written from it, extract_text8 ends on every image, the words it gives to a picture are those of glyphs near it, among them those of the glyphs with the same simple features, and it prints the text of these words. (Proved when the glyphs have the same features; whenever the tables are built, the text is that of the specified recognition with these tables.)", "quantifier": "every glyph file, every image, every legal sort, with or without a dictionary", "why_tests_cant": "all images, and the composition of two programs through two file formats", "anchors": ["main/extract_text8.cpp", "main/write_datas.cpp"]}
{"id": "C82", "title": "show_glyphs shows every character of its pictures, in order and in full", "statement": "For the files of its arguments, show_glyphs prints one frame for every character box of every picture, from left to right, with exactly the pixels of the box; the text printed determines the list of the pictures. It stops at the first file that cannot be loaded, after the frames of the files before it.", "quantifier": "every list of files, every picture whose offsets do not wrap", "why_tests_cant": "all pictures and sizes; injectivity of the display", "anchors": ["main/show_glyphs.cpp", "src/ppocr/image/image.cpp", "src/ppocr/box_char/make_box_character.cpp"]}
{"id": "C83", "title": "The option -l of the programs takes a number", "statement": "show_glyphs and write_glyphs use the number given after -l as luminance, and refuse any other text. (Refuted: the number is reduced modulo 2^32, so that 4294967296 and -1 are accepted and give another luminance; without files, the option itself is taken for a file.)", "quantifier": "every text of the option, every list of arguments", "why_tests_cant": "all texts, including blanks, signs and numbers out of range", "anchors": ["main/show_glyphs.cpp", "main/write_glyphs.cpp"]}
{"id": "C84", "title": "write_glyphs learns all the images of its arguments", "statement": "With arguments image, text, font, image, text, font..., write_glyphs prints the glyphs of all the images, each labelled with the word of the same rank in its text and with its font, decoded with the luminance of the option or 128; a number of arguments that is not a positive multiple of 3 is refused.", "quantifier": "every list of triples of files", "why_tests_cant": "all argument lists and files; composition of the decoder, the segmentation and the text reader", "anchors": ["main/write_glyphs.cpp", "src/ppocr/image/image_from_file.cpp"]}
{"id": "C85", "title": "Coordinates and boxes that are printed are read back", "statement": "Reading with operator>> an Index or Bounds printed by operator<< gives it back, wherever it is in a stream, and a printed Box is its index followed by its bounds; a reading that fails leaves the variable unchanged.", "quantifier": "every coordinates of 32 bits, every text after them, every stream", "why_tests_cant": "all 2^64 pairs and all streams", "anchors": ["src/ppocr/image/coordinate.cpp", "src/ppocr/box_char/box.cpp"]}
{"id": "C86", "title": "Coordinates and boxes are equal when they are the same", "statement": "operator== of Index, Bounds and Box holds exactly between equal values. (Refuted for Box: the position is ignored, two different characters of the same size in one line are equal.)", "quantifier": "every pair of values", "why_tests_cant": "all pairs of boxes", "anchors": ["src/ppocr/box_char/box.hpp", "src/ppocr/image/coordinate.hpp"]}
{"id": "C87", "title": "almost_equal accepts exactly the close numbers", "statement": "almost_equal(x, y, ulp) holds exactly when the two doubles are equal or differ by at most ulp units in the last place; it does not depend on the order of the two. (Symmetry, equal and neighbouring finite numbers proved; refuted: x+y may overflow, then DBL_MAX and DBL_MAX/2 are almost equal; infinity is not almost equal to itself; the tolerance is up to 3 units for 1.)", "quantifier": "every pair of doubles and every ulp", "why_tests_cant": "2^128 pairs; the overflow is in the last binade", "anchors": ["src/ppocr/math/almost_equal.hpp"]}
{"id": "C88", "title": "integer_iterator behaves as the number it holds", "statement": "Iterators over integers are compared, moved and subtracted as their numbers, and a vector made from a range has the numbers of the range. (Refuted: operator<= is <, so an iterator is not <= itself, and the distance to a greater iterator is reduced modulo 2^32 instead of being negative; the vectors of indexes made by the reading programs are exact.)", "quantifier": "every pair of unsigned numbers", "why_tests_cant": "all 2^64 pairs", "anchors": ["src/ppocr/utils/integer_iterator.hpp", "main/extract_text6.cpp", "main/extract_text8.cpp"]}
{"id": "C89", "title": "Normalising glyphs gives one result, and twice is once", "statement": "The glyphs that normalize_glyphs makes from a list of glyphs do not depend on the order of the list (hence of the files of its arguments), nor on the order in which std::sort leaves equal elements; normalising them again changes nothing.", "quantifier": "every list of glyphs, every permutation of it, every legal std::sort", "why_tests_cant": "all permutations and all behaviours of an unstable sort", "anchors": ["main/normalize_glyphs.cpp"]}
{"id": "C90", "title": "No assertion of the code is ever false", "statement": "In a build with assertions, cutting an image into boxes, cloning it, computing its features, comparing feature values of their interval, grouping the glyphs of extract_text6, and assembling a line with a dictionary evaluate only true assertions. (Refuted for images of one row without ink in the last column: the search of the next character evaluates image.data at the end of the image; clone() of an image without pixels.)", "quantifier": "every image and feature value; the end of a line is reached by every program", "why_tests_cant": "all images; the failing ones have one row", "anchors": ["src/ppocr/image/image.hpp", "src/ppocr/image/image.cpp", "src/ppocr/box_char/make_box_character.cpp", "src/ppocr/strategies/utils/relationship.hpp", "main/extract_text6.cpp", "src/ppocr/ocr2/disambiguous_with_dict.cpp", "src/ppocr/loader2/datas_loader.hpp"]}
{"id": "C91", "title": "The zone of a balance grows with the balance", "statement": "horizontal_zone_1_2_3_4_5 gives 3 when the top and bottom sums differ by at most a quarter of the height, 4 or 2 when they differ by at most the height, and 5 or 1 beyond; it is from 1 to 5, monotone in the difference, and exchanging the sums exchanges z and 6 - z.", "quantifier": "every height and every pair of sums of 32 bits", "why_tests_cant": "all 2^64 pairs; unsigned subtraction in both directions", "anchors": ["src/ppocr/strategies/utils/horizontal_zone.hpp"]}
{"id": "C92", "title": "Enumerations that are written are read back", "statement": "Reading with read_enum a value written by write_enum gives it back, and reading is defined for every stream. (Refuted at the end of a stream or on a failed one: the variable that operator>> has not set is read.)", "quantifier": "every value of the underlying type unsigned, every stream", "why_tests_cant": "all streams and states", "anchors": ["src/ppocr/utils/enum_io.hpp"]}
{"id": "C93", "title": "The recognition program prints each picture once, then the text", "statement": "A run of ocr2_extract_text that ends well prints the sizes of its tables, then once for each different picture of a character, in the order of the line, the picture in a frame followed by the words of its candidates, then the text with the counts and the rate in six digits; when a file is refused or missing only the lines before it are printed, and with less than three arguments nothing is.", "quantifier": "every disk and argument list, every legal std::sort", "why_tests_cant": "all lines; repeated and unknown characters, optional files", "anchors": ["main/ocr2_extract_text.cpp", "src/ppocr/image/image.cpp"]}
{"id": "C94", "title": "The numbers printed are the numbers rounded to six digits", "statement": "A double written to a stream with its default format is printed as the number with six significant digits that is nearest to it, to even when there are two, without useless zeros, with an exponent below 0.0001 and from a million; the text is determined by the number, numbers with six digits are exact, the order is kept and the error is at most a two hundred thousandth.", "quantifier": "every finite double of binary64, the subnormal ones included", "why_tests_cant": "all 2^64 doubles, ties and carries", "anchors": ["main/extract_text6.cpp", "main/extract_text8.cpp", "main/ocr2_extract_text.cpp"]}
{"id": "C95", "title": "extract_text6 and extract_text8 print the candidates of each picture", "statement": "A run of extract_text6 or extract_text8 that ends well prints its steps with the sizes of its tables, then once for each different picture, in the order of the line, the picture in a frame and its candidates: one list, or a second one when no score is 1, each with the greatest score, the words that have it, and the other words with their scores in decreasing order, every list of words once; then the three results. When a file is refused or missing only the lines before it are printed, and with less than three arguments nothing is.", "quantifier": "every disk and argument list, every legal std::sort, every table of features", "why_tests_cant": "all lines and tables; equal scores, repeated pictures, pictures without candidate", "anchors": ["main/extract_text6.cpp", "main/extract_text8.cpp"]}
{"id": "C96", "title": "The training programs print a table exactly when their files are complete", "statement": "write_datas, normalize_glyphs and make_trie_dictionary print their table and end with 0 when their files are complete; when a file is missing or is not complete they print no table and end with another code: 1 for wrong arguments, 2 for a missing file, 5 for a file with something else, whose rest write_datas prints in brackets. (Refuted: make_trie_dictionary ends with 0 and prints an empty dictionary when no file can be opened; a glyph file cut in the labels of its last glyph is taken as complete, and write_datas keeps a row for the glyph that normalize_glyphs drops.)", "quantifier": "every disk and argument list, every list of glyphs, every text after it", "why_tests_cant": "all files; blanks, texts and cuts after the glyphs", "anchors": ["main/write_datas.cpp", "main/normalize_glyphs.cpp", "main/make_trie_dictionary.cpp"]}
{"id": "C97", "title": "Images that are learnt are read by the four programs in a row", "statement": "When images and texts are learnt with write_glyphs and its output goes through normalize_glyphs and write_datas, every program ends with 0, and ocr2_extract_text with these files prints the text of each image that was learnt, each different picture with its word, no unknown character, and the number of different pictures as the sizes of the tables. (Refuted when the images are learnt with another luminance than 128, the only one that ocr2_extract_text uses.)", "quantifier": "every disk, list of lessons and legal std::sort; the files of write_glyphs with any luminance", "why_tests_cant": "all lessons whose pictures determine their words; repeated lessons, options", "anchors": ["main/write_glyphs.cpp", "main/normalize_glyphs.cpp", "main/write_datas.cpp", "main/ocr2_extract_text.cpp"]}
{"id": "C98", "title": "Definitions are sorted and made unique", "statement": "unique_sort_definitions puts the definitions in strictly increasing order of character, font and picture: each one that is kept was given, each one given has one with the same character, font and picture among those kept, and no two of those kept are alike. When definitions that are alike have the same features the result does not depend on how std::sort orders equivalent elements.", "quantifier": "every list of definitions with images of any sizes and any legal std::sort", "why_tests_cant": "all lists; repetitions, any order, features of any type", "anchors": ["src/ppocr/utils/unique_sort_definition.cpp:27-60", "src/ppocr/utils/image_compare.cpp:26-46"]}
{"id": "C99", "title": "A glyph file of any bytes is read as the glyphs written in it", "statement": "Whatever its bytes, a glyph file is read by the training programs as the glyphs written in it up to the first thing that is not one, and it is accepted exactly when what stops the reading is the end of the file; each picture has width times height pixels. normalize_glyphs then normalizes the glyphs of all its files or ends with the code of the first one missing or refused, write_datas writes the features of the pictures, and a file of word lines is read as the words followed by four numbers. (Refuted for the pixels: the number of pixels is the product modulo 2^32; refuted for write_datas on a picture without size: its features divide by zero.)", "quantifier": "every list of bytes, every disk and list of names, any sort", "why_tests_cant": "all bytes; cut files, numbers too large or negative, missing words, unexpected characters", "anchors": ["src/ppocr/loader2/glyphs_loader.cpp", "src/ppocr/loader2/image_io.cpp", "main/write_datas.cpp", "main/normalize_glyphs.cpp", "src/ppocr/ocr2/word_lines.cpp:24-52"]}
{"id": "C100", "title": "A feature file of any bytes is read as the values written in it", "statement": "Whatever its bytes, a feature file that is not blank is read as the numbers written in it, up to the first thing that is not one, and it is accepted exactly when what stops the reading is the end of the file. A file with all the values that it announces and nothing else is accepted and gives a complete table; otherwise the values missing in the column where the reading stops are zeros, and the columns after it are empty. The values are always those of the type of their feature. Loading a blank file is undefined behaviour.", "quantifier": "every list of bytes and every list of features", "why_tests_cant": "all bytes; cut files, numbers too large or negative, unexpected characters, blank files", "anchors": ["src/ppocr/defined_loader.hpp:198-263", "src/ppocr/strategies/alternations.cpp:82-84", "src/ppocr/utils/read_file.hpp"]}
{"id": "C101", "title": "A picture file of any bytes is read as the picture written in it", "statement": "Whatever its bytes, a picture file is read as what its header and its data say: the picture of a map of colours or of bits when the data have the length that the header announces, the digits 0 and 1 of a written map when they are fewer than announced, and otherwise one definite exception for each fault - no header, a size of zero or of 2^32 pixels or more, a wrong length, a wrong character, an unsupported type. The type, the size and the data are unique. The luminance matters only for maps of colours, a greater one never adds ink, 0 gives only ink and 256 none. Loading is undefined behaviour exactly for a bitmap of one row of at least 2^31 pixels whose length agrees modulo 2^32.", "quantifier": "every list of bytes and every luminance", "why_tests_cant": "all bytes; complete, cut and too long files of each type, comments, sizes that wrap", "anchors": ["src/ppocr/image/image_from_file.cpp:111-190", "src/ppocr/image/image_from_file.cpp:196-299"]}
{"id": "C102", "title": "Every run of the programs ends", "statement": "No program goes on for ever: whatever the arguments and whatever the files, show_glyphs, write_glyphs, normalize_glyphs, write_datas, make_trie_dictionary and the three programs that read a line of text come to an end, with a result, an exception or undefined behaviour, and every loop of the model stops within the number of rounds that is written at its head. The same holds of the extraction of the features of one picture of any size.", "quantifier": "every list of arguments and every disk (files of bytes, less than 2^32 of them, where a picture or a dictionary is read); every sorting function", "why_tests_cant": "all disks and arguments; well formed, cut and foreign files, empty pictures, sizes that wrap modulo 2^32", "anchors": ["main/show_glyphs.cpp", "main/write_glyphs.cpp", "main/write_datas.cpp", "main/normalize_glyphs.cpp", "main/make_trie_dictionary.cpp", "main/ocr2_extract_text.cpp", "main/extract_text6.cpp", "main/extract_text8.cpp", "src/ppocr/box_char/make_box_character.cpp", "src/ppocr/strategies/dvdirection.cpp", "src/ppocr/strategies/zone.cpp"]}
{"id": "C103", "title": "What ocr2_extract_text prints depends on its files only, unless glyphs tie", "statement": "The order in which std::sort leaves equivalent elements, the content of fresh memory and the contexts of the features cannot be seen in what ocr2_extract_text prints, nor in how it ends: two runs on the same arguments and the same files print the same bytes, when glyphs of equal scores have equal labels and no word has two entries in the file of lines. The features of a picture never depend on the sort. (Refuted without these conditions: a picture learnt with two words is read as one or the other word according to the sort, and so is a word with two entries of lines.)", "quantifier": "every pair of legal runtimes, every disk and arguments; when all files are loaded, a feature file with a value for each glyph, and characters whose features do not overflow", "why_tests_cant": "all files and all sorts; missing and refused files, pictures with one candidate, with several, with none, division by zero in the comparison of zones", "anchors": ["main/ocr2_extract_text.cpp", "src/ppocr/ocr2/compute_image.hpp", "src/ppocr/ocr2/sort_probabilities.hpp", "src/ppocr/ocr2/words_infos.hpp", "src/ppocr/strategies/proportionality_zone.cpp"]}
{"id": "C104", "title": "What the training programs print depends on their files only", "statement": "The order in which std::sort leaves equivalent elements, the content of fresh memory and the contexts of the features cannot be seen in what normalize_glyphs, make_trie_dictionary and write_datas print, nor in how they end: two runs on the same arguments and the same files print the same bytes, whether the files are well formed, cut, missing or foreign.", "quantifier": "every pair of legal sorts, every disk and arguments; for write_datas, any fresh memory and a file whose pictures have fewer than 2^30 pixels each (none included)", "why_tests_cant": "all files and all sorts; repeated pictures and words, pictures without pixels, sizes that wrap modulo 2^32", "anchors": ["main/normalize_glyphs.cpp", "main/make_trie_dictionary.cpp", "main/write_datas.cpp", "src/ppocr/loader2/datas_loader.hpp", "src/ppocr/strategies/proportionality_zone.cpp"]}
{"id": "C105", "title": "What extract_text6 prints depends on its files only, unless glyphs tie", "statement": "With the glyphs and the features that the training programs write, the order in which std::sort leaves equivalent elements and the content of fresh memory cannot be seen in what extract_text6 does: two runs on the same files have the same three results when, for each picture of the line, the glyphs with its tenths have the same words or, if there is none, the glyphs near it have the same words; and they print the same bytes when near glyphs with equal scores have the same words. Files that are refused give the same output in all runs. (Refuted without these conditions: a picture learnt with two words is read as one or the other word according to the sort.)", "quantifier": "every pair of legal runtimes, every trainable list of glyphs, every readable line, every dictionary and every place of the files", "why_tests_cant": "all lines and all sorts; pictures with one candidate, with several, with none, refused and missing files", "anchors": ["main/extract_text6.cpp:172-239", "main/extract_text6.cpp:568-688", "main/extract_text6.cpp:732-883"]}
{"id": "C106", "title": "What extract_text8 prints depends on its files only, unless glyphs differ or tie", "statement": "With the glyphs and the features that the training programs write, the order in which std::sort leaves equivalent elements, the content of fresh memory and that of the strings that were moved cannot be seen in what extract_text8 prints, nor in its results: two runs on the same files are the same, when all the glyphs have the same features and those near a picture with a score in common have the same words. A single picture is recognised in the same way whatever the order of the rows, for any glyphs without such ties. Files that are refused give the same output in all runs. (Refuted in general: for one file of three glyphs the program reads the line with one sort and goes out of its buffers with another; the content of moved strings is printed; and a picture learnt with two words is read as one or the other.)", "quantifier": "every pair of legal runtimes, every trainable list of glyphs without two that differ, every readable line, every dictionary and every place of the files", "why_tests_cant": "all lines and all sorts; pictures with one candidate, with several, with none, glyphs with the same first feature, moved strings that are empty or keep their content", "anchors": ["main/extract_text8.cpp:615-680", "main/extract_text8.cpp"]}
{"id": "C107", "title": "Images that are learnt are read by extract_text6 after the training programs", "statement": "When images and texts are learnt with write_glyphs and its output goes through normalize_glyphs and write_datas, every program ends with 0, and extract_text6 with these files prints the text of each image that was learnt in its three results, and below each different picture its word with the score 1. More generally a picture whose simple features have the tenths of glyphs of one word only is printed with this word. (Refuted for images whose characters change their tenths when they are turned, such as all those that are higher than wide: the image of C97 that ocr2_extract_text reads gives two unknown characters, since extract_text6 does not turn the pictures that it reads.)", "quantifier": "all lists of images and texts, all legal sorts and runtimes, every place of the files, every dictionary", "why_tests_cant": "all lines; repeated pictures, words that are repeated, glyphs near a picture with a null score, images with another luminance", "anchors": ["main/write_glyphs.cpp", "main/normalize_glyphs.cpp", "main/write_datas.cpp", "main/extract_text6.cpp:690-883"]}
{"id": "C108", "title": "A range shows the proxies of the cells between its two positions", "statement": "The values of a loop over a range_iterator are the proxies of the cells between its two pointers, in order; size, empty, operator[], front and back agree with that list. With pointers in the wrong order, or a last one outside the buffer, the loop is undefined. An iterator of a range applies the proxy, whereas the iterators that its operators ++ and + return give the cells themselves. The range that the ordered indexes give, for any value and any distance, is well placed and goes through the rows of get_range.", "quantifier": "all buffers, positions and proxies, every legal std::sort of the indexes, every value and distance", "why_tests_cant": "all positions and proxies; empty ranges, whole buffers, crossed positions, sums that wrap modulo 2^32", "anchors": ["src/ppocr/utils/range_iterator.hpp", "src/ppocr/ocr2/indexes_ordered.hpp:56-75", "src/ppocr/ocr2/data_indexes_ordered.hpp:42-50"]}
{"id": "C109", "title": "The features of a turned image follow the turn", "statement": "When an image is turned by half a turn (rotate90 twice) its density, its proportion, its diagonal density and its number of bars do not change; each top/bottom balance becomes its opposite, up to one unit lost in rounding; the lines of the alternations are those seen from the other ends; the corners are exchanged, the zones of the top with those of the bottom and those of the right with those of the left, and the zones that touch no side are as many. A quarter turn keeps the density, the numbers of zones that touch a side (which turn with the image) or none, and the number of zone proportions, and exchanges the sizes in the proportion. (Refuted for dvdirection2 and dvgravity2, which ignore the lower wedge, for the values of the zone proportions, and for the two rows and the column of the alternations when the height is not 2 modulo 3 or the width is even.)", "quantifier": "all images with 100 * w * h * (w + h) below 2^31, whatever the zone contexts hold", "why_tests_cant": "all images of any sizes; odd and even heights and widths, blank and full images, images of one row or one column", "anchors": ["src/ppocr/image/image.cpp", "src/ppocr/strategies/hdirection.cpp", "src/ppocr/strategies/hgravity.cpp", "src/ppocr/strategies/dvdirection.cpp", "src/ppocr/strategies/dvgravity2.cpp", "src/ppocr/strategies/alternations.cpp:29-76", "src/ppocr/strategies/zone.cpp", "src/ppocr/strategies/proportionality_zone.cpp:28-60", "src/ppocr/strategies/hbar.cpp", "src/ppocr/strategies/dzdensity.cpp"]}
{"id": "C110", "title": "The margins of a picture change nothing", "statement": "When blank columns and rows are added around the picture of a line (whose last column is blank), the characters found are the same ones, moved; write_glyphs and show_glyphs print the same; extract_text6 and extract_text8 print the same, character by character and result by result, and end in the same way. So does ocr2_extract_text when the first character starts more than 4 columns from the left side in both pictures or in none, or is neither a mark nor unknown, and the line is not a single character one row high in the second row. (Refuted otherwise: an unknown first character is printed and counted only after a wide left margin; a single character one row high is read in the first row and makes the program write outside of its buffer in the second one.)", "quantifier": "all images, all margins for which w * h + w is below 2^32, all glyph, feature, line and dictionary files, all legal sorts", "why_tests_cant": "all images and all margins, compared two by two; a first character that is unknown, a mark or a letter; lines of no, one or several characters", "anchors": ["src/ppocr/box_char/make_box_character.cpp:26-103", "main/ocr2_extract_text.cpp:107-197", "src/ppocr/ocr2/filter_by_lines.cpp:74-183", "src/ppocr/ocr2/disambiguous_with_dict.cpp:44-213", "main/write_glyphs.cpp:53-93", "main/show_glyphs.cpp:31-43"]}
{"id": "C111", "title": "Pictures side by side are learnt and read one after the other", "statement": "In a picture made of pictures side by side (whose last columns are blank), the characters found are those of these pictures, in order, moved. write_glyphs, with the texts one after the other, prints what it prints for each; so does show_glyphs. In ocr2_extract_text the candidates of the characters, before the filters, are those they have in the parts. The words that extract_text6 and extract_text8 give are those of the parts, and the text is theirs with blanks between when the parts are four columns apart, all their words are known and none begins with a mark. (Refuted otherwise: ocr2_extract_text chooses one font for the whole line, so that a part may be read in another way; an unknown character is a question mark the first time and an underscore the next; ink in the last column of a part is lost there only; a word too many in one text and one too few in the next are refused apart and accepted together.)", "quantifier": "all images and all numbers of parts, for which w * h + w is below 2^32; all texts; all trained glyph and feature files; all legal sorts; with or without a dictionary for extract_text6, without for extract_text8", "why_tests_cant": "all images put side by side, two runs compared; no part, one, several; parts with no character; parts at different heights; parts that touch, are close or apart; the same picture in several parts; unknown characters and marks", "anchors": ["src/ppocr/box_char/make_box_character.cpp:26-103", "main/write_glyphs.cpp:53-93", "main/show_glyphs.cpp:31-43", "main/ocr2_extract_text.cpp:107-197", "main/extract_text6.cpp:792-872", "src/ppocr/ocr2/filter_by_font.cpp:23-50"]}
{"id": "C112", "title": "What is learnt depends on the pictures and their labels only", "statement": "Runs of write_glyphs on the same images, texts and fonts, in any order, any number of times and in any number of runs, print files that normalize_glyphs turns into the same file, on which alone the features and the recognition depend. Lists of glyphs whose labels are in order are normalised to the same list exactly when they hold the same pictures with the same labels; a normalised file counts as the files it was made from, so that more can be learnt later. Glyph files of any bytes that are accepted give the same in any order. make_trie_dictionary prints the same for the same lines of its file in any order and any number of times.", "quantifier": "all images, texts and fonts that write_glyphs accepts, all numbers of runs, all legal sorts; glyph files of any bytes for the order; dictionary files of any bytes", "why_tests_cant": "all lists of files, two runs compared; no repetition, some, all; one run or several; glyphs with no, one or several labels; files that are missing or spoilt", "anchors": ["main/write_glyphs.cpp:53-119", "main/normalize_glyphs.cpp:30-94", "main/make_trie_dictionary.cpp:30-54", "src/ppocr/spell/dictionary.cpp:36-51"]}
{"id": "C113", "title": "Learning more glyphs changes what is read only by the glyphs that are like the characters", "statement": "A line whose characters all resemble glyphs of one word is read with the same text by ocr2_extract_text and by extract_text6 when more glyphs are learnt, none of those that resemble a character having another word. The words that extract_text6 finds for a picture are those of the glyphs with its tenths; if there is none, those of the glyphs near it that resemble it and are backed by another glyph of their word, if there is another; and otherwise the unknown word. No word is lost by more glyphs if one had the tenths of the picture, and glyphs that are far from it and whose first words are not those of a glyph near it change nothing. (Refuted otherwise: in ocr2_extract_text, glyphs that no character resembles make the program lose a candidate, depending on their places in the file; in both programs another picture of the word of a character, however far, makes the program lose the character when no glyph is the same.)", "quantifier": "all trained glyph and feature files, all images whose characters have areas below the limits of C19, all legal sorts, with or without lines and dictionary files", "why_tests_cant": "all ways of adding glyphs, two runs compared; glyphs before, between and after the others; one or several glyphs with the same picture or the same word; characters that no glyph is like", "anchors": ["main/ocr2_extract_text.cpp:107-197", "main/extract_text6.cpp:568-790", "src/ppocr/ocr2/reduce_universe.hpp", "src/ppocr/ocr2/data_indexes_by_words.cpp"]}
{"id": "C114", "title": "An image that is enlarged keeps the features that count, not those that follow rows or diagonals", "statement": "When each pixel becomes a block of j columns and k rows, the density, the number of bars and the zones are the same; so are the proportions of the sides and of the zones when j = k, and the direction features when the height is even, the gravity being given by an exact formula. The alternations of the second row and of the middle column are the same; those of the first row unless the height is 1 modulo 3, those of the thirds when 3 divides the height or the width. The characters found are the same ones, enlarged, if the last column is blank. (Refuted otherwise: the direction with an odd height, gravities, diagonal features and density by zones, the proportions when only the height changes, the alternations for the other sizes; ink in the last column is seen once it has several columns; a character that was taught is not read when it is twice as large.)", "quantifier": "all images and all j and k for which 100 w h (w + h) of the enlarged image is below 2^31, and w * h + w below 2^32 for the characters", "why_tests_cant": "all images and all factors, two images compared; j = 1, k = 1, j = k, j and k different; even and odd heights; heights and widths of all remainders modulo 3; last column blank or not", "anchors": ["src/ppocr/strategies/density.cpp", "src/ppocr/strategies/hdirection.cpp", "src/ppocr/strategies/hgravity.cpp", "src/ppocr/strategies/alternations.cpp", "src/ppocr/strategies/zone.cpp", "src/ppocr/strategies/proportionality_zone.cpp", "src/ppocr/box_char/make_box_character.cpp:26-103"]}
{"id": "C115", "title": "Files that show the same image are read the same", "statement": "A file is read as a whole image exactly if it is a map of colours (P6) whose ink alone has at least the luminance, or a map of bits (P4) of at least 9 bytes whose blank pixels are 1, the bits after a row being any. Every image has copies of both kinds. When pictures are replaced by others that show the same image, show_glyphs, write_glyphs, ocr2_extract_text, extract_text6 and extract_text8 print the same and end in the same way. (Refuted for the other formats: an image in digits is always refused once it has all its digits, maps of greys are refused, a map of bits of fewer than 9 bytes is refused, and the ink is 0 in bits but 1 in digits.)", "quantifier": "all byte strings, all images, all luminances; all other files and arguments of the programs", "why_tests_cant": "all files that show an image, compared two by two; headers with and without comments, any numerals; any colours; widths of all remainders modulo 8, with any bits after the rows", "anchors": ["src/ppocr/image/image_from_file.cpp:111-299", "main/show_glyphs.cpp:31-67", "main/write_glyphs.cpp:53-119", "main/ocr2_extract_text.cpp:101-112", "main/extract_text6.cpp", "main/extract_text8.cpp"]}
{"id": "C116", "title": "The features of an image and of the same one in a mirror", "statement": "When left and right are exchanged, the density, the proportionality, the horizontal bars and the measures of the halves and of the wedges (hdirection, hdirection2, hgravity, hgravity2, dvdirection, dvdirection2, dvgravity, dvgravity2) stay the same; the rows and the upper and lower bands of the alternations are seen from their other ends, the left and right bands are exchanged, the zones of the left and of the right are exchanged, the corners are those of the other side, and there are as many proportions of zones. When top and bottom are exchanged, the measures of the halves and of both wedges are opposite, and the zones of the top and of the bottom are exchanged. (Refuted: dzdensity, the middle column when the width is even, the proportions of zones, and dvdirection2 upside down.)", "quantifier": "all images for which 100 w h (w + h) is below 2^31; for the alternations, of at least two rows", "why_tests_cant": "all images, two images compared; even and odd widths and heights; zones that touch several sides; one column", "anchors": ["src/ppocr/strategies/density.cpp", "src/ppocr/strategies/hdirection.cpp", "src/ppocr/strategies/hgravity.cpp", "src/ppocr/strategies/dvdirection.cpp", "src/ppocr/strategies/dvgravity.cpp", "src/ppocr/strategies/hbar.cpp", "src/ppocr/strategies/alternations.cpp", "src/ppocr/strategies/zone.cpp", "src/ppocr/strategies/proportionality_zone.cpp"]}
{"id": "C117", "title": "More words in the dictionary change a text only where a word that was added can be read", "statement": "When words are added to a dictionary, what is spelled of some positions is the same, or is a word that was added, that is a choice, and before which no choice is a word. The two other results of extract_text6 and extract_text8 never depend on the dictionary, nor do the numbers of characters and of unknown ones of ocr2_extract_text. With the files of trained glyphs whose labels have one character, what is read of the image does not depend on it either: two dictionaries only spell the same line, so that the programs give the same results when the dictionaries have the same words among those that can be written with the labels. (Refuted: a word that was spelled can be replaced by one that was added; a ligature in the last position can be spelled as a word that no choice is.)", "quantifier": "all dictionaries of well-formed non empty words of fewer than 2^32 letters, or none; all trained glyph and feature files and images whose characters have areas below the limits of C19, all legal sorts; for extract_text8, glyphs whose zones do not tell them apart", "why_tests_cant": "all pairs of dictionaries, two runs compared; no dictionary, words that cannot be written, words read before or after those that were there; one or several candidates", "anchors": ["src/ppocr/spell/word_disambiguouser.hpp", "src/ppocr/spell/dictionary.cpp", "src/ppocr/ocr2/disambiguous_with_dict.cpp:44-213", "main/ocr2_extract_text.cpp:51-197", "main/extract_text6.cpp:568-790", "main/extract_text8.cpp"]}
{"id": "C118", "title": "A greater luminance only takes ink away", "statement": "When the same file is loaded with two luminances, both fail in the same way, or both give images of the same sizes, the one with the greater luminance having the ink of the other except for some pixels; so its density is not greater. The images are the same exactly if no colour has a luminance between the two; all is ink with 0 and nothing with 256, and every other luminance gives what the nearest of 0 to 256 gives. The luminance does not matter for the files that are not maps of colours, nor does the option of show_glyphs and write_glyphs when no image is one. (Refuted: the number of characters may increase or decrease.)", "quantifier": "all byte strings and all luminances; for the density, images of fewer than 2^32 / 100 pixels", "why_tests_cant": "all files and pairs of luminances, two images compared; colours just below, at and above the luminances", "anchors": ["src/ppocr/image/image_from_file.cpp:111-299", "src/ppocr/strategies/density.cpp", "main/show_glyphs.cpp:46-68", "main/write_glyphs.cpp:98-120"]}
{"id": "C119", "title": "The order of the lines of words, and the lines about other words, do not matter", "statement": "Every file of lines tells, for the labels of the glyphs, one list of words with their four values modulo 8: a line of more than 8 bytes or whose text starts no label is skipped, any other is about the least label that its text starts. ocr2_extract_text prints the same and ends in the same way with two files that tell the same list, or that tell each word once and the same words in any order, whatever the features, the image and the dictionary; so a file about other words only is as no file. (Refuted: when a word is told twice, the text can depend on the order of its lines.)", "quantifier": "all trained glyph files, all pairs of files of lines written as word and four numbers, all features, images and dictionaries, all legal sorts", "why_tests_cant": "all pairs of files, two runs compared; sorts that are not stable; words that start other words; values equal modulo 8 only", "anchors": ["src/ppocr/ocr2/words_infos.hpp:40-65", "src/ppocr/ocr2/word_lines.cpp:41-53", "src/ppocr/ocr2/glyphs.cpp", "main/ocr2_extract_text.cpp:62-104"]}
{"id": "C120", "title": "The dictionary that is printed depends on the set of words only, and tells it", "statement": "make_trie_dictionary makes the same of two files exactly if no dictionary can be made of either, or one can be made of both and their lines spell the same characters, in any order and any number of times. For files of UTF-8 words that are not empty, it prints the same exactly if the words are the same ones. (Refuted for other lines: different lines can give the same dictionary.)", "quantifier": "all pairs of files of fewer than 2^32 bytes, whatever the bytes, and of file names of which only some can be opened; all legal sorts", "why_tests_cant": "all pairs of files, two runs compared, and the converse: files that print the same; any order and repetition; malformed characters; the order of equal words is left to the sort", "anchors": ["main/make_trie_dictionary.cpp:30-54", "src/ppocr/spell/dictionary.cpp:36-51", "src/ppocr/container/trie.hpp", "src/ppocr/utils/utf.hpp"]}
{"id": "C121", "title": "The file of features depends on the features of the pictures only, and tells them", "statement": "write_datas prints the same for two glyph files exactly if they have as many glyphs and the glyphs of the same rank have the same features, each computed alone from the picture and its quarter turn; in particular the labels do not matter. (Refuted: the features do not tell the pictures; two squares of different sizes have the same ones.)", "quantifier": "all pairs of glyph files of fewer than 2^64 glyphs whose pictures have areas below the limits of C19; all contents of the buffers, all legal sorts", "why_tests_cant": "all pairs of glyph files, two runs compared, and the converse: files that print the same; the values left in the buffers by other pictures", "anchors": ["main/write_datas.cpp", "src/ppocr/loader2/datas_loader.hpp", "src/ppocr/ocr2/compute_image.hpp"]}
{"id": "C122", "title": "What the reading programs take from the glyph file", "statement": "extract_text6 and extract_text8 give the same results, print the same and end in the same way with two glyph files that can be loaded, have as many glyphs and give the same words to the glyphs of the same rank, apart from words repeated at once: the pictures, the fonts and the numbers of lines do not matter. ocr2_extract_text does so with two files that also have the same fonts, or the same ones with other names. (Refuted: the text of ocr2_extract_text depends on the fonts, and that of extract_text6 on the order of the words of a glyph.)", "quantifier": "all pairs of glyph files, whatever the bytes (for ocr2_extract_text, all that can be written), all features, images, dictionaries and files of lines, all runtimes", "why_tests_cant": "all pairs of files, two runs compared, with the same features; other pictures, fonts, lines; words repeated", "anchors": ["main/extract_text6.cpp:732-790", "main/extract_text8.cpp:581-691", "main/ocr2_extract_text.cpp:51-104", "src/ppocr/ocr2/glyphs.cpp:29-97", "src/ppocr/loader2/glyphs_loader.cpp"]}
{"id": "C123", "title": "Characters that no glyph is near are unknown, and what is printed of them", "statement": "When no glyph is near any character of an image, extract_text6 and extract_text8 give the mark '_' for each character in the first two results; in the third, a picture seen for the first time has no candidate and one that was seen has the mark, so that nothing is printed when the characters are all different. ocr2_extract_text gives the text of a line of unknown characters, which is empty, with 0 unknown ones, when there is no space between them. It is so for every image when nothing was learnt. (Refuted: that unknown characters are all shown and counted.)", "quantifier": "all trained glyph and feature files, none included, all images whose characters are below the limits of C19, all dictionaries and files of lines; for extract_text8 the loading of some glyph files has undefined behaviour (C78); for ocr2_extract_text the images of C69", "why_tests_cant": "all images; pictures that are seen once or more; spaces or none; a division by zero when the characters are compared", "anchors": ["main/extract_text6.cpp:568-883", "main/extract_text8.cpp:407-784", "main/ocr2_extract_text.cpp:51-197", "src/ppocr/ocr2/disambiguous_with_dict.cpp:44-213"]}
