{
 "claims": [
  {
   "property": "C01",
   "status": "proved",
   "theorems": [
    "C01_rotate90_quarter_turn"
   ],
   "note": "rotate90 is the quarter turn"
  },
  {
   "property": "C02",
   "status": "proved",
   "theorems": [
    "C02_rotate90_four_times"
   ],
   "note": "Four quarter turns restore the image"
  },
  {
   "property": "C03",
   "status": "proved",
   "theorems": [
    "C03_section_window",
    "C03_clone_identity"
   ],
   "note": "section copies exactly the requested window"
  },
  {
   "property": "C04",
   "status": "proved",
   "theorems": [
    "C04_image_compare_order",
    "C04_image_compare_transitive"
   ],
   "note": "Image comparison is a total order compatible with equality"
  },
  {
   "property": "C05",
   "status": "proved",
   "theorems": [
    "C05_p6_decoding"
   ],
   "note": "P6 files decode to the luminance threshold"
  },
  {
   "property": "C06",
   "status": "partial",
   "theorems": [
    "C06_p4_decoding",
    "C06_tiny_refuted",
    "C06_tiny"
   ],
   "note": "Proved for files of at least 9 bytes; C06_tiny_refuted: the smallest legal bitmaps (8 bytes) are rejected, a defect of the length test; C06_tiny: one row of at most 8 pixels, the only complete bitmaps refused for that."
  },
  {
   "property": "C07",
   "status": "partial",
   "theorems": [
    "C07_loader_memory_safe_partial",
    "C07_loader_memory_safe_refuted",
    "C07_outcome"
   ],
   "note": "Proved for every byte string except bitmap (P4) headers of width >= 2^31; C07_loader_memory_safe_refuted gives a P4 header that makes the decoder read past the file; C07_outcome: for every byte string, undefined exactly for the one row bitmaps of at least 2^31 pixels whose data has the wrapped length."
  },
  {
   "property": "C08",
   "status": "partial",
   "theorems": [
    "C08_ascii_behaviour",
    "C08_ascii_complete_refuted"
   ],
   "note": "The code does the opposite of the property: C08_ascii_behaviour characterises what is accepted, C08_ascii_complete_refuted shows a complete file rejected and a truncated one accepted."
  },
  {
   "property": "C09",
   "status": "proved",
   "theorems": [
    "C09_box_tight",
    "C09_sides"
   ],
   "note": "A character box is the tight bounding box of a connected column run"
  },
  {
   "property": "C10",
   "status": "proved",
   "theorems": [
    "C10_segmentation"
   ],
   "note": "Line segmentation terminates with ordered disjoint boxes"
  },
  {
   "property": "C11",
   "status": "partial",
   "theorems": [
    "C11_ink_covered_partial",
    "C11_ink_covered_refuted",
    "C11_glyph_lost_refuted"
   ],
   "note": "False as stated: C11_ink_covered_partial shows the ink lying in a box is exactly the ink outside the last column; the two refutations show lost ink."
  },
  {
   "property": "C12",
   "status": "proved",
   "theorems": [
    "C12_interval_similarity",
    "C12_interval_distance",
    "C12_array_similarity",
    "C12_equal_similarity"
   ],
   "note": "Similarity of two feature values is a bounded symmetric score"
  },
  {
   "property": "C13",
   "status": "proved",
   "theorems": [
    "C13_hdirection",
    "C13_hdirection2"
   ],
   "note": "For images with 100*w*h < 2^32."
  },
  {
   "property": "C14",
   "status": "proved",
   "theorems": [
    "C14_hgravity",
    "C14_hgravity2"
   ],
   "note": "For images with 100*w*h*h < 2^32."
  },
  {
   "property": "C15",
   "status": "proved",
   "theorems": [
    "C15_dvdirection",
    "C15_dvgravity",
    "C15_dvdirection2",
    "C15_dvgravity2"
   ],
   "note": "Bounds 100*w*h < 2^32 (directions) and 100*w*h*h < 2^32 (gravities). The second variants ignore the lower wedge."
  },
  {
   "property": "C16",
   "status": "proved",
   "theorems": [
    "C16_density",
    "C16_proportionality",
    "C16_density_overflow_refuted"
   ],
   "note": "Proved below the 32-bit bound; C16_density_overflow_refuted shows the bound is needed."
  },
  {
   "property": "C17",
   "status": "proved",
   "theorems": [
    "C17_dzdensity"
   ],
   "note": "For images with 100*w*h < 2^31 (signed arithmetic in the code)."
  },
  {
   "property": "C18",
   "status": "proved",
   "theorems": [
    "C18_alternations"
   ],
   "note": "For images with h < 2^31."
  },
  {
   "property": "C19",
   "status": "proved",
   "theorems": [
    "C19_hbar"
   ],
   "note": "hbar counts full-row bars"
  },
  {
   "property": "C20",
   "status": "proved",
   "theorems": [
    "C20_zone_labelling",
    "C20_numbering_unique",
    "C20_huge_image_refuted"
   ],
   "note": "For images with w*h < 2^30; C20_huge_image_refuted shows that some bound is needed."
  },
  {
   "property": "C21",
   "status": "proved",
   "theorems": [
    "C21_zone_borders"
   ],
   "note": "For images with w*h < 2^30."
  },
  {
   "property": "C22",
   "status": "proved",
   "theorems": [
    "C22_proportions"
   ],
   "note": "For images with 100*w*h < 2^32; std::sort is any function meeting the C++ requirement."
  },
  {
   "property": "C23",
   "status": "partial",
   "theorems": [
    "C23_comparing_proportions_partial",
    "C23_outcome",
    "C23_self_comparison_refuted"
   ],
   "note": "Proved when the two lists hold no 0 at the same position; C23_self_comparison_refuted: a real image whose comparison with itself divides by zero; C23_outcome: for all lists of percentages, undefined exactly when they have the same length and share a zero, and otherwise the exact value."
  },
  {
   "property": "C24",
   "status": "proved",
   "theorems": [
    "C24_load_alone",
    "C24_history",
    "C24_columns"
   ],
   "note": "For images with w,h >= 1 and w*h < 2^30; the outcome is compared also when a feature fails."
  },
  {
   "property": "C25",
   "status": "partial",
   "theorems": [
    "C25_eq_rows",
    "C25_lt_rows",
    "C25_values",
    "C25_lt_not_an_order_refuted"
   ],
   "note": "eq is exact (C25_eq_rows); lt is characterised (C25_lt_rows) and is not a strict weak order (C25_lt_not_an_order_refuted); the values of a feature are totally ordered (C25_values)."
  },
  {
   "property": "C26",
   "status": "proved",
   "theorems": [
    "C26_glyph_file_round_trip"
   ],
   "note": "For labels and fonts that are non empty and contain no white space (others do not round-trip)."
  },
  {
   "property": "C27",
   "status": "proved",
   "theorems": [
    "C27_feature_file_round_trip"
   ],
   "note": "Feature files round-trip"
  },
  {
   "property": "C28",
   "status": "proved",
   "theorems": [
    "C28_dictionary_file_round_trip"
   ],
   "note": "Dictionary files round-trip"
  },
  {
   "property": "C29",
   "status": "partial",
   "theorems": [
    "C29_truncation_law",
    "C29_truncation_refuted"
   ],
   "note": "False as stated: C29_truncation_law gives the exact result of loading every prefix (the complete lines, never an error); C29_truncation_refuted is a word dictionary whose cut file loads with links outside the table."
  },
  {
   "property": "C30",
   "status": "proved",
   "theorems": [
    "C30_utf8_lossless",
    "C30_truncated_refuted",
    "C30_outcome"
   ],
   "note": "C30_truncated_refuted: a text cut inside a character makes the decoder read past the terminator; C30_outcome: what the decoder used by the dictionary makes of any bytes."
  },
  {
   "property": "C31",
   "status": "proved",
   "theorems": [
    "C31_trie_words"
   ],
   "note": "For words shorter than 2^32 characters."
  },
  {
   "property": "C32",
   "status": "proved",
   "theorems": [
    "C32_flat_trie"
   ],
   "note": "For tries of fewer than 2^32 nodes."
  },
  {
   "property": "C33",
   "status": "proved",
   "theorems": [
    "C33_dictionary_words",
    "C33_empty_word_refuted",
    "C33_outcome"
   ],
   "note": "For word lists of fewer than 2^32 bytes; std::sort is any function meeting the C++ requirement. C33_empty_word_refuted: a list with an empty word always makes the constructor read past the word; C33_outcome: the outcome for words of any bytes."
  },
  {
   "property": "C34",
   "status": "proved",
   "theorems": [
    "C34_only_words"
   ],
   "note": "Candidates are arbitrary byte strings; the words are well formed UTF-8."
  },
  {
   "property": "C35",
   "status": "proved",
   "theorems": [
    "C35_first_spelling"
   ],
   "note": "Spell disambiguation finds the first spelling"
  },
  {
   "property": "C36",
   "status": "partial",
   "theorems": [
    "C36_ligatures_partial",
    "C36_ligatures_read",
    "C36_last_ligature_refuted"
   ],
   "note": "Proved when the candidates of the last position have one character; C36_ligatures_read is the exact behaviour in general; C36_last_ligature_refuted shows a word output that no choice spells and one missed."
  },
  {
   "property": "C37",
   "status": "proved",
   "theorems": [
    "C37_range_query"
   ],
   "note": "std::sort is any function meeting the C++ requirement; without overflow of v + d."
  },
  {
   "property": "C38",
   "status": "proved",
   "theorems": [
    "C38_same_word_index",
    "C38_order",
    "C38_unlabelled_refuted"
   ],
   "note": "For tables where every glyph has a label; C38_unlabelled_refuted: otherwise the front of an empty vector is read; C38_order: the rows come in increasing order, but for the last row of the word, which is first."
  },
  {
   "property": "C39",
   "status": "partial",
   "theorems": [
    "C39_view_classes_partial",
    "C39_view_classes_refuted",
    "C39_rank"
   ],
   "note": "Proved for tables ordered by words; C39_view_classes_refuted: in the table B, A, A the classes are wrong for every legal sort; C39_rank: for every table the class of a position identifies the words of that rank in the ordered table."
  },
  {
   "property": "C40",
   "status": "proved",
   "theorems": [
    "C40_candidates"
   ],
   "note": "For images with 100*w*h*max(w,h) < 2^31, so that no feature overflows, and tables built by the program with a label on each glyph; C50_shared: two characters share a list exactly when their pictures are equal."
  },
  {
   "property": "C41",
   "status": "partial",
   "theorems": [
    "C41_ranking_partial",
    "C41_defined_partial",
    "C41_outcome",
    "C41_division_refuted"
   ],
   "note": "The limit is 0.5; doubles are the stdlib's binary64 SpecFloat; the result is characterised whenever the run is defined, and it is defined when a row has score 1 or the zone proportions can be compared; C41_division_refuted: otherwise the comparison of zone proportions can divide by zero; C41_outcome: it is undefined exactly when the scan of the rows of the same word reaches such a row, and defined with the characterised result in all other cases."
  },
  {
   "property": "C42",
   "status": "proved",
   "theorems": [
    "C42_known"
   ],
   "note": "Same hypotheses as C40; no comparability is needed."
  },
  {
   "property": "C43",
   "status": "partial",
   "theorems": [
    "C43_words_resolve_partial",
    "C43_written_partial",
    "C43_truncated_refuted",
    "C43_open_line",
    "C43_unlabelled_refuted",
    "C43_outcome",
    "C43_small"
   ],
   "note": "For complete files whose glyphs all have a label and whose greatest word has a length not multiple of 4; the other cases are refuted (wrong words or undefined behaviour). C43_outcome gives the exact outcome for a file of any bytes: the glyphs and labels found in it, the missing labels that repeat the first one, and when the result is undefined; C43_small: every file of less than 2^32 bytes has one of these outcomes. unsigned is 4 little endian bytes; memory is taken as sufficient."
  },
  {
   "property": "C44",
   "status": "partial",
   "theorems": [
    "C44_search_partial",
    "C44_present_partial",
    "C44_prefix_refuted",
    "C44_missed_refuted",
    "C44_uninitialised_refuted",
    "C44_exact",
    "C44_words",
    "C44_any",
    "C44_any_words"
   ],
   "note": "Exact result for texts whose characters are above the lengths of the words (any printable text with words of at most 32 bytes): the least word starting with the text; C44_prefix_refuted and C44_missed_refuted show a false positive and, for a word of 34 bytes, a false negative, C44_uninitialised_refuted a search that reads bytes never written. C44_exact: the exact result for every text, the text being compared with the bytes that follow in the block (C44_words: these lists of words exist); C44_any: the same for a file of any bytes, with labels missing. memcmp is taken to read up to the first difference."
  },
  {
   "property": "C45",
   "status": "partial",
   "theorems": [
    "C45_terminators_partial",
    "C45_nul_refuted",
    "C45_overflow_refuted",
    "C45_outcome"
   ],
   "note": "Proved for lengths that are not multiples of 4; C45_overflow_refuted: when the greatest word has such a length every load writes past the block; C45_nul_refuted: otherwise the byte is the length of the next word. C45_outcome: loading is undefined exactly when the greatest word has such a length."
  },
  {
   "property": "C46",
   "status": "partial",
   "theorems": [
    "C46_lines_partial",
    "C46_prefix_refuted",
    "C46_outcome",
    "C46_any",
    "C46_failed",
    "C46_lines_file"
   ],
   "note": "The lines are found exactly for the word that the search of their text finds (C44), which need not be the text itself: C46_prefix_refuted. C46_outcome: the exact result for lines of any texts, undefined exactly when a search reads a byte that was never written; C46_any: the same for a file of any bytes; C46_failed: lines that are not read completely leave the former ones as they were."
  },
  {
   "property": "C47",
   "status": "proved",
   "theorems": [
    "C47_font_filter"
   ],
   "note": "Full statement; lists may be shared between positions. The number of positions is below 2^32."
  },
  {
   "property": "C48",
   "status": "partial",
   "theorems": [
    "C48_line_filter_partial",
    "C48_second_kept_refuted",
    "C48_only_removes"
   ],
   "note": "Exact when the first word contradicts the line or the second does not; otherwise the second word is kept (C48_second_kept_refuted). A list can be emptied."
  },
  {
   "property": "C49",
   "status": "partial",
   "theorems": [
    "C49_in_bounds_partial",
    "C49_lines_partial",
    "C49_baseline_partial",
    "C49_first_lowest_refuted",
    "C49_single_refuted",
    "C49_single_huge_refuted",
    "C49_outcome"
   ],
   "note": "Defined when another box is at least as low as the first, and another starts at least as low; C49_first_lowest_refuted: a write past the histogram when the first box is the lowest (\"go\"); for a single box the buffer is empty (undefined behaviour) or has about 2^32 elements. C49_outcome: the exact outcome for any boxes, undefined exactly when a side is out of the buffer, including the vote left in the buffer by the base line. The allocation is supposed to succeed."
  },
  {
   "property": "C50",
   "status": "proved",
   "theorems": [
    "C50_cache_transparent",
    "C50_shared",
    "C50_total"
   ],
   "note": "For lines whose characters are small enough for the features not to overflow and tables built by the program with a label on each glyph."
  },
  {
   "property": "C51",
   "status": "partial",
   "theorems": [
    "C51_text",
    "C51_plain_partial",
    "C51_dictionary",
    "C51_break_refuted"
   ],
   "note": "C51_text is the exact text for any dictionary; C51_plain_partial is the stated text when the leading run does not end at a break; C51_break_refuted: \"- a\" is read \"-a\"."
  },
  {
   "property": "C52",
   "status": "partial",
   "theorems": [
    "C52_terminates_iff",
    "C52_words_partial",
    "C52_diverges_refuted",
    "C52_rewrites",
    "C52_gone_partial",
    "C52_gone_refuted"
   ],
   "note": "Termination is characterised exactly (C52_terminates_iff) and C52_diverges_refuted covers the other rules; the pattern is gone when its ends do not overlap the replacement, and may remain otherwise (C52_gone_refuted)."
  },
  {
   "property": "C53",
   "status": "proved",
   "theorems": [
    "C53_normalize"
   ],
   "note": "std::sort is any function meeting the C++ requirement."
  },
  {
   "property": "C54",
   "status": "proved",
   "theorems": [
    "C54_reindex",
    "C54_moved",
    "C54_repeated_refuted",
    "C54_overflow_refuted"
   ],
   "note": "For permutations of the positions; C54_moved gives the result for every list of positions of the same length; C54_repeated_refuted and C54_overflow_refuted for other index lists."
  },
  {
   "property": "C55",
   "status": "proved",
   "theorems": [
    "C55_context",
    "C55_large_refuted"
   ],
   "note": "For images of fewer than 2^31 pixels; C55_large_refuted: for others the buffer size wraps and the pixels are written past it."
  },
  {
   "property": "C56",
   "status": "proved",
   "theorems": [
    "C56_read_all_any_schedule"
   ],
   "note": "Reading a file does not depend on the read sizes"
  },
  {
   "property": "C57",
   "status": "proved",
   "theorems": [
    "C57_truncated_glyphs"
   ],
   "note": "A truncated glyph file gives only glyphs of the file"
  },
  {
   "property": "C58",
   "status": "partial",
   "theorems": [
    "C58_truncation_law",
    "C58_empty_refuted",
    "C58_truncation_refuted",
    "C58_program_refuted"
   ],
   "note": "False as stated: C58_truncation_law describes the result of every cut but the empty one, for which an unset size is read (C58_empty_refuted), C58_truncation_refuted a cut file of the real feature list that loads as a table with columns of different heights; C58_program_refuted: ocr2_extract_text does not refuse it, and reads out of the table or recognises nothing."
  },
  {
   "property": "C59",
   "status": "partial",
   "theorems": [
    "C59_unknown_partial",
    "C59_unknown_refuted"
   ],
   "note": "Proved when the leading run of marks has no unrecognised character; C59_unknown_refuted otherwise."
  },
  {
   "property": "C60",
   "status": "proved",
   "theorems": [
    "C60_rules_read",
    "C60_last_line_refuted",
    "C60_space_refuted",
    "C60_outcome"
   ],
   "note": "For rules of visible characters and lines ended by a newline; C60_last_line_refuted and C60_space_refuted for other layouts; C60_outcome: exactly what is read from a file of any bytes."
  },
  {
   "property": "C61",
   "status": "partial",
   "theorems": [
    "C61_labels_partial",
    "C61_labels_refuted"
   ],
   "note": "Exact: the labels are in order for the glyphs that are not before all repeated images, the others are kept as they are (C61_labels_refuted: a glyph that keeps a label twice)."
  },
  {
   "property": "C62",
   "status": "partial",
   "theorems": [
    "C62_dictionary_partial",
    "C62_files_refuted",
    "C62_no_file",
    "C62_empty_line_refuted",
    "C62_lines",
    "C62_outcome"
   ],
   "note": "For the first file that can be opened and lines that are not empty; C62_files_refuted: the files after it are not read; C62_empty_line_refuted: an empty line is undefined behaviour; C62_outcome: the outcome for files of any bytes."
  },
  {
   "property": "C63",
   "status": "proved",
   "theorems": [
    "C63_learn",
    "C63_learn_all",
    "C63_learnt_readable",
    "C63_words"
   ],
   "note": "For images whose boxes can be searched (C09); the words are those separated by blanks."
  },
  {
   "property": "C64",
   "status": "proved",
   "theorems": [
    "C64_normalize_files"
   ],
   "note": "For files written by the glyph writer with fewer than 2^32 labels in all; the labels inside a glyph may still be repeated (C61)."
  },
  {
   "property": "C65",
   "status": "proved",
   "theorems": [
    "C65_feature_rows"
   ],
   "note": "For files written by the glyph writer and images with 100*w*h*max(w,h) < 2^31."
  },
  {
   "property": "C66",
   "status": "proved",
   "theorems": [
    "C66_accepted_files"
   ],
   "note": "An exact description of the accepted files; a number may have a sign, a negative one being taken modulo 2^32; a cut record at the end is accepted (see C29)."
  },
  {
   "property": "C67",
   "status": "partial",
   "theorems": [
    "C67_lessons_partial",
    "C67_learn_and_read_partial",
    "C67_not_normalized_partial",
    "C67_read_partial",
    "C67_two_colours",
    "C67_upside_down_refuted",
    "C67_lowest_first_refuted",
    "C67_lost_break_refuted"
   ],
   "note": "Proved through the four programs when the words can be loaded, pictures resembling each other (every simple feature equal to less than a hundredth of its range) have the same word, another character is at least as low as the first, and no gap follows leading marks; C67_upside_down_refuted, C67_lowest_first_refuted and C67_lost_break_refuted show that the last three are needed."
  },
  {
   "property": "C68",
   "status": "partial",
   "theorems": [
    "C68_percentage_partial",
    "C68_rate",
    "C68_percentage_refuted",
    "C68_empty_refuted",
    "C68_wraps_refuted"
   ],
   "note": "C68_rate says exactly what is printed; it is the percentage when all characters are recognised or there is one character; C68_percentage_refuted, C68_empty_refuted and C68_wraps_refuted otherwise."
  },
  {
   "property": "C69",
   "status": "partial",
   "theorems": [
    "C69_read_partial",
    "C69_exact_partial",
    "C69_outcome",
    "C69_division_refuted",
    "C69_one_character_refuted",
    "C69_unknown_refuted"
   ],
   "note": "Proved when the zone proportions of the pictures can be compared with those of the glyphs or the picture resembles a glyph, and the first character is not the only lowest one; the text is the exact rendering of the candidates (C51, C59), and C69_exact_partial tells the candidates exactly: recognised from the table of the glyphs (C41), shared by equal pictures (C50), then through the filter by lines (C49) and the filter by fonts (C47); C69_outcome: the exact outcome for every line of characters that are not too large, undefined exactly when a picture divides by zero (C41) or a box is out of the buffer of the filter by lines (C49); C69_division_refuted, C69_one_character_refuted and C69_unknown_refuted for the others."
  },
  {
   "property": "C70",
   "status": "partial",
   "theorems": [
    "C70_refused_partial",
    "C70_exact",
    "C70_order_refuted"
   ],
   "note": "Proved when the numbers of glyphs differ; C70_order_refuted: features of the same glyphs in another order are accepted; C70_exact: with as many glyphs, the program reads exactly as with the files of the pictures of the one and the labels of the other."
  },
  {
   "property": "C71",
   "status": "proved",
   "theorems": [
    "C71_candidates",
    "C71_unchecked_refuted"
   ],
   "note": "For tables in the order of the first feature whose values are in range; C71_unchecked_refuted: values of a file are not checked."
  },
  {
   "property": "C72",
   "status": "partial",
   "theorems": [
    "C72_unturned_partial",
    "C72_own_glyph_partial",
    "C72_turned_refuted"
   ],
   "note": "Proved: all features are those of the unturned image (C72_unturned_partial), and a glyph is read as itself when the turn does not change its tenths; C72_turned_refuted: r and l are learnt and not read."
  },
  {
   "property": "C73",
   "status": "partial",
   "theorems": [
    "C73_same_words_partial",
    "C73_order",
    "C73_unlabelled_refuted"
   ],
   "note": "For labelled glyphs, with the exact order of the lists (C73_order); C73_unlabelled_refuted otherwise."
  },
  {
   "property": "C74",
   "status": "partial",
   "theorems": [
    "C74_line",
    "C74_again_partial",
    "C74_again_refuted"
   ],
   "note": "C74_line is exact; C74_again_partial: what the cache holds is what was found the first time, except for unrecognised pictures (C74_again_refuted)."
  },
  {
   "property": "C75",
   "status": "partial",
   "theorems": [
    "C75_text_partial",
    "C75_leading_refuted"
   ],
   "note": "Proved for the line without its leading marks; C75_leading_refuted otherwise."
  },
  {
   "property": "C76",
   "status": "partial",
   "theorems": [
    "C76_read_partial",
    "C76_exact"
   ],
   "note": "C76_exact: the result for every line whose pictures are small enough, and exactly when a recognition divides by zero.  C76_read_partial relates the words to the glyphs."
  },
  {
   "property": "C77",
   "status": "partial",
   "theorems": [
    "C77_outcome_partial",
    "C77_exact",
    "C77_division_refuted"
   ],
   "note": "C77_exact: the exact outcome, and exactly when a comparison of zone proportions divides by zero (C77_division_refuted)."
  },
  {
   "property": "C78",
   "status": "partial",
   "theorems": [
    "C78_alike_partial",
    "C78_merge_refuted",
    "C78_four_refuted",
    "C78_two_refuted",
    "C78_outcome"
   ],
   "note": "C78_outcome: exactly what is loaded, for every glyph file: the tables are built when none or two of the glyphs have other features than the first, and it is undefined otherwise. So the merge is right only when all the glyphs have the same features; C78_two_refuted: wrong words with two others. std::copy on overlapping ranges is taken as a memmove."
  },
  {
   "property": "C79",
   "status": "proved",
   "theorems": [
    "C79_candidates"
   ],
   "note": "For tables of values of any size; the picture is small enough for its features not to overflow."
  },
  {
   "property": "C80",
   "status": "partial",
   "theorems": [
    "C80_outcome_partial",
    "C80_exact",
    "C80_identical",
    "C80_division_refuted"
   ],
   "note": "C80_exact: the exact outcome, and exactly when a comparison of zone proportions divides by zero (C80_division_refuted)."
  },
  {
   "property": "C81",
   "status": "partial",
   "theorems": [
    "C81_read_partial",
    "C81_loaded_partial",
    "C81_exact"
   ],
   "note": "C81_exact: for the tables that are built whatever they are, the result and exactly when there is none.  C81_read_partial relates the words to the glyphs when these have the same features (C78)."
  },
  {
   "property": "C82",
   "status": "proved",
   "theorems": [
    "C82_line",
    "C82_picture",
    "C82_readable",
    "C82_drawable",
    "C82_program",
    "C82_unreadable"
   ],
   "note": "Pictures of less than 2^32-3 columns; the output is what is given to std::cout, flushed or not."
  },
  {
   "property": "C83",
   "status": "partial",
   "theorems": [
    "C83_option_partial",
    "C83_total",
    "C83_default",
    "C83_used",
    "C83_wraps_refuted",
    "C83_no_file_refuted"
   ],
   "note": "The accepted texts and the luminance are exact; C83_wraps_refuted: the number is reduced modulo 2^32; C83_no_file_refuted: without file the option is taken for one. errno is taken to be 0 at the start."
  },
  {
   "property": "C84",
   "status": "proved",
   "theorems": [
    "C84_learnt",
    "C84_option",
    "C84_usage"
   ],
   "note": "For files that can be read and have as many words as characters; C82_unreadable and C63 describe the other ends."
  },
  {
   "property": "C85",
   "status": "proved",
   "theorems": [
    "C85_pair",
    "C85_box",
    "C85_failed"
   ],
   "note": "Box has no operator>>: its index and its bounds are read one after the other."
  },
  {
   "property": "C86",
   "status": "partial",
   "theorems": [
    "C86_pairs",
    "C86_boxes_partial",
    "C86_boxes_refuted"
   ],
   "note": "Exact for Index and Bounds; boxes are equal iff they have the same size, C86_boxes_refuted shows two different characters."
  },
  {
   "property": "C87",
   "status": "partial",
   "theorems": [
    "C87_same_partial",
    "C87_symmetric",
    "C87_opposite",
    "C87_neighbours",
    "C87_exact",
    "C87_refuted"
   ],
   "note": "Symmetry for all doubles, NaN and infinities included; C87_neighbours for numbers of one binade with exponents from -1022 to 890; C87_exact: without tolerance, exactly the numbers whose difference is subnormal; C87_refuted: overflow of the sum, infinity, 3 units accepted for 1."
  },
  {
   "property": "C88",
   "status": "partial",
   "theorems": [
    "C88_order_partial",
    "C88_distance_partial",
    "C88_moves",
    "C88_reached",
    "C88_range",
    "C88_indexes",
    "C88_refuted"
   ],
   "note": "operator<= is exact iff the numbers differ, the distance iff it is not negative; C88_refuted has the two witnesses. For T = unsigned, the only use."
  },
  {
   "property": "C89",
   "status": "proved",
   "theorems": [
    "C89_determined",
    "C89_again"
   ],
   "note": "std::sort is any function meeting the C++ requirement."
  },
  {
   "property": "C90",
   "status": "partial",
   "theorems": [
    "C90_boxes_partial",
    "C90_one_row_refuted",
    "C90_section",
    "C90_clone",
    "C90_features",
    "C90_relation_inside",
    "C90_relation",
    "C90_groups",
    "C90_assembly",
    "C90_distance_interval",
    "C90_distance_equal",
    "C90_distance_alternations",
    "C90_distance_zones",
    "C90_distance_proportionality",
    "C90_indexes"
   ],
   "note": "C90_boxes_partial is exact: only images of one row without ink in the last column fail (C90_one_row_refuted). The assertions of filter_by_lines.cpp (two vectors filled by the same loop), count_zone.hpp (an index into a buffer: undefined behaviour in the model, excluded by C20 and C21) and image_from_string.cpp (tests only) are not among them."
  },
  {
   "property": "C91",
   "status": "proved",
   "theorems": [
    "C91_zone",
    "C91_laws"
   ],
   "note": "No program of the repository uses the header."
  },
  {
   "property": "C92",
   "status": "partial",
   "theorems": [
    "C92_read_back",
    "C92_defined_partial",
    "C92_range",
    "C92_end_refuted"
   ],
   "note": "C92_defined_partial is exact: the variable is read without value exactly when the stream is not good or holds only blanks (C92_end_refuted). For unsigned underlying types; no program of the repository uses the header."
  },
  {
   "property": "C93",
   "status": "proved",
   "theorems": [
    "C93_output",
    "C93_rate",
    "C93_taught",
    "C93_refused",
    "C93_image_refused",
    "C93_missing_datas",
    "C93_missing_glyphs",
    "C93_missing_image",
    "C93_usage"
   ],
   "note": "C93_output gives the lines of the pictures when no column of the feature file is short (full_table; a truncated file may give one, C58) and the characters are not so large that features overflow (C19); C93_taught gives the whole output. Only standard output is modelled, messages on the error stream are not; a file that does not open is None of the disk."
  },
  {
   "property": "C94",
   "status": "proved",
   "theorems": [
    "C94_printed",
    "C94_unique",
    "C94_nearest_unique",
    "C94_exact",
    "C94_order",
    "C94_error",
    "C94_special"
   ],
   "note": "The scores and the rates that the programs print. The conversion is that of printf with %g and the precision 6, which the C++ standard requires; nan may be printed as nan or -nan."
  },
  {
   "property": "C95",
   "status": "proved",
   "theorems": [
    "C95_picture6",
    "C95_picture8",
    "C95_output6",
    "C95_output8",
    "C95_trained6",
    "C95_trained8",
    "C95_refused",
    "C95_image6",
    "C95_image8",
    "C95_usage"
   ],
   "note": "The characters are not so large that features overflow (C19); C95_trained6 and C95_trained8 give the whole output with trained glyphs and exactly when there is none. Only standard output is modelled: the times printed on the error stream are not."
  },
  {
   "property": "C96",
   "status": "partial",
   "theorems": [
    "C96_write_datas_partial",
    "C96_write_datas_file",
    "C96_normalize",
    "C96_normalize_stops",
    "C96_dictionary",
    "C96_dictionary_refuted",
    "C96_usage",
    "C96_cut_refuted"
   ],
   "note": "Exact for the numbers of arguments, missing files, complete files, and files with something that does not start as a number after the glyphs; C96_write_datas_file for all files. C96_dictionary_refuted: no file at all ends with 0; C96_cut_refuted: a cut file ends with 0."
  },
  {
   "property": "C97",
   "status": "partial",
   "theorems": [
    "C97_reads_partial",
    "C97_files",
    "C97_luminance_refuted"
   ],
   "note": "C97_reads_partial: the luminance is 128 and the lessons satisfy the conditions of C67 (pictures that resemble each other have the same word, the first character is not the only lowest one, no break after marks at the beginning). C97_files holds for every luminance. C97_luminance_refuted: with -l 201 a grey pixel that was background is read as a character."
  },
  {
   "property": "C98",
   "status": "proved",
   "theorems": [
    "C98_unique_sort",
    "C98_determined"
   ],
   "note": "The header that defines Definition is not in the repository; the three members that the code reads are modelled, with features of any type. C98_features: of two definitions alike but for their features, the sort chooses."
  },
  {
   "property": "C99",
   "status": "partial",
   "theorems": [
    "C99_glyphs",
    "C99_pixels_partial",
    "C99_pixels_refuted",
    "C99_write_datas",
    "C99_no_size_refuted",
    "C99_normalize",
    "C99_lines"
   ],
   "note": "Exact outcome for every list of bytes; allocations of views and pixels are supposed to succeed. C99_pixels_refuted: a picture of 65536 by 65536 is read without a pixel. C99_no_size_refuted: write_datas on a picture of size 0 by 0 is undefined."
  },
  {
   "property": "C100",
   "status": "proved",
   "theorems": [
    "C100_outcome",
    "C100_whole",
    "C100_values"
   ],
   "note": "Exact outcome for every list of bytes; the allocations of vector::resize are supposed to succeed."
  },
  {
   "property": "C101",
   "status": "proved",
   "theorems": [
    "C101_outcome",
    "C101_header",
    "C101_luminance",
    "C101_ink",
    "C101_extremes"
   ],
   "note": "Exact outcome for every list of bytes and luminance; the pixels of a written map that are not given are left unset, which the model shows as a list that is too short."
  },
  {
   "property": "C102",
   "status": "proved",
   "theorems": [
    "C102_show_glyphs",
    "C102_write_glyphs",
    "C102_normalize_glyphs",
    "C102_write_datas",
    "C102_make_trie_dictionary",
    "C102_features",
    "C102_ocr2",
    "C102_main6",
    "C102_main8",
    "C102_dictionary_file"
   ],
   "note": "For the programs that are modelled; memory is taken as sufficient. A run that meets undefined behaviour is counted as ended. normalize_glyphs, write_datas and the readers of dictionaries need no bound on the size of the files."
  },
  {
   "property": "C103",
   "status": "proved",
   "theorems": [
    "C103_recognition",
    "C103_features",
    "C103_output",
    "C103_ties_refuted",
    "C103_lines_refuted"
   ],
   "note": "For ocr2_extract_text. The conditions are part of the statement; labels are compared with their fonts. C103_ties_refuted and C103_lines_refuted show that both are needed."
  },
  {
   "property": "C104",
   "status": "proved",
   "theorems": [
    "C104_normalize",
    "C104_dictionary",
    "C104_write_datas"
   ],
   "note": "normalize_glyphs and make_trie_dictionary: any files. write_datas: the limit of 2^30 pixels for each picture is part of the statement (the sums of the zones stay below 2^32)."
  },
  {
   "property": "C105",
   "status": "proved",
   "theorems": [
    "C105_results",
    "C105_output",
    "C105_picture",
    "C105_refused",
    "C105_ties_refuted"
   ],
   "note": "For extract_text6 on files written by the training programs. The conditions are part of the statement; C105_ties_refuted shows that they are needed."
  },
  {
   "property": "C106",
   "status": "partial",
   "theorems": [
    "C106_results_partial",
    "C106_output_partial",
    "C106_picture",
    "C106_refused",
    "C106_sort_refuted",
    "C106_moved_refuted",
    "C106_ties_refuted"
   ],
   "note": "Proved for files whose glyphs all have the same features, which are the only ones that extract_text8 loads without mixing words or leaving its buffers (C78). C106_sort_refuted, C106_moved_refuted and C106_ties_refuted show that the statement fails in general; C106_picture holds for any glyphs."
  },
  {
   "property": "C107",
   "status": "partial",
   "theorems": [
    "C107_reads_partial",
    "C107_files",
    "C107_glyphs",
    "C107_reads_refuted"
   ],
   "note": "C107_reads_partial: the luminance is 128, the tenths of the features of each character do not change by turning it, and different words have different tenths. C107_files (any luminance) and C107_glyphs (any glyphs) hold for all lines whose characters match one word only. C107_reads_refuted: an image that ocr2_extract_text reads after the same programs is not read."
  },
  {
   "property": "C108",
   "status": "proved",
   "theorems": [
    "C108_loop",
    "C108_misplaced",
    "C108_access",
    "C108_iterator",
    "C108_indexes"
   ],
   "note": "C108_loop and C108_misplaced say what the loop does for all positions; C108_iterator is the behaviour of the operators that pointer_iterator gives to proxy_iterator; C108_indexes is the only use of the ranges."
  },
  {
   "property": "C109",
   "status": "partial",
   "theorems": [
    "C109_half_turn_partial",
    "C109_alternations_partial",
    "C109_zones",
    "C109_quarter_turn",
    "C109_proportions_partial",
    "C109_upper_wedge_refuted",
    "C109_proportions_refuted",
    "C109_alternations_refuted"
   ],
   "note": "C109_zones and C109_quarter_turn hold as stated; C109_half_turn_partial for all the other measures except dvdirection2 and dvgravity2 (C109_upper_wedge_refuted); C109_alternations_partial and C109_proportions_partial with the refutations of the rest."
  },
  {
   "property": "C110",
   "status": "partial",
   "theorems": [
    "C110_characters",
    "C110_learnt",
    "C110_read6",
    "C110_read8",
    "C110_read_partial",
    "C110_printed6",
    "C110_printed8",
    "C110_printed_partial",
    "C110_indent_refuted",
    "C110_second_row_refuted",
    "C110_last_column_refuted"
   ],
   "note": "C110_characters, C110_learnt, C110_read6, C110_read8, C110_printed6 and C110_printed8 (all that is printed) hold as stated, for any files and any end. C110_read_partial and C110_printed_partial are ocr2_extract_text; C110_indent_refuted, C110_second_row_refuted and C110_last_column_refuted show that its conditions are needed."
  },
  {
   "property": "C111",
   "status": "partial",
   "theorems": [
    "C111_characters",
    "C111_learnt",
    "C111_shown",
    "C111_candidates",
    "C111_read6_partial",
    "C111_read8_partial",
    "C111_lessons_partial",
    "C111_font_refuted",
    "C111_unknown_refuted",
    "C111_last_column_refuted",
    "C111_words_refuted"
   ],
   "note": "C111_characters, C111_learnt, C111_shown and C111_candidates hold as stated. C111_read6_partial and C111_read8_partial give the words of the parts, and their texts under the conditions of joined_result; C111_lessons_partial is C67 for all arrangements of the lines that were taught; C111_font_refuted, C111_unknown_refuted, C111_last_column_refuted and C111_words_refuted show the exceptions."
  },
  {
   "property": "C112",
   "status": "proved",
   "theorems": [
    "C112_runs",
    "C112_glyphs",
    "C112_added",
    "C112_order",
    "C112_names",
    "C112_dictionary",
    "C112_labels_refuted",
    "C112_code_refuted",
    "C112_dictionary_refuted"
   ],
   "note": "C112_runs, C112_glyphs, C112_added, C112_order, C112_names and C112_dictionary hold as stated. C112_labels_refuted (labels out of order in a file given twice), C112_code_refuted (the exit code of files that are refused) and C112_dictionary_refuted (the order of the dictionary files) show what does not hold."
  },
  {
   "property": "C113",
   "status": "partial",
   "theorems": [
    "C113_text_partial",
    "C113_text6",
    "C113_words6",
    "C113_more6",
    "C113_unrelated6",
    "C113_results6_partial",
    "C113_lost_refuted",
    "C113_unlike_refuted",
    "C113_far6_refuted"
   ],
   "note": "C113_text6, C113_words6, C113_more6 and C113_unrelated6 hold as stated. C113_text_partial is ocr2_extract_text under the conditions of C67; C113_results6_partial needs glyphs whose choice is not left to the sort (C105). C113_lost_refuted, C113_unlike_refuted and C113_far6_refuted show the exceptions."
  },
  {
   "property": "C114",
   "status": "partial",
   "theorems": [
    "C114_enlarged",
    "C114_counts",
    "C114_same",
    "C114_halves_partial",
    "C114_alternations_partial",
    "C114_characters_partial",
    "C114_odd_refuted",
    "C114_gravity_refuted",
    "C114_higher_refuted",
    "C114_alternations_refuted",
    "C114_edge_refuted",
    "C114_text_refuted"
   ],
   "note": "C114_counts and C114_same hold as stated. C114_halves_partial is for even heights, C114_alternations_partial for the sizes it names, C114_characters_partial for a blank last column; C114_odd_refuted, C114_gravity_refuted, C114_higher_refuted, C114_alternations_refuted, C114_edge_refuted and C114_text_refuted show the exceptions."
  },
  {
   "property": "C115",
   "status": "partial",
   "theorems": [
    "C115_loaded_partial",
    "C115_exist",
    "C115_shown",
    "C115_learnt",
    "C115_read",
    "C115_digits_refuted",
    "C115_greys_refuted",
    "C115_ink_refuted",
    "C115_short_refuted"
   ],
   "note": "C115_exist, C115_shown, C115_learnt and C115_read hold as stated. C115_loaded_partial is for maps of colours and of bits, the only files read as whole images; C115_digits_refuted, C115_greys_refuted, C115_ink_refuted and C115_short_refuted are the other files."
  },
  {
   "property": "C116",
   "status": "partial",
   "theorems": [
    "C116_mirror_partial",
    "C116_alternations_partial",
    "C116_zones",
    "C116_proportions_partial",
    "C116_flip_partial",
    "C116_diagonal_refuted",
    "C116_middle_refuted",
    "C116_proportions_refuted",
    "C116_upper_wedge_refuted"
   ],
   "note": "C116_zones holds as stated. C116_mirror_partial, C116_alternations_partial, C116_proportions_partial and C116_flip_partial leave out dzdensity (C116_diagonal_refuted), the middle column of an even width (C116_middle_refuted), the values of the proportions (C116_proportions_refuted) and dvdirection2 upside down (C116_upper_wedge_refuted)."
  },
  {
   "property": "C117",
   "status": "partial",
   "theorems": [
    "C117_spelling_partial",
    "C117_replaced_refuted",
    "C117_ligature_refuted",
    "C117_results6",
    "C117_results8",
    "C117_read6_partial",
    "C117_same6_partial",
    "C117_read8_partial",
    "C117_same8_partial",
    "C117_results2",
    "C117_read2_partial",
    "C117_same2_partial"
   ],
   "note": "C117_results6, C117_results8 and C117_results2 hold as stated. C117_spelling_partial, C117_read2_partial, C117_same2_partial, C117_read6_partial, C117_same6_partial, C117_read8_partial and C117_same8_partial are for labels of one character (C117_ligature_refuted shows the exception); those of extract_text8 are for glyphs whose zones do not tell them apart. C117_replaced_refuted shows that words that were spelled are not kept."
  },
  {
   "property": "C118",
   "status": "partial",
   "theorems": [
    "C118_ink",
    "C118_density_partial",
    "C118_same",
    "C118_extremes",
    "C118_range",
    "C118_other_files",
    "C118_programs_range",
    "C118_programs_other",
    "C118_characters_refuted"
   ],
   "note": "C118_ink, C118_same, C118_extremes, C118_range, C118_other_files, C118_programs_range and C118_programs_other hold as stated. C118_density_partial is the consequence for the density; C118_characters_refuted shows that there is none for the number of characters."
  },
  {
   "property": "C119",
   "status": "partial",
   "theorems": [
    "C119_told",
    "C119_same_partial",
    "C119_printed_partial",
    "C119_useless",
    "C119_order_refuted"
   ],
   "note": "C119_told and C119_useless hold as stated. C119_same_partial (text and numbers) and C119_printed_partial (all that is printed) are for words in the same order or told once each; C119_order_refuted shows the exception."
  },
  {
   "property": "C120",
   "status": "proved",
   "theorems": [
    "C120_exact",
    "C120_words",
    "C120_bytes_refuted"
   ],
   "note": "For files of fewer than 2^32 bytes; C120_exact for any bytes, C120_words for UTF-8 words. C120_bytes_refuted: malformed lines that are different and give one dictionary."
  },
  {
   "property": "C121",
   "status": "proved",
   "theorems": [
    "C121_exact",
    "C121_labels",
    "C121_pictures_refuted"
   ],
   "note": "C121_exact and C121_labels, for pictures below the limits of C19. C121_pictures_refuted: two squares of different sizes have the same features."
  },
  {
   "property": "C122",
   "status": "proved",
   "theorems": [
    "C122_words",
    "C122_printed",
    "C122_fonts",
    "C122_renamed",
    "C122_fonts_refuted",
    "C122_order_refuted"
   ],
   "note": "C122_words, C122_printed, C122_fonts and C122_renamed. C122_fonts_refuted: with the same words and the same features, another font gives another text. C122_order_refuted: the first word of a glyph is the one that is printed."
  },
  {
   "property": "C123",
   "status": "partial",
   "theorems": [
    "C123_read6",
    "C123_read8_outcome",
    "C123_read8_partial",
    "C123_silent",
    "C123_read_partial",
    "C123_nothing",
    "C123_counted_refuted"
   ],
   "note": "C123_read6 without restriction; C123_read8_outcome for all glyphs: the same unless loading has undefined behaviour, which depends on how many glyphs differ from the first; C123_read8_partial when the features tell no glyphs apart; C123_read_partial for the images of C69; C123_silent when the characters are all different; C123_nothing when nothing was learnt. C123_counted_refuted: three unknown characters, nothing shown, 0 counted."
  }
 ]
}