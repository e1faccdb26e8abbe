# Notes of MANIFEST.json, one per property.
note("C06", "Proved for files of at least 9 bytes; C06_tiny_refuted: the smallest legal bitmaps (8 bytes) are rejected, a defect of the length test; C06_tiny: one row of at most 8 pixels, the only complete bitmaps refused for that.", True)
note("C07", "Proved for every byte string except bitmap (P4) headers of width >= 2^31; C07_loader_memory_safe_refuted gives a P4 header that makes the decoder read past the file; C07_outcome: for every byte string, undefined exactly for the one row bitmaps of at least 2^31 pixels whose data has the wrapped length.", True)
note("C08", "The code does the opposite of the property: C08_ascii_behaviour characterises what is accepted, C08_ascii_complete_refuted shows a complete file rejected and a truncated one accepted.", True)
note("C11", "False as stated: C11_ink_covered_partial shows the ink lying in a box is exactly the ink outside the last column; the two refutations show lost ink.")
note("C15", "Bounds 100*w*h < 2^32 (directions) and 100*w*h*h < 2^32 (gravities). The second variants ignore the lower wedge.")
note("C13", "For images with 100*w*h < 2^32.")
note("C14", "For images with 100*w*h*h < 2^32.")
note("C16", "Proved below the 32-bit bound; C16_density_overflow_refuted shows the bound is needed.")
note("C17", "For images with 100*w*h < 2^31 (signed arithmetic in the code).")
note("C18", "For images with h < 2^31.")
note("C20", "For images with w*h < 2^30; C20_huge_image_refuted shows that some bound is needed.")
note("C21", "For images with w*h < 2^30.")
note("C22", "For images with 100*w*h < 2^32; std::sort is any function meeting the C++ requirement.")
note("C23", "Proved when the two lists hold no 0 at the same position; C23_self_comparison_refuted: a real image whose comparison with itself divides by zero; C23_outcome: for all lists of percentages, undefined exactly when they have the same length and share a zero, and otherwise the exact value.", True)
note("C24", "For images with w,h >= 1 and w*h < 2^30; the outcome is compared also when a feature fails.")
note("C25", "eq is exact (C25_eq_rows); lt is characterised (C25_lt_rows) and is not a strict weak order (C25_lt_not_an_order_refuted); the values of a feature are totally ordered (C25_values).", True)
note("C26", "For labels and fonts that are non empty and contain no white space (others do not round-trip).")
note("C29", "False as stated: C29_truncation_law gives the exact result of loading every prefix (the complete lines, never an error); C29_truncation_refuted is a word dictionary whose cut file loads with links outside the table.", True)
note("C58", "False as stated: C58_truncation_law describes the result of every cut but the empty one, for which an unset size is read (C58_empty_refuted), C58_truncation_refuted a cut file of the real feature list that loads as a table with columns of different heights; C58_program_refuted: ocr2_extract_text does not refuse it, and reads out of the table or recognises nothing.", True)
note("C30", "C30_truncated_refuted: a text cut inside a character makes the decoder read past the terminator; C30_outcome: what the decoder used by the dictionary makes of any bytes.")
note("C31", "For words shorter than 2^32 characters.")
note("C32", "For tries of fewer than 2^32 nodes.")
note("C33", "For word lists of fewer than 2^32 bytes; std::sort is any function meeting the C++ requirement. C33_empty_word_refuted: a list with an empty word always makes the constructor read past the word; C33_outcome: the outcome for words of any bytes.")
note("C34", "Candidates are arbitrary byte strings; the words are well formed UTF-8.")
note("C36", "Proved when the candidates of the last position have one character; C36_ligatures_read is the exact behaviour in general; C36_last_ligature_refuted shows a word output that no choice spells and one missed.", True)
note("C37", "std::sort is any function meeting the C++ requirement; without overflow of v + d.")
note("C38", "For tables where every glyph has a label; C38_unlabelled_refuted: otherwise the front of an empty vector is read; C38_order: the rows come in increasing order, but for the last row of the word, which is first.")
note("C39", "Proved for tables ordered by words; C39_view_classes_refuted: in the table B, A, A the classes are wrong for every legal sort; C39_rank: for every table the class of a position identifies the words of that rank in the ordered table.", True)
note("C40", "For images with 100*w*h*max(w,h) < 2^31, so that no feature overflows, and tables built by the program with a label on each glyph; C50_shared: two characters share a list exactly when their pictures are equal.")
note("C41", "The limit is 0.5; doubles are the stdlib's binary64 SpecFloat; the result is characterised whenever the run is defined, and it is defined when a row has score 1 or the zone proportions can be compared; C41_division_refuted: otherwise the comparison of zone proportions can divide by zero; C41_outcome: it is undefined exactly when the scan of the rows of the same word reaches such a row, and defined with the characterised result in all other cases.", True)
note("C42", "Same hypotheses as C40; no comparability is needed.")
note("C43", "For complete files whose glyphs all have a label and whose greatest word has a length not multiple of 4; the other cases are refuted (wrong words or undefined behaviour). C43_outcome gives the exact outcome for a file of any bytes: the glyphs and labels found in it, the missing labels that repeat the first one, and when the result is undefined; C43_small: every file of less than 2^32 bytes has one of these outcomes. unsigned is 4 little endian bytes; memory is taken as sufficient.", True)
note("C44", "Exact result for texts whose characters are above the lengths of the words (any printable text with words of at most 32 bytes): the least word starting with the text; C44_prefix_refuted and C44_missed_refuted show a false positive and, for a word of 34 bytes, a false negative, C44_uninitialised_refuted a search that reads bytes never written. C44_exact: the exact result for every text, the text being compared with the bytes that follow in the block (C44_words: these lists of words exist); C44_any: the same for a file of any bytes, with labels missing. memcmp is taken to read up to the first difference.", True)
note("C45", "Proved for lengths that are not multiples of 4; C45_overflow_refuted: when the greatest word has such a length every load writes past the block; C45_nul_refuted: otherwise the byte is the length of the next word. C45_outcome: loading is undefined exactly when the greatest word has such a length.", True)
note("C46", "The lines are found exactly for the word that the search of their text finds (C44), which need not be the text itself: C46_prefix_refuted. C46_outcome: the exact result for lines of any texts, undefined exactly when a search reads a byte that was never written; C46_any: the same for a file of any bytes; C46_failed: lines that are not read completely leave the former ones as they were.", True)
note("C47", "Full statement; lists may be shared between positions. The number of positions is below 2^32.")
note("C48", "Exact when the first word contradicts the line or the second does not; otherwise the second word is kept (C48_second_kept_refuted). A list can be emptied.", True)
note("C49", "Defined when another box is at least as low as the first, and another starts at least as low; C49_first_lowest_refuted: a write past the histogram when the first box is the lowest (\"go\"); for a single box the buffer is empty (undefined behaviour) or has about 2^32 elements. C49_outcome: the exact outcome for any boxes, undefined exactly when a side is out of the buffer, including the vote left in the buffer by the base line. The allocation is supposed to succeed.", True)
note("C50", "For lines whose characters are small enough for the features not to overflow and tables built by the program with a label on each glyph.")
note("C51", "C51_text is the exact text for any dictionary; C51_plain_partial is the stated text when the leading run does not end at a break; C51_break_refuted: \"- a\" is read \"-a\".", True)
note("C52", "Termination is characterised exactly (C52_terminates_iff) and C52_diverges_refuted covers the other rules; the pattern is gone when its ends do not overlap the replacement, and may remain otherwise (C52_gone_refuted).", True)
note("C53", "std::sort is any function meeting the C++ requirement.")
note("C59", "Proved when the leading run of marks has no unrecognised character; C59_unknown_refuted otherwise.", True)
note("C60", "For rules of visible characters and lines ended by a newline; C60_last_line_refuted and C60_space_refuted for other layouts; C60_outcome: exactly what is read from a file of any bytes.")
note("C61", "Exact: the labels are in order for the glyphs that are not before all repeated images, the others are kept as they are (C61_labels_refuted: a glyph that keeps a label twice).", True)
note("C54", "For permutations of the positions; C54_moved gives the result for every list of positions of the same length; C54_repeated_refuted and C54_overflow_refuted for other index lists.")
note("C55", "For images of fewer than 2^31 pixels; C55_large_refuted: for others the buffer size wraps and the pixels are written past it.")
note("C62", "For the first file that can be opened and lines that are not empty; C62_files_refuted: the files after it are not read; C62_empty_line_refuted: an empty line is undefined behaviour; C62_outcome: the outcome for files of any bytes.", True)
note("C63", "For images whose boxes can be searched (C09); the words are those separated by blanks.")
note("C64", "For files written by the glyph writer with fewer than 2^32 labels in all; the labels inside a glyph may still be repeated (C61).")
note("C65", "For files written by the glyph writer and images with 100*w*h*max(w,h) < 2^31.")
note("C66", "An exact description of the accepted files; a number may have a sign, a negative one being taken modulo 2^32; a cut record at the end is accepted (see C29).")
note("C67", "Proved through the four programs when the words can be loaded, pictures resembling each other (every simple feature equal to less than a hundredth of its range) have the same word, another character is at least as low as the first, and no gap follows leading marks; C67_upside_down_refuted, C67_lowest_first_refuted and C67_lost_break_refuted show that the last three are needed.", True)
note("C68", "C68_rate says exactly what is printed; it is the percentage when all characters are recognised or there is one character; C68_percentage_refuted, C68_empty_refuted and C68_wraps_refuted otherwise.", True)
note("C69", "Proved when the zone proportions of the pictures can be compared with those of the glyphs or the picture resembles a glyph, and the first character is not the only lowest one; the text is the exact rendering of the candidates (C51, C59), and C69_exact_partial tells the candidates exactly: recognised from the table of the glyphs (C41), shared by equal pictures (C50), then through the filter by lines (C49) and the filter by fonts (C47); C69_outcome: the exact outcome for every line of characters that are not too large, undefined exactly when a picture divides by zero (C41) or a box is out of the buffer of the filter by lines (C49); C69_division_refuted, C69_one_character_refuted and C69_unknown_refuted for the others.", True)
note("C70", "Proved when the numbers of glyphs differ; C70_order_refuted: features of the same glyphs in another order are accepted; C70_exact: with as many glyphs, the program reads exactly as with the files of the pictures of the one and the labels of the other.", True)
note("C71", "For tables in the order of the first feature whose values are in range; C71_unchecked_refuted: values of a file are not checked.")
note("C72", "Proved: all features are those of the unturned image (C72_unturned_partial), and a glyph is read as itself when the turn does not change its tenths; C72_turned_refuted: r and l are learnt and not read.", True)
note("C73", "For labelled glyphs, with the exact order of the lists (C73_order); C73_unlabelled_refuted otherwise.", True)
note("C74", "C74_line is exact; C74_again_partial: what the cache holds is what was found the first time, except for unrecognised pictures (C74_again_refuted).", True)
note("C75", "Proved for the line without its leading marks; C75_leading_refuted otherwise.", True)
note("C76", "C76_exact: the result for every line whose pictures are small enough, and exactly when a recognition divides by zero.  C76_read_partial relates the words to the glyphs.", True)
note("C77", "C77_exact: the exact outcome, and exactly when a comparison of zone proportions divides by zero (C77_division_refuted).", True)
note("C78", "C78_outcome: exactly what is loaded, for every glyph file: the tables are built when none or two of the glyphs have other features than the first, and it is undefined otherwise. So the merge is right only when all the glyphs have the same features; C78_two_refuted: wrong words with two others. std::copy on overlapping ranges is taken as a memmove.", True)
note("C79", "For tables of values of any size; the picture is small enough for its features not to overflow.")
note("C80", "C80_exact: the exact outcome, and exactly when a comparison of zone proportions divides by zero (C80_division_refuted).", True)
note("C81", "C81_exact: for the tables that are built whatever they are, the result and exactly when there is none.  C81_read_partial relates the words to the glyphs when these have the same features (C78).", True)
note("C82", "Pictures of less than 2^32-3 columns; the output is what is given to std::cout, flushed or not.")
note("C83", "The accepted texts and the luminance are exact; C83_wraps_refuted: the number is reduced modulo 2^32; C83_no_file_refuted: without file the option is taken for one. errno is taken to be 0 at the start.", True)
note("C84", "For files that can be read and have as many words as characters; C82_unreadable and C63 describe the other ends.")
note("C85", "Box has no operator>>: its index and its bounds are read one after the other.")
note("C86", "Exact for Index and Bounds; boxes are equal iff they have the same size, C86_boxes_refuted shows two different characters.", True)
note("C87", "Symmetry for all doubles, NaN and infinities included; C87_neighbours for numbers of one binade with exponents from -1022 to 890; C87_exact: without tolerance, exactly the numbers whose difference is subnormal; C87_refuted: overflow of the sum, infinity, 3 units accepted for 1.", True)
note("C89", "std::sort is any function meeting the C++ requirement.")
note("C88", "operator<= is exact iff the numbers differ, the distance iff it is not negative; C88_refuted has the two witnesses. For T = unsigned, the only use.", True)
note("C90", "C90_boxes_partial is exact: only images of one row without ink in the last column fail (C90_one_row_refuted). The assertions of filter_by_lines.cpp (two vectors filled by the same loop), count_zone.hpp (an index into a buffer: undefined behaviour in the model, excluded by C20 and C21) and image_from_string.cpp (tests only) are not among them.", True)
note("C92", "C92_defined_partial is exact: the variable is read without value exactly when the stream is not good or holds only blanks (C92_end_refuted). For unsigned underlying types; no program of the repository uses the header.", True)
note("C91", "No program of the repository uses the header.")
note("C93", "C93_output gives the lines of the pictures when no column of the feature file is short (full_table; a truncated file may give one, C58) and the characters are not so large that features overflow (C19); C93_taught gives the whole output. Only standard output is modelled, messages on the error stream are not; a file that does not open is None of the disk.")
note("C94", "The scores and the rates that the programs print. The conversion is that of printf with %g and the precision 6, which the C++ standard requires; nan may be printed as nan or -nan.")
note("C95", "The characters are not so large that features overflow (C19); C95_trained6 and C95_trained8 give the whole output with trained glyphs and exactly when there is none. Only standard output is modelled: the times printed on the error stream are not.")
note("C96", "Exact for the numbers of arguments, missing files, complete files, and files with something that does not start as a number after the glyphs; C96_write_datas_file for all files. C96_dictionary_refuted: no file at all ends with 0; C96_cut_refuted: a cut file ends with 0.", True)
note("C97", "C97_reads_partial: the luminance is 128 and the lessons satisfy the conditions of C67 (pictures that resemble each other have the same word, the first character is not the only lowest one, no break after marks at the beginning). C97_files holds for every luminance. C97_luminance_refuted: with -l 201 a grey pixel that was background is read as a character.", True)
note("C98", "The header that defines Definition is not in the repository; the three members that the code reads are modelled, with features of any type. C98_features: of two definitions alike but for their features, the sort chooses.")
note("C99", "Exact outcome for every list of bytes; allocations of views and pixels are supposed to succeed. C99_pixels_refuted: a picture of 65536 by 65536 is read without a pixel. C99_no_size_refuted: write_datas on a picture of size 0 by 0 is undefined.", True)
note("C100", "Exact outcome for every list of bytes; the allocations of vector::resize are supposed to succeed.")
note("C101", "Exact outcome for every list of bytes and luminance; the pixels of a written map that are not given are left unset, which the model shows as a list that is too short.")
note("C102", "For the programs that are modelled; memory is taken as sufficient. A run that meets undefined behaviour is counted as ended. normalize_glyphs, write_datas and the readers of dictionaries need no bound on the size of the files.")
note("C103", "For ocr2_extract_text. The conditions are part of the statement; labels are compared with their fonts. C103_ties_refuted and C103_lines_refuted show that both are needed.")
note("C104", "normalize_glyphs and make_trie_dictionary: any files. write_datas: the limit of 2^30 pixels for each picture is part of the statement (the sums of the zones stay below 2^32).")
note("C105", "For extract_text6 on files written by the training programs. The conditions are part of the statement; C105_ties_refuted shows that they are needed.")
note("C106", "Proved for files whose glyphs all have the same features, which are the only ones that extract_text8 loads without mixing words or leaving its buffers (C78). C106_sort_refuted, C106_moved_refuted and C106_ties_refuted show that the statement fails in general; C106_picture holds for any glyphs.", True)
note("C107", "C107_reads_partial: the luminance is 128, the tenths of the features of each character do not change by turning it, and different words have different tenths. C107_files (any luminance) and C107_glyphs (any glyphs) hold for all lines whose characters match one word only. C107_reads_refuted: an image that ocr2_extract_text reads after the same programs is not read.", True)
note("C108", "C108_loop and C108_misplaced say what the loop does for all positions; C108_iterator is the behaviour of the operators that pointer_iterator gives to proxy_iterator; C108_indexes is the only use of the ranges.")
note("C109", "C109_zones and C109_quarter_turn hold as stated; C109_half_turn_partial for all the other measures except dvdirection2 and dvgravity2 (C109_upper_wedge_refuted); C109_alternations_partial and C109_proportions_partial with the refutations of the rest.", True)
note("C110", "C110_characters, C110_learnt, C110_read6, C110_read8, C110_printed6 and C110_printed8 (all that is printed) hold as stated, for any files and any end. C110_read_partial and C110_printed_partial are ocr2_extract_text; C110_indent_refuted, C110_second_row_refuted and C110_last_column_refuted show that its conditions are needed.", True)
note("C111", "C111_characters, C111_learnt, C111_shown and C111_candidates hold as stated. C111_read6_partial and C111_read8_partial give the words of the parts, and their texts under the conditions of joined_result; C111_lessons_partial is C67 for all arrangements of the lines that were taught; C111_font_refuted, C111_unknown_refuted, C111_last_column_refuted and C111_words_refuted show the exceptions.", True)
note("C112", "C112_runs, C112_glyphs, C112_added, C112_order, C112_names and C112_dictionary hold as stated. C112_labels_refuted (labels out of order in a file given twice), C112_code_refuted (the exit code of files that are refused) and C112_dictionary_refuted (the order of the dictionary files) show what does not hold.")
note("C113", "C113_text6, C113_words6, C113_more6 and C113_unrelated6 hold as stated. C113_text_partial is ocr2_extract_text under the conditions of C67; C113_results6_partial needs glyphs whose choice is not left to the sort (C105). C113_lost_refuted, C113_unlike_refuted and C113_far6_refuted show the exceptions.", True)
note("C114", "C114_counts and C114_same hold as stated. C114_halves_partial is for even heights, C114_alternations_partial for the sizes it names, C114_characters_partial for a blank last column; C114_odd_refuted, C114_gravity_refuted, C114_higher_refuted, C114_alternations_refuted, C114_edge_refuted and C114_text_refuted show the exceptions.", True)
note("C115", "C115_exist, C115_shown, C115_learnt and C115_read hold as stated. C115_loaded_partial is for maps of colours and of bits, the only files read as whole images; C115_digits_refuted, C115_greys_refuted, C115_ink_refuted and C115_short_refuted are the other files.", True)
note("C116", "C116_zones holds as stated. C116_mirror_partial, C116_alternations_partial, C116_proportions_partial and C116_flip_partial leave out dzdensity (C116_diagonal_refuted), the middle column of an even width (C116_middle_refuted), the values of the proportions (C116_proportions_refuted) and dvdirection2 upside down (C116_upper_wedge_refuted).", True)
note("C117", "C117_results6, C117_results8 and C117_results2 hold as stated. C117_spelling_partial, C117_read2_partial, C117_same2_partial, C117_read6_partial, C117_same6_partial, C117_read8_partial and C117_same8_partial are for labels of one character (C117_ligature_refuted shows the exception); those of extract_text8 are for glyphs whose zones do not tell them apart. C117_replaced_refuted shows that words that were spelled are not kept.", True)
note("C118", "C118_ink, C118_same, C118_extremes, C118_range, C118_other_files, C118_programs_range and C118_programs_other hold as stated. C118_density_partial is the consequence for the density; C118_characters_refuted shows that there is none for the number of characters.", True)
note("C119", "C119_told and C119_useless hold as stated. C119_same_partial (text and numbers) and C119_printed_partial (all that is printed) are for words in the same order or told once each; C119_order_refuted shows the exception.", True)
note("C120", "For files of fewer than 2^32 bytes; C120_exact for any bytes, C120_words for UTF-8 words. C120_bytes_refuted: malformed lines that are different and give one dictionary.")
note("C121", "C121_exact and C121_labels, for pictures below the limits of C19. C121_pictures_refuted: two squares of different sizes have the same features.")
note("C122", "C122_words, C122_printed, C122_fonts and C122_renamed. C122_fonts_refuted: with the same words and the same features, another font gives another text. C122_order_refuted: the first word of a glyph is the one that is printed.")
note("C123", "C123_read6 without restriction; C123_read8_outcome for all glyphs: the same unless loading has undefined behaviour, which depends on how many glyphs differ from the first; C123_read8_partial when the features tell no glyphs apart; C123_read_partial for the images of C69; C123_silent when the characters are all different; C123_nothing when nothing was learnt. C123_counted_refuted: three unknown characters, nothing shown, 0 counted.", True)
