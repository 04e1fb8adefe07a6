claim("C01", "proved", "C01_open_first_decisive C01_open_cases C01_open_unknown",
      "For every table, file name, world and openers acting on an arbitrary world.")
claim("C02", "proved", "C02_table_sorted_permutation C02_registration_order_irrelevant",
      "For every function meeting sort.Slice's contract.")
claim("C03", "proved", "C03_errors_is_chain C03_wrap_second C03_wrap_single C03_wrap_text", "")
claim("C04", "proved", "C04_tsv_round_trip C04_tsv_rows_are_lines", "")
claim("C05", "proved", "C05_order_independent C05_accept_iff",
      "The float64 comparison n/total > 0.8 is proved equal to 5n > 4total for up to 2^50 lines.")
claim("C06", "partial", "C06_csv_opens_refuted C06_csv_clean_end",
      "The code violates the property: OpenCSV fails on every input. encoding/csv is an arbitrary function here.")
claim("C07", "partial", "C07_commas_are_not_split_refuted",
      "The code violates the property; the theorem says what happens instead, for every tab-free text.")
claim("C08", "proved", "C08_cursor C08_after_the_end", "")
claim("C09", "proved", "C09_scan_count C09_scan_prefix C09_scan_values", "")
claim("C10", "proved", "C10_last_put_wins C10_grid_unique", "Any sequence of Put calls on a new sheet, read back through Next/Raw.")
claim("C11", "partial", "C11_rectangular C11_strings_width C11_shrink_panics_refuted",
      "Proved for Put and non-shrinking Resize; the code violates it after a shrinking Resize (second part).")
claim("C12", "partial", "C12_extra_record_refuted C12_records C12_stays_at_end",
      "The code violates the property: one extra blank record is delivered. The exact count is proved.")
claim("C13", "proved", "C13_put_frame", "On every sheet reachable by Put, non-shrinking Resize, Next, Set and SetURL.")
claim("C14", "partial", "C14_set C14_set_url C14_set_panics_refuted",
      "The frame is proved; the code panics instead of ignoring at col = NumCols and on blank cells, characterized exactly.")
claim("C15", "partial", "C15_scan C15_scan_too_many_refuted", "Proved for at most NumCols destinations; more destinations panic.")
claim("C16", "partial", "C16_is_empty C16_A1_dropped_refuted", "The code violates the property for sheets filled only in A1.")
claim("C17", "partial", "C17_new_cell C17_new_cell_total C17_uint_wraps_refuted", "The code violates the property for uint values above MaxInt64.")
claim("C18", "proved", "C18_coercion C18_same_type_unchanged C18_total C18_type_obeyed C18_int_to_float C18_float_to_int", "")
claim("C20", "partial", "C20_less_means C20_less_numbers C20_less_false C20_less_text C20_less_word C20_less_bool_text C20_less_blank C20_irreflexive C20_transitive C20_total_up_to_equal C20_total_big_ints_refuted C20_mixed_kinds_refuted C20_dates_panic_refuted C20_false_and_negative_refuted",
      "Totality up to Equal fails for integers beyond 2^53; comparing dates panics.")
claim("C21", "partial", "C21_equal_numbers C21_equal_numbers_real C21_reflexive C21_symmetry_refuted C21_blank_equals_text_refuted",
      "The code violates symmetry and transitivity.")
claim("C22", "partial", "C22_no_panic C22_setters_total C22_set_format C22_set_url C22_hyperlink_refuted",
      "A hyperlinked cell loses its format number. Independence of a clone is about sharing: C95.")
claim("C19", "partial", "C19_exact C19_general C19_stored C19_dates C19_numbers_refuted C19_text_lost_refuted C19_date_text_refuted C19_empty_text_refuted",
      "The code violates the property. Proved: among the built-in formats exactly General and the text format leave every text as it is (and formats added as General); what a text becomes under every other format.")
claim("C23", "proved", "C23_commas C23_only_commas_added C23_grouping_unique C23_builtin_integers C23_builtin_floats", "")
claim("C24", "partial", "C24_parens C24_builtin_integers C24_builtin_floats C24_empty_text_refuted",
      "Exact behaviour proved, including the panic on the empty text, which Set can store.")
claim("C25", "proved", "C25_general", "")
claim("C26", "proved", "C26_sections", "For sections without brackets that are not the word General.")
claim("C27", "partial", "C27_builtin_fixed C27_rejected_unchanged C27_first_wins C27_general_replaces_refuted",
      "Write-once except that a later General replaces the format but not its cell type.")
claim("C28", "partial", "C28_unknown_panics_refuted C28_cell_panics_refuted C28_known_ids_render",
      "The code violates the property: exactly the unknown ids panic; with known ids rendering is total.")
claim("C29", "partial", "C29_decimals C29_truncates C29_custom_percent_refuted",
      "Every finite number: 0.00% is right up to the float64 product (Inf beyond its range); 0% truncates; a custom 0% does not scale.")
claim("C33", "partial", "C33_terminates C33_whole_terminates C33_limits C33_close C33_whole_fraction C33_text C33_exact C33_whole C33_near C33_negative_refuted C33_carry_refuted C33_improper_refuted",
      "Exactly which values keep the limits (C33_limits), and how near the result is (C33_near); below 1 the result is in lowest terms and as close as a continued-fraction convergent (three digits at most), so fractions that have the digits are shown exactly. The code violates the property for negative values, for values above the numerator limit (0/1), and 2.99 under # ?/? shows 2 1/1.")
claim("C67", "proved", "C67_two_decimals", "")
claim("C30", "proved", "C30_integral_serials C30_fractional_serials C30_time_of_day", "Serials up to 2^40; fractions from serial 61 on.")
claim("C31", "proved", "C31_monotone", "Serials from Julian day 0 up to 2^40, both modes, across the two branches.")
claim("C34","proved","C34_read C34_read_all C34_read_all_new C34_empty_slice_refuted",
 "All histories of Read (non-empty buffers) and in-range Seek. The slice condition in the statement is needed: C34_empty_slice_refuted shows an empty slice in the middle reads as the end.")
claim("C35","proved","C35_seek C35_terminates C35_back_to_start_refuted C35_to_end_refuted",
 "Every position strictly inside is reached from every reachable state and the loop terminates on every reader; the two edge panics named in the statement are proved as well.")
claim("C36","proved","C36_stream_bytes C36_read_all C36_short_chain C36_terminates C36_terminates_loaded","from the bytes of the file to the bytes of the stream, header, DIFAT sectors and directory included; termination for every document that loads")
claim("C37","proved","C37_mini_stream_bytes C37_read_all C37_short_mini_chain_refuted","the refuted theorem shows that, unlike C36, a mini chain ending early is not reported")
claim("C38","proved","C38_not_in_format","exact characterization (iff) of the contents rejected as not in format")
claim("C39","partial","C39_exact C39_terminates C39_cyclic_difat_refuted","exactly which files never finish loading, in terms of their bytes: an accepted header that announces DIFAT sectors, listed FAT sectors all inside the file, and a chain of DIFAT sectors that goes on for ever through sectors inside the file that mention only such; every other file ends. The code violates the property on these (1024 bytes suffice)")
claim("C40","partial","C40_only_first_sector_refuted C40_later_entries_panic_refuted C37_read_all","one mini FAT sector works end to end (C37); with 2 to 128 of them only the first is loaded, and streams beyond it make Open panic")
claim("C41","partial","C41_list C41_listed_is_found C41_unlisted_not_found C41_at_most_four C41_fifth_entry_refuted C41_empty_name_refuted","holds for directories of at most four entries; the fifth and later entries are never read")
claim("C42","proved","C42_chunks C42_chunking_irrelevant C42_new_ready C42_reset_ready C42_set_password_ready","all inputs, all splits, from every block boundary; which decryptors are at a block boundary is proved too")
claim("C43","proved","C43_involution C43_decrypts C43_decrypts_password C43_rejects","default password with its FilePass structure, and any other password set; RC4 and MD5 are modelled and executed")
claim("C44","proved","C44_decrypts C44_open C44_other_methods","record lists whose clear records have at most 8224 bytes (the format's limit) and whose BoundSheet8 records hold a position")
claim("C45","partial","C45_framing C45_truncated C45_large_record_refuted","holds for payloads up to 65531 bytes; for 65532 to 65535 the reader panics (refuted theorem)")
claim("C46","partial","C46_substreams C46_no_bof_refuted","exact for balanced streams; a stream not starting with BOF panics")
claim("C47","partial","C47_short C47_long C47_text C47_roundtrip C47_overrun_refuted","Both encodings inverted for all strings, with the byte count. Partial because a count larger than the record is not rejected (C47_overrun_refuted).")
claim("C48","partial","C48_shared_strings C48_one_byte_refuted","All string lists and divisions except one: a 16-bit string followed in its record by exactly one byte of trailing data is rejected (C48_one_byte_refuted).")
claim("C49","partial","C49_integer C49_double C49_double_100 C49_integer_100_refuted","Three of the four kinds of RK values are exact for all 2^32 values; integers over 100 decode to 0 (C49_integer_100_refuted).")
claim("C54","proved","C54_hyperlinks C54_trim_unique C54_version","for every hyperlink object (all optional parts, three kinds of target); version error for every version other than 2")
claim("C50","proved","C50_cells C52_workbook","every sequence of cell records (Number, RK, MulRk, LabelSst, BoolErr, Formula with String, MergeCells, HLink, ignored records, embedded substreams), from the bytes of the stream to the grid Get delivers; records of unsupported shape are covered by C53 and C68")
claim("C52","partial","C52_workbook C52_partition C52_position_refuted C61_workbook","XLSX end to end by C61_workbook; XLS end to end: from the bytes of a workbook stream to List, ListHidden and Get; refuted: a sheet whose declared position starts no substream is read from the workbook globals instead of failing")
claim("C53","partial","C53_label C53_boundary_refuted","an index above the number of strings is an error; refuted: an index equal to the number panics")
claim("C68","partial","C68_text C68_latin1_refuted C68_surrogate_refuted C68_split_refuted","right for ASCII 8-bit chunks and 16-bit chunks without split pairs; refuted for the rest")
claim("C51","proved","C51_marks C51_xls C51_xlsx C51_xlsx_inside","for every merged region and every sequence of cell writes; regions that reach beyond the declared dimension of an XLSX sheet are cut there (C71 says what a missing dimension does)")
claim("C55","partial","C55_xls_refuted C55_xls_rest C55_xlsx","XLSX: exact behaviour after Close. XLS: Get after Close panics for every sheet of the workbook; Close twice and the lists are fine")
claim("C32","partial","C32_xls_refuted C32_xlsx_refuted","no workbook of either kind ever sets the 1904 mode")
claim("C57","proved","C57_round_trip C57_letters_distinct","all columns and rows below 2^63-1; distinct columns have distinct letters")
claim("C58","partial","C58_panics C58_total C58_R1C1_refuted","exact (iff) set of texts on which it panics; total otherwise")
claim("C59","partial","C59_shared_strings C59_phonetic_refuted C59_space_refuted","texts and rich text runs; phonetic hints and white space between runs are added to the string")
claim("C60","partial","C60_styles C60_style_number C60_large_refuted","format ids below 32768; larger ids become 32767")
claim("C61","proved","C61_sheet C61_workbook","from the parts of a package to the grid Get delivers")
claim("C62","partial","C62_last_text C62_trailing_refuted C62_shared_refuted","every text in a cell element replaces the previous one; white space before the value is harmless, after it replaces the value")
claim("C63","partial","C63_link C63_text_lost_refuted C63_unknown_refuted C63_range_refuted","")
claim("C64","partial","C64_history C64_missing C64_exhausted_refuted C64_opened_fresh","all histories of Get and Next; the shared cursor means that a sheet can be read only once")
claim("C69","partial","C69_shared_index_refuted C69_bool_refuted C69_style_index_refuted C69_styles_refuted","the code violates the property in each listed way; the style sheet cases are stated for the style sheet reader")
claim("C70","partial","C70_absolute_refuted C61_workbook","relative targets work (C61_workbook, where the workbook's own relationships may be absolute)")
claim("C71","partial","C71_merges_refuted C71_width_refuted C61_sheet","")
claim("C56", "proved", "C56_exclusive C56_read C56_outcome C56_frame", "transition system of Close and the first loop of loadFromStream2 over a shared heap and pool; any number of workbooks, every interleaving, pool may hand out any record or a new one and may lose records. Each workbook used by one goroutine at a time; sync.Pool itself is not modelled below its contract")
claim("C65", "partial", "C65_exit C65_no_deadlock C65_terminates C65_exits C65_no_workers_refuted", "all schedules, any number of files and workers; proved for at least one worker, and refuted for NumCPU = 1, where nothing can happen as soon as there is a file. What processing one file comes to is a parameter (instantiated by tsv_job); a panic in it ends the program, which is C94")
claim("C66", "proved", "C66_cell C66_blank C66_rows C66_lines C66_reopen C66_files", "C66_rows and C66_files for all flags, C66_cell, C66_blank, C66_lines and C66_reopen for the default ones. Workbooks are seen through the interface (names, rows)")
claim("C72", "proved", "C72_grater C72_ambiguous_refuted", "for files whose reading does not panic; the refuted theorem shows that the text does not determine the cells, which the property does not promise")
claim("C73", "partial", "C66_collision_refuted C66_columns_refuted C66_no_trim_refuted", "the code violates the property")
claim("C74", "proved", "C74_xls_file C74_xlsx_file", "unencrypted XLS (encrypted: C88); decoding of ZIP and XML is an oracle; the memory the buffers are read into may have any spare capacity")
claim("C75", "proved", "C75_missing C75_zip C75_text C75_tsv_file C75_name_irrelevant C06_csv_opens_refuted", "names are irrelevant up to the file name a text source keeps for List")
claim("C76", "partial", "C76_handle_left_refuted C76_xlsx_close C76_text C76_xlsx_failure_refuted", "the code violates the property; finalizers of os.File are not modelled")
claim("C77", "partial", "C77_word_document_refuted C77_other_archives", "the code violates the property")
claim("C78", "proved", "C78_views", "the text a format prints for a stored value is Apply's, which C23-C29, C67 and C79-C81 describe format by format; unknown format ids panic (C28)")
claim("C79", "partial", "C79_dates C79_hours_refuted C79_quotes_refuted C79_month_refuted C79_elapsed_refuted C79_time_words_refuted C79_noon_words_refuted C79_tenths_refuted C79_buddhist_refuted", "all built-in date and time formats: 14-19, 30, 45, 71-74, 78 show what their codes say; the code violates the property for each of the others, in the way the refuted theorems say")
claim("C80", "partial", "C80_integers C80_floats C80_zero C80_negative_refuted", "the code violates the property for negative numbers")
claim("C81", "partial", "C81_scientific C81_engineering_refuted", "format 11 proved; the code violates the property for format 48")
claim("C82", "partial", "C82_integers C82_decimals C82_percent C82_scientific C82_exponent_refuted C82_text C82_static C82_rounding_refuted C82_zero_padding_refuted C82_literal_refuted C82_negative_section_refuted", "proved for codes whose texts avoid the characters with a meaning of their own; the code violates the property in the ways of the refuted theorems")
claim("C83", "partial", "C83_layout C83_hours_refuted C83_ampm_refuted C83_minutes_refuted C83_weekday_refuted", "proved for codes in which every part occurs at most once, minutes stand between hours and seconds, and quoted text has none of the letters and digits that mean something in a layout; the code violates the property in the ways of the refuted theorems")
claim("C84", "partial", "C84_exact C84_open_ends C84_endless_refuted C84_workbook_ends C84_get_ends", "proved for every file but those of C39, on which Open never ends whatever the registration order: the code violates the property exactly there. What encoding/xml, archive/zip and encoding/csv do is taken to end")
claim("C85", "partial", "C85_get C85_load C85_split C85_short_refuted C85_text_refuted C85_split_refuted", "proved for records with the least length the reader needs, which is exact; for shared strings and hyperlinks it is that the reader's own grammar for them is met (C96, C97), and a sheet has at most one Dimensions record; the code violates the property outside these bounds")
claim("C86", "partial", "C86_dimensions_refuted C86_dimension_xlsx_refuted", "the code violates the property")
claim("C87", "partial", "C87_exact C87_styles C87_open C87_get C87_late_dimension_refuted", "exact for sheets whose dimension element comes at most once and before the cells; violated for a later one")
claim("C88", "proved", "C88_workbook C88_file", "RC4 encryption with the default password, the only method the reader supports (C44_other_methods); records of at most 65531 bytes")
claim("C89", "partial", "C89_inline C89_inline_piece C89_runs_refuted C89_hint_refuted C89_formula_refuted C89_reference_refuted C89_strict_refuted C89_chart_refuted", "inline strings in one piece proved; the code violates the property for the other forms")
claim("C90", "partial", "C90_commands C90_printed C90_independent C90_xls_file C90_encrypted_file C90_xlsx_file C90_tsv_file C90_blank_row_refuted C90_one_cell_refuted C90_nil_refuted", "the four kinds of files proved from the bytes (for XLSX from the unpacked parts and XML tokens) to the output, for distinct sheet names; the _refuted theorems are the violations")
claim("C91", "partial", "C91_label_refuted C91_label_allowed C91_link_refuted C91_dialog_refuted C91_sync_refuted C91_sync_panics_refuted C91_nested_refuted C91_chart_refuted", "the code violates the property for each of these forms")
claim("C92", "partial", "C92_brackets C92_accounting C92_currency_refuted C92_condition_refuted C92_general_refuted C92_date_section_refuted C92_elapsed_refuted C92_optional_refuted C92_scaling_refuted C92_fraction_refuted C92_picture_refuted C92_accounting_refuted", "bracketed parts and positive amounts proved; the _refuted theorems are the violations, each for all values and where possible all codes of the form")
claim("C93", "partial", "C93_results C93_files C93_exit C93_reported_unwritten_refuted C93_collision_refuted C93_write_errors_refuted", "proved for every crash point of every schedule (the output files for outputs with different paths); the _refuted theorems are the violations. A kill loses nothing already handed to the operating system; machine crashes are not modelled")
claim("C94", "partial", "C94_survives C94_terminates C94_dies C94_reported_empty_refuted C94_lost_refuted", "proved: no endless run, without panics every run can only end with exit, with a panic no run does. The _refuted theorems show what may be lost")
claim("C95", "partial", "C95_values C95_frame C95_raw C95_strings_fresh C95_strings_once C95_assignment_refuted C95_capacity_refuted C95_strings_shared_refuted", "proved over a heap of arrays with any allocation rule; the _refuted theorems are the violations (rows of text files, and cells assigned rather than cloned)")
claim("C96", "partial", "C96_tables C96_unambiguous C96_otherwise C96_workbook C96_count_refuted C96_cut_refuted", "acceptance is characterized exactly; the _refuted theorems are the violations (counts ignored, a cut string ends the program)")
claim("C97", "partial", "C97_links C97_valid C97_overrun_refuted C97_frame_refuted C97_memory_refuted", "the outcome is characterized exactly by the announced lengths; the _refuted theorems are the violations")
claim("C98", "partial", "C98_text C98_header C98_foreign_refuted C98_short_refuted C98_cut_refuted", "what opens as text is characterized exactly; the _refuted theorems are the violations (foreign compound files, cut-off workbooks)")
claim("C99", "partial", "C99_distinct C99_sequence C99_commands C99_twice_refuted", "the output for any list of names is characterized; C99_twice_refuted is the violation (XLSX names listed twice)")
claim("C100", "partial", "C100_normal C100_rectangles C100_again C100_tables C100_long_refuted", "C100_long_refuted is the violation (lines of more than 65535 bytes); files that begin with the signature of a compound file or read as an archive are excluded")
claim("C101", "partial", "C101_cut C101_behind C101_appended C101_panic_refuted C101_memory_refuted", "proved for any bytes and any cut without memory behind it, with the storage of the root entry first in the directory; the _refuted theorems are the violations when memory lies behind")
claim("C102", "proved", "C102_refines C102_own C102_once C102_exit C102_terminates C102_exits", "every run of the pooled system is a run of the system of C65")
claim("C103", "partial", "C103_file C103_run C103_open C103_tells C103_forged_refuted C103_glued_refuted", "proved when names and error texts are without tabs and newlines and the file was empty or ended with a newline; the _refuted theorems are the violations otherwise")
claim("C104", "partial", "C104_sheet C104_origin C104_stream C104_globals C104_file C104_overrun_refuted", "proved for all byte sequences that can be opened, for substreams with at most one complete Dimensions record; the bytes behind a record that a too long name or format takes are part of the statement, and the _refuted theorem shows that this happens; the text of a hyperlink is the one of the model's decoder (C46)")
claim("C105", "proved", "C105_sheet C105_open C105_origin C105_get", "for any package that opens; a dimension element that comes late is C87_late_dimension_refuted, and which texts of a cell element count is C62")
claim("C106", "proved", "C106_stream C106_one_content C106_exact C106_open C106_exact_open C106_sheet", "no file written by a reference writer is assumed; which contents load as workbooks is C85 and C104; a name of length 0 or of 32768 and more (even) makes Open panic (ex_C106_nameless)")
claim("C107", "proved", "C107_package C107_no_package C107_lost C107_left C107_opened_xlsx C107_opened_text", "the files opened as XLS are C106_exact_open; archive/zip and encoding/xml are parameters whose errors are not grate's; C98 and C77 are the cases in which the outcome is not the one a user wants")
claim("C108", "proved", "C108_deciphers C108_loads C108_opened_xls", "loads: without an error and without a panic; texts of one byte a character may run on behind their record (C104_overrun_refuted); with C107 this says for every byte sequence whether Open opens it and as what")
claim("C109", "proved", "C109_scan_int C109_scan_float C109_scan C109_xlsx_number C109_number_format C109_less C109_less_blanks", "strconv.ParseFloat and ParseInt are modelled in GoFloat and GoBase; that the modelled rounding is the nearest float64 is proved here, for any number of digits (L_round). Longer texts with an exponent of 100000 and more are left out: strconv does not count such exponents exactly")
claim("C110", "proved", "C110_general C110_general_special C110_read_back C110_general_back C110_sprint", "strconv.FormatFloat is modelled in GoFloat; that the modelled search finds the shortest digits, and within seventeen, is proved here (L_short). The text of six digits loses the rest of the number (ex_C110_six)")
claim("C111", "partial", "C111_xls C111_xlsx C111_text C111_errors C111_steady C111_swallowed_refuted C111_written_refuted", "which source comes from which reading is exact; the _refuted theorems are the violations. The parts of an archive are taken to stay as they were at Open")
claim("C112", "partial", "C112_values C112_exported C112_third_refuted", "the round trip holds with the six-digit exception stated; the _refuted theorem is a number that does not come back exactly. Values under formats other than General are shown as C29, C67 and C82 say and are not read back here")
claim("C113", "proved", "C113_shown C113_separated C113_custom C113_read C113_exported C113_whole C113_whole_exported C113_refused C113_separators_refuted C113_xlsx C113_rk C113_parens C113_accounting", "15 digits is where it stops being true of decimal numbers and float64; the _refuted theorem is about reading texts with separators, which is not claimed")
claim("C114", "partial", "C114_scan C114_number C114_word C114_xlsx C114_formats_refuted C114_all C114_hex C114_xlsx_all", "which texts are numbers is exact for all texts; the values of hexadecimal numerals with exponents of 100000 and more are left out; the _refuted theorem is the violation")
claim("C115", "partial", "C115_shown C115_custom C115_whole C115_not_read_refuted C115_whole_refuted", "proved for percent formats with decimals; for 0% the shown percentage is the right one or one less; the _refuted theorems are the violations")
claim("C116", "proved", "C116_shown C116_custom C116_read C116_back", "15 digits is where it stops being true of decimal numbers and float64; below 10^-290 the bound on the rounding error used here no longer holds near the subnormal numbers")
