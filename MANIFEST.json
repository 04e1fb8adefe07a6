{
 "claims": [
  {
   "property": "C01",
   "status": "proved",
   "theorems": [
    "C01_open_first_decisive",
    "C01_open_cases",
    "C01_open_unknown"
   ],
   "note": "For every table, file name, world and openers acting on an arbitrary world."
  },
  {
   "property": "C02",
   "status": "proved",
   "theorems": [
    "C02_table_sorted_permutation",
    "C02_registration_order_irrelevant"
   ],
   "note": "For every function meeting sort.Slice's contract."
  },
  {
   "property": "C03",
   "status": "proved",
   "theorems": [
    "C03_errors_is_chain",
    "C03_wrap_second",
    "C03_wrap_single",
    "C03_wrap_text"
   ],
   "note": ""
  },
  {
   "property": "C04",
   "status": "proved",
   "theorems": [
    "C04_tsv_round_trip",
    "C04_tsv_rows_are_lines"
   ],
   "note": ""
  },
  {
   "property": "C05",
   "status": "proved",
   "theorems": [
    "C05_order_independent",
    "C05_accept_iff"
   ],
   "note": "The float64 comparison n/total > 0.8 is proved equal to 5n > 4total for up to 2^50 lines."
  },
  {
   "property": "C06",
   "status": "partial",
   "theorems": [
    "C06_csv_opens_refuted",
    "C06_csv_clean_end"
   ],
   "note": "The code violates the property: OpenCSV fails on every input. encoding/csv is an arbitrary function here."
  },
  {
   "property": "C07",
   "status": "partial",
   "theorems": [
    "C07_commas_are_not_split_refuted"
   ],
   "note": "The code violates the property; the theorem says what happens instead, for every tab-free text."
  },
  {
   "property": "C08",
   "status": "proved",
   "theorems": [
    "C08_cursor",
    "C08_after_the_end"
   ],
   "note": ""
  },
  {
   "property": "C09",
   "status": "proved",
   "theorems": [
    "C09_scan_count",
    "C09_scan_prefix",
    "C09_scan_values"
   ],
   "note": ""
  },
  {
   "property": "C10",
   "status": "proved",
   "theorems": [
    "C10_last_put_wins",
    "C10_grid_unique"
   ],
   "note": "Any sequence of Put calls on a new sheet, read back through Next/Raw."
  },
  {
   "property": "C11",
   "status": "partial",
   "theorems": [
    "C11_rectangular",
    "C11_strings_width",
    "C11_shrink_panics_refuted"
   ],
   "note": "Proved for Put and non-shrinking Resize; the code violates it after a shrinking Resize (second part)."
  },
  {
   "property": "C12",
   "status": "partial",
   "theorems": [
    "C12_extra_record_refuted",
    "C12_records",
    "C12_stays_at_end"
   ],
   "note": "The code violates the property: one extra blank record is delivered. The exact count is proved."
  },
  {
   "property": "C13",
   "status": "proved",
   "theorems": [
    "C13_put_frame"
   ],
   "note": "On every sheet reachable by Put, non-shrinking Resize, Next, Set and SetURL."
  },
  {
   "property": "C14",
   "status": "partial",
   "theorems": [
    "C14_set",
    "C14_set_url",
    "C14_set_panics_refuted"
   ],
   "note": "The frame is proved; the code panics instead of ignoring at col = NumCols and on blank cells, characterized exactly."
  },
  {
   "property": "C15",
   "status": "partial",
   "theorems": [
    "C15_scan",
    "C15_scan_too_many_refuted"
   ],
   "note": "Proved for at most NumCols destinations; more destinations panic."
  },
  {
   "property": "C16",
   "status": "partial",
   "theorems": [
    "C16_is_empty",
    "C16_A1_dropped_refuted"
   ],
   "note": "The code violates the property for sheets filled only in A1."
  },
  {
   "property": "C17",
   "status": "partial",
   "theorems": [
    "C17_new_cell",
    "C17_new_cell_total",
    "C17_uint_wraps_refuted"
   ],
   "note": "The code violates the property for uint values above MaxInt64."
  },
  {
   "property": "C18",
   "status": "proved",
   "theorems": [
    "C18_coercion",
    "C18_same_type_unchanged",
    "C18_total",
    "C18_type_obeyed",
    "C18_int_to_float",
    "C18_float_to_int"
   ],
   "note": ""
  },
  {
   "property": "C20",
   "status": "partial",
   "theorems": [
    "C20_less_means",
    "C20_less_numbers",
    "C20_less_false",
    "C20_less_text",
    "C20_less_word",
    "C20_less_bool_text",
    "C20_less_blank",
    "C20_irreflexive",
    "C20_transitive",
    "C20_total_up_to_equal",
    "C20_total_big_ints_refuted",
    "C20_mixed_kinds_refuted",
    "C20_dates_panic_refuted",
    "C20_false_and_negative_refuted"
   ],
   "note": "Totality up to Equal fails for integers beyond 2^53; comparing dates panics."
  },
  {
   "property": "C21",
   "status": "partial",
   "theorems": [
    "C21_equal_numbers",
    "C21_equal_numbers_real",
    "C21_reflexive",
    "C21_symmetry_refuted",
    "C21_blank_equals_text_refuted"
   ],
   "note": "The code violates symmetry and transitivity."
  },
  {
   "property": "C22",
   "status": "partial",
   "theorems": [
    "C22_no_panic",
    "C22_setters_total",
    "C22_set_format",
    "C22_set_url",
    "C22_hyperlink_refuted"
   ],
   "note": "A hyperlinked cell loses its format number. Independence of a clone is about sharing: C95."
  },
  {
   "property": "C19",
   "status": "partial",
   "theorems": [
    "C19_exact",
    "C19_general",
    "C19_stored",
    "C19_dates",
    "C19_numbers_refuted",
    "C19_text_lost_refuted",
    "C19_date_text_refuted",
    "C19_empty_text_refuted"
   ],
   "note": "The code violates the property. Proved: among the built-in formats exactly General and the text format leave every text as it is (and formats added as General); what a text becomes under every other format."
  },
  {
   "property": "C23",
   "status": "proved",
   "theorems": [
    "C23_commas",
    "C23_only_commas_added",
    "C23_grouping_unique",
    "C23_builtin_integers",
    "C23_builtin_floats"
   ],
   "note": ""
  },
  {
   "property": "C24",
   "status": "partial",
   "theorems": [
    "C24_parens",
    "C24_builtin_integers",
    "C24_builtin_floats",
    "C24_empty_text_refuted"
   ],
   "note": "Exact behaviour proved, including the panic on the empty text, which Set can store."
  },
  {
   "property": "C25",
   "status": "proved",
   "theorems": [
    "C25_general"
   ],
   "note": ""
  },
  {
   "property": "C26",
   "status": "proved",
   "theorems": [
    "C26_sections"
   ],
   "note": "For sections without brackets that are not the word General."
  },
  {
   "property": "C27",
   "status": "partial",
   "theorems": [
    "C27_builtin_fixed",
    "C27_rejected_unchanged",
    "C27_first_wins",
    "C27_general_replaces_refuted"
   ],
   "note": "Write-once except that a later General replaces the format but not its cell type."
  },
  {
   "property": "C28",
   "status": "partial",
   "theorems": [
    "C28_unknown_panics_refuted",
    "C28_cell_panics_refuted",
    "C28_known_ids_render"
   ],
   "note": "The code violates the property: exactly the unknown ids panic; with known ids rendering is total."
  },
  {
   "property": "C29",
   "status": "partial",
   "theorems": [
    "C29_decimals",
    "C29_truncates",
    "C29_custom_percent_refuted"
   ],
   "note": "Every finite number: 0.00% is right up to the float64 product (Inf beyond its range); 0% truncates; a custom 0% does not scale."
  },
  {
   "property": "C33",
   "status": "partial",
   "theorems": [
    "C33_terminates",
    "C33_whole_terminates",
    "C33_limits",
    "C33_close",
    "C33_whole_fraction",
    "C33_text",
    "C33_exact",
    "C33_whole",
    "C33_near",
    "C33_negative_refuted",
    "C33_carry_refuted",
    "C33_improper_refuted"
   ],
   "note": "Exactly which values keep the limits (C33_limits), and how near the result is (C33_near); below 1 the result is in lowest terms and as close as a continued-fraction convergent (three digits at most), so fractions that have the digits are shown exactly. The code violates the property for negative values, for values above the numerator limit (0/1), and 2.99 under # ?/? shows 2 1/1."
  },
  {
   "property": "C67",
   "status": "proved",
   "theorems": [
    "C67_two_decimals"
   ],
   "note": ""
  },
  {
   "property": "C30",
   "status": "proved",
   "theorems": [
    "C30_integral_serials",
    "C30_fractional_serials",
    "C30_time_of_day"
   ],
   "note": "Serials up to 2^40; fractions from serial 61 on."
  },
  {
   "property": "C31",
   "status": "proved",
   "theorems": [
    "C31_monotone"
   ],
   "note": "Serials from Julian day 0 up to 2^40, both modes, across the two branches."
  },
  {
   "property": "C34",
   "status": "proved",
   "theorems": [
    "C34_read",
    "C34_read_all",
    "C34_read_all_new",
    "C34_empty_slice_refuted"
   ],
   "note": "All histories of Read (non-empty buffers) and in-range Seek. The slice condition in the statement is needed: C34_empty_slice_refuted shows an empty slice in the middle reads as the end."
  },
  {
   "property": "C35",
   "status": "proved",
   "theorems": [
    "C35_seek",
    "C35_terminates",
    "C35_back_to_start_refuted",
    "C35_to_end_refuted"
   ],
   "note": "Every position strictly inside is reached from every reachable state and the loop terminates on every reader; the two edge panics named in the statement are proved as well."
  },
  {
   "property": "C36",
   "status": "proved",
   "theorems": [
    "C36_stream_bytes",
    "C36_read_all",
    "C36_short_chain",
    "C36_terminates",
    "C36_terminates_loaded"
   ],
   "note": "from the bytes of the file to the bytes of the stream, header, DIFAT sectors and directory included; termination for every document that loads"
  },
  {
   "property": "C37",
   "status": "proved",
   "theorems": [
    "C37_mini_stream_bytes",
    "C37_read_all",
    "C37_short_mini_chain_refuted"
   ],
   "note": "the refuted theorem shows that, unlike C36, a mini chain ending early is not reported"
  },
  {
   "property": "C38",
   "status": "proved",
   "theorems": [
    "C38_not_in_format"
   ],
   "note": "exact characterization (iff) of the contents rejected as not in format"
  },
  {
   "property": "C39",
   "status": "partial",
   "theorems": [
    "C39_exact",
    "C39_terminates",
    "C39_cyclic_difat_refuted"
   ],
   "note": "exactly which files never finish loading, in terms of their bytes: an accepted header that announces DIFAT sectors, listed FAT sectors all inside the file, and a chain of DIFAT sectors that goes on for ever through sectors inside the file that mention only such; every other file ends. The code violates the property on these (1024 bytes suffice)"
  },
  {
   "property": "C40",
   "status": "partial",
   "theorems": [
    "C40_only_first_sector_refuted",
    "C40_later_entries_panic_refuted",
    "C37_read_all"
   ],
   "note": "one mini FAT sector works end to end (C37); with 2 to 128 of them only the first is loaded, and streams beyond it make Open panic"
  },
  {
   "property": "C41",
   "status": "partial",
   "theorems": [
    "C41_list",
    "C41_listed_is_found",
    "C41_unlisted_not_found",
    "C41_at_most_four",
    "C41_fifth_entry_refuted",
    "C41_empty_name_refuted"
   ],
   "note": "holds for directories of at most four entries; the fifth and later entries are never read"
  },
  {
   "property": "C42",
   "status": "proved",
   "theorems": [
    "C42_chunks",
    "C42_chunking_irrelevant",
    "C42_new_ready",
    "C42_reset_ready",
    "C42_set_password_ready"
   ],
   "note": "all inputs, all splits, from every block boundary; which decryptors are at a block boundary is proved too"
  },
  {
   "property": "C43",
   "status": "proved",
   "theorems": [
    "C43_involution",
    "C43_decrypts",
    "C43_decrypts_password",
    "C43_rejects"
   ],
   "note": "default password with its FilePass structure, and any other password set; RC4 and MD5 are modelled and executed"
  },
  {
   "property": "C44",
   "status": "proved",
   "theorems": [
    "C44_decrypts",
    "C44_open",
    "C44_other_methods"
   ],
   "note": "record lists whose clear records have at most 8224 bytes (the format's limit) and whose BoundSheet8 records hold a position"
  },
  {
   "property": "C45",
   "status": "partial",
   "theorems": [
    "C45_framing",
    "C45_truncated",
    "C45_large_record_refuted"
   ],
   "note": "holds for payloads up to 65531 bytes; for 65532 to 65535 the reader panics (refuted theorem)"
  },
  {
   "property": "C46",
   "status": "partial",
   "theorems": [
    "C46_substreams",
    "C46_no_bof_refuted"
   ],
   "note": "exact for balanced streams; a stream not starting with BOF panics"
  },
  {
   "property": "C47",
   "status": "partial",
   "theorems": [
    "C47_short",
    "C47_long",
    "C47_text",
    "C47_roundtrip",
    "C47_overrun_refuted"
   ],
   "note": "Both encodings inverted for all strings, with the byte count. Partial because a count larger than the record is not rejected (C47_overrun_refuted)."
  },
  {
   "property": "C48",
   "status": "partial",
   "theorems": [
    "C48_shared_strings",
    "C48_one_byte_refuted"
   ],
   "note": "All string lists and divisions except one: a 16-bit string followed in its record by exactly one byte of trailing data is rejected (C48_one_byte_refuted)."
  },
  {
   "property": "C49",
   "status": "partial",
   "theorems": [
    "C49_integer",
    "C49_double",
    "C49_double_100",
    "C49_integer_100_refuted"
   ],
   "note": "Three of the four kinds of RK values are exact for all 2^32 values; integers over 100 decode to 0 (C49_integer_100_refuted)."
  },
  {
   "property": "C54",
   "status": "proved",
   "theorems": [
    "C54_hyperlinks",
    "C54_trim_unique",
    "C54_version"
   ],
   "note": "for every hyperlink object (all optional parts, three kinds of target); version error for every version other than 2"
  },
  {
   "property": "C50",
   "status": "proved",
   "theorems": [
    "C50_cells",
    "C52_workbook"
   ],
   "note": "every sequence of cell records (Number, RK, MulRk, LabelSst, BoolErr, Formula with String, MergeCells, HLink, ignored records, embedded substreams), from the bytes of the stream to the grid Get delivers; records of unsupported shape are covered by C53 and C68"
  },
  {
   "property": "C52",
   "status": "partial",
   "theorems": [
    "C52_workbook",
    "C52_partition",
    "C52_position_refuted",
    "C61_workbook"
   ],
   "note": "XLSX end to end by C61_workbook; XLS end to end: from the bytes of a workbook stream to List, ListHidden and Get; refuted: a sheet whose declared position starts no substream is read from the workbook globals instead of failing"
  },
  {
   "property": "C53",
   "status": "partial",
   "theorems": [
    "C53_label",
    "C53_boundary_refuted"
   ],
   "note": "an index above the number of strings is an error; refuted: an index equal to the number panics"
  },
  {
   "property": "C68",
   "status": "partial",
   "theorems": [
    "C68_text",
    "C68_latin1_refuted",
    "C68_surrogate_refuted",
    "C68_split_refuted"
   ],
   "note": "right for ASCII 8-bit chunks and 16-bit chunks without split pairs; refuted for the rest"
  },
  {
   "property": "C51",
   "status": "proved",
   "theorems": [
    "C51_marks",
    "C51_xls",
    "C51_xlsx",
    "C51_xlsx_inside"
   ],
   "note": "for every merged region and every sequence of cell writes; regions that reach beyond the declared dimension of an XLSX sheet are cut there (C71 says what a missing dimension does)"
  },
  {
   "property": "C55",
   "status": "partial",
   "theorems": [
    "C55_xls_refuted",
    "C55_xls_rest",
    "C55_xlsx"
   ],
   "note": "XLSX: exact behaviour after Close. XLS: Get after Close panics for every sheet of the workbook; Close twice and the lists are fine"
  },
  {
   "property": "C32",
   "status": "partial",
   "theorems": [
    "C32_xls_refuted",
    "C32_xlsx_refuted"
   ],
   "note": "no workbook of either kind ever sets the 1904 mode"
  },
  {
   "property": "C57",
   "status": "proved",
   "theorems": [
    "C57_round_trip",
    "C57_letters_distinct"
   ],
   "note": "all columns and rows below 2^63-1; distinct columns have distinct letters"
  },
  {
   "property": "C58",
   "status": "partial",
   "theorems": [
    "C58_panics",
    "C58_total",
    "C58_R1C1_refuted"
   ],
   "note": "exact (iff) set of texts on which it panics; total otherwise"
  },
  {
   "property": "C59",
   "status": "partial",
   "theorems": [
    "C59_shared_strings",
    "C59_phonetic_refuted",
    "C59_space_refuted"
   ],
   "note": "texts and rich text runs; phonetic hints and white space between runs are added to the string"
  },
  {
   "property": "C60",
   "status": "partial",
   "theorems": [
    "C60_styles",
    "C60_style_number",
    "C60_large_refuted"
   ],
   "note": "format ids below 32768; larger ids become 32767"
  },
  {
   "property": "C61",
   "status": "proved",
   "theorems": [
    "C61_sheet",
    "C61_workbook"
   ],
   "note": "from the parts of a package to the grid Get delivers"
  },
  {
   "property": "C62",
   "status": "partial",
   "theorems": [
    "C62_last_text",
    "C62_trailing_refuted",
    "C62_shared_refuted"
   ],
   "note": "every text in a cell element replaces the previous one; white space before the value is harmless, after it replaces the value"
  },
  {
   "property": "C63",
   "status": "partial",
   "theorems": [
    "C63_link",
    "C63_text_lost_refuted",
    "C63_unknown_refuted",
    "C63_range_refuted"
   ],
   "note": ""
  },
  {
   "property": "C64",
   "status": "partial",
   "theorems": [
    "C64_history",
    "C64_missing",
    "C64_exhausted_refuted",
    "C64_opened_fresh"
   ],
   "note": "all histories of Get and Next; the shared cursor means that a sheet can be read only once"
  },
  {
   "property": "C69",
   "status": "partial",
   "theorems": [
    "C69_shared_index_refuted",
    "C69_bool_refuted",
    "C69_style_index_refuted",
    "C69_styles_refuted"
   ],
   "note": "the code violates the property in each listed way; the style sheet cases are stated for the style sheet reader"
  },
  {
   "property": "C70",
   "status": "partial",
   "theorems": [
    "C70_absolute_refuted",
    "C61_workbook"
   ],
   "note": "relative targets work (C61_workbook, where the workbook's own relationships may be absolute)"
  },
  {
   "property": "C71",
   "status": "partial",
   "theorems": [
    "C71_merges_refuted",
    "C71_width_refuted",
    "C61_sheet"
   ],
   "note": ""
  },
  {
   "property": "C56",
   "status": "proved",
   "theorems": [
    "C56_exclusive",
    "C56_read",
    "C56_outcome",
    "C56_frame"
   ],
   "note": "transition system of Close and the first loop of loadFromStream2 over a shared heap and pool; any number of workbooks, every interleaving, pool may hand out any record or a new one and may lose records. Each workbook used by one goroutine at a time; sync.Pool itself is not modelled below its contract"
  },
  {
   "property": "C65",
   "status": "partial",
   "theorems": [
    "C65_exit",
    "C65_no_deadlock",
    "C65_terminates",
    "C65_exits",
    "C65_no_workers_refuted"
   ],
   "note": "all schedules, any number of files and workers; proved for at least one worker, and refuted for NumCPU = 1, where nothing can happen as soon as there is a file. What processing one file comes to is a parameter (instantiated by tsv_job); a panic in it ends the program, which is C94"
  },
  {
   "property": "C66",
   "status": "proved",
   "theorems": [
    "C66_cell",
    "C66_blank",
    "C66_rows",
    "C66_lines",
    "C66_reopen",
    "C66_files"
   ],
   "note": "C66_rows and C66_files for all flags, C66_cell, C66_blank, C66_lines and C66_reopen for the default ones. Workbooks are seen through the interface (names, rows)"
  },
  {
   "property": "C72",
   "status": "proved",
   "theorems": [
    "C72_grater",
    "C72_ambiguous_refuted"
   ],
   "note": "for files whose reading does not panic; the refuted theorem shows that the text does not determine the cells, which the property does not promise"
  },
  {
   "property": "C73",
   "status": "partial",
   "theorems": [
    "C66_collision_refuted",
    "C66_columns_refuted",
    "C66_no_trim_refuted"
   ],
   "note": "the code violates the property"
  },
  {
   "property": "C74",
   "status": "proved",
   "theorems": [
    "C74_xls_file",
    "C74_xlsx_file"
   ],
   "note": "unencrypted XLS (encrypted: C88); decoding of ZIP and XML is an oracle; the memory the buffers are read into may have any spare capacity"
  },
  {
   "property": "C75",
   "status": "proved",
   "theorems": [
    "C75_missing",
    "C75_zip",
    "C75_text",
    "C75_tsv_file",
    "C75_name_irrelevant",
    "C06_csv_opens_refuted"
   ],
   "note": "names are irrelevant up to the file name a text source keeps for List"
  },
  {
   "property": "C76",
   "status": "partial",
   "theorems": [
    "C76_handle_left_refuted",
    "C76_xlsx_close",
    "C76_text",
    "C76_xlsx_failure_refuted"
   ],
   "note": "the code violates the property; finalizers of os.File are not modelled"
  },
  {
   "property": "C77",
   "status": "partial",
   "theorems": [
    "C77_word_document_refuted",
    "C77_other_archives"
   ],
   "note": "the code violates the property"
  },
  {
   "property": "C78",
   "status": "proved",
   "theorems": [
    "C78_views"
   ],
   "note": "the text a format prints for a stored value is Apply's, which C23-C29, C67 and C79-C81 describe format by format; unknown format ids panic (C28)"
  },
  {
   "property": "C79",
   "status": "partial",
   "theorems": [
    "C79_dates",
    "C79_hours_refuted",
    "C79_quotes_refuted",
    "C79_month_refuted",
    "C79_elapsed_refuted",
    "C79_time_words_refuted",
    "C79_noon_words_refuted",
    "C79_tenths_refuted",
    "C79_buddhist_refuted"
   ],
   "note": "all built-in date and time formats: 14-19, 30, 45, 71-74, 78 show what their codes say; the code violates the property for each of the others, in the way the refuted theorems say"
  },
  {
   "property": "C80",
   "status": "partial",
   "theorems": [
    "C80_integers",
    "C80_floats",
    "C80_zero",
    "C80_negative_refuted"
   ],
   "note": "the code violates the property for negative numbers"
  },
  {
   "property": "C81",
   "status": "partial",
   "theorems": [
    "C81_scientific",
    "C81_engineering_refuted"
   ],
   "note": "format 11 proved; the code violates the property for format 48"
  },
  {
   "property": "C82",
   "status": "partial",
   "theorems": [
    "C82_integers",
    "C82_decimals",
    "C82_percent",
    "C82_scientific",
    "C82_exponent_refuted",
    "C82_text",
    "C82_static",
    "C82_rounding_refuted",
    "C82_zero_padding_refuted",
    "C82_literal_refuted",
    "C82_negative_section_refuted"
   ],
   "note": "proved for codes whose texts avoid the characters with a meaning of their own; the code violates the property in the ways of the refuted theorems"
  },
  {
   "property": "C83",
   "status": "partial",
   "theorems": [
    "C83_layout",
    "C83_hours_refuted",
    "C83_ampm_refuted",
    "C83_minutes_refuted",
    "C83_weekday_refuted"
   ],
   "note": "proved for codes in which every part occurs at most once, minutes stand between hours and seconds, and quoted text has none of the letters and digits that mean something in a layout; the code violates the property in the ways of the refuted theorems"
  },
  {
   "property": "C84",
   "status": "partial",
   "theorems": [
    "C84_exact",
    "C84_open_ends",
    "C84_endless_refuted",
    "C84_workbook_ends",
    "C84_get_ends"
   ],
   "note": "proved for every file but those of C39, on which Open never ends whatever the registration order: the code violates the property exactly there. What encoding/xml, archive/zip and encoding/csv do is taken to end"
  },
  {
   "property": "C85",
   "status": "partial",
   "theorems": [
    "C85_get",
    "C85_load",
    "C85_split",
    "C85_short_refuted",
    "C85_text_refuted",
    "C85_split_refuted"
   ],
   "note": "proved for records with the least length the reader needs, which is exact; for shared strings and hyperlinks it is that the reader's own grammar for them is met (C96, C97), and a sheet has at most one Dimensions record; the code violates the property outside these bounds"
  },
  {
   "property": "C86",
   "status": "partial",
   "theorems": [
    "C86_dimensions_refuted",
    "C86_dimension_xlsx_refuted"
   ],
   "note": "the code violates the property"
  },
  {
   "property": "C87",
   "status": "partial",
   "theorems": [
    "C87_exact",
    "C87_styles",
    "C87_open",
    "C87_get",
    "C87_late_dimension_refuted"
   ],
   "note": "exact for sheets whose dimension element comes at most once and before the cells; violated for a later one"
  },
  {
   "property": "C88",
   "status": "proved",
   "theorems": [
    "C88_workbook",
    "C88_file"
   ],
   "note": "RC4 encryption with the default password, the only method the reader supports (C44_other_methods); records of at most 65531 bytes"
  },
  {
   "property": "C89",
   "status": "partial",
   "theorems": [
    "C89_inline",
    "C89_inline_piece",
    "C89_runs_refuted",
    "C89_hint_refuted",
    "C89_formula_refuted",
    "C89_reference_refuted",
    "C89_strict_refuted",
    "C89_chart_refuted"
   ],
   "note": "inline strings in one piece proved; the code violates the property for the other forms"
  },
  {
   "property": "C90",
   "status": "partial",
   "theorems": [
    "C90_commands",
    "C90_printed",
    "C90_independent",
    "C90_xls_file",
    "C90_encrypted_file",
    "C90_xlsx_file",
    "C90_tsv_file",
    "C90_blank_row_refuted",
    "C90_one_cell_refuted",
    "C90_nil_refuted"
   ],
   "note": "the four kinds of files proved from the bytes (for XLSX from the unpacked parts and XML tokens) to the output, for distinct sheet names; the _refuted theorems are the violations"
  },
  {
   "property": "C91",
   "status": "partial",
   "theorems": [
    "C91_label_refuted",
    "C91_label_allowed",
    "C91_link_refuted",
    "C91_dialog_refuted",
    "C91_sync_refuted",
    "C91_sync_panics_refuted",
    "C91_nested_refuted",
    "C91_chart_refuted"
   ],
   "note": "the code violates the property for each of these forms"
  },
  {
   "property": "C92",
   "status": "partial",
   "theorems": [
    "C92_brackets",
    "C92_accounting",
    "C92_currency_refuted",
    "C92_condition_refuted",
    "C92_general_refuted",
    "C92_date_section_refuted",
    "C92_elapsed_refuted",
    "C92_optional_refuted",
    "C92_scaling_refuted",
    "C92_fraction_refuted",
    "C92_picture_refuted",
    "C92_accounting_refuted"
   ],
   "note": "bracketed parts and positive amounts proved; the _refuted theorems are the violations, each for all values and where possible all codes of the form"
  },
  {
   "property": "C93",
   "status": "partial",
   "theorems": [
    "C93_results",
    "C93_files",
    "C93_exit",
    "C93_reported_unwritten_refuted",
    "C93_collision_refuted",
    "C93_write_errors_refuted"
   ],
   "note": "proved for every crash point of every schedule (the output files for outputs with different paths); the _refuted theorems are the violations. A kill loses nothing already handed to the operating system; machine crashes are not modelled"
  },
  {
   "property": "C94",
   "status": "partial",
   "theorems": [
    "C94_survives",
    "C94_terminates",
    "C94_dies",
    "C94_reported_empty_refuted",
    "C94_lost_refuted"
   ],
   "note": "proved: no endless run, without panics every run can only end with exit, with a panic no run does. The _refuted theorems show what may be lost"
  },
  {
   "property": "C95",
   "status": "partial",
   "theorems": [
    "C95_values",
    "C95_frame",
    "C95_raw",
    "C95_strings_fresh",
    "C95_strings_once",
    "C95_assignment_refuted",
    "C95_capacity_refuted",
    "C95_strings_shared_refuted"
   ],
   "note": "proved over a heap of arrays with any allocation rule; the _refuted theorems are the violations (rows of text files, and cells assigned rather than cloned)"
  },
  {
   "property": "C96",
   "status": "partial",
   "theorems": [
    "C96_tables",
    "C96_unambiguous",
    "C96_otherwise",
    "C96_workbook",
    "C96_count_refuted",
    "C96_cut_refuted"
   ],
   "note": "acceptance is characterized exactly; the _refuted theorems are the violations (counts ignored, a cut string ends the program)"
  },
  {
   "property": "C97",
   "status": "partial",
   "theorems": [
    "C97_links",
    "C97_valid",
    "C97_overrun_refuted",
    "C97_frame_refuted",
    "C97_memory_refuted"
   ],
   "note": "the outcome is characterized exactly by the announced lengths; the _refuted theorems are the violations"
  },
  {
   "property": "C98",
   "status": "partial",
   "theorems": [
    "C98_text",
    "C98_header",
    "C98_foreign_refuted",
    "C98_short_refuted",
    "C98_cut_refuted"
   ],
   "note": "what opens as text is characterized exactly; the _refuted theorems are the violations (foreign compound files, cut-off workbooks)"
  },
  {
   "property": "C99",
   "status": "partial",
   "theorems": [
    "C99_distinct",
    "C99_sequence",
    "C99_commands",
    "C99_twice_refuted"
   ],
   "note": "the output for any list of names is characterized; C99_twice_refuted is the violation (XLSX names listed twice)"
  },
  {
   "property": "C100",
   "status": "partial",
   "theorems": [
    "C100_normal",
    "C100_rectangles",
    "C100_again",
    "C100_tables",
    "C100_long_refuted"
   ],
   "note": "C100_long_refuted is the violation (lines of more than 65535 bytes); files that begin with the signature of a compound file or read as an archive are excluded"
  },
  {
   "property": "C101",
   "status": "partial",
   "theorems": [
    "C101_cut",
    "C101_behind",
    "C101_appended",
    "C101_panic_refuted",
    "C101_memory_refuted"
   ],
   "note": "proved for any bytes and any cut without memory behind it, with the storage of the root entry first in the directory; the _refuted theorems are the violations when memory lies behind"
  },
  {
   "property": "C102",
   "status": "proved",
   "theorems": [
    "C102_refines",
    "C102_own",
    "C102_once",
    "C102_exit",
    "C102_terminates",
    "C102_exits"
   ],
   "note": "every run of the pooled system is a run of the system of C65"
  },
  {
   "property": "C103",
   "status": "partial",
   "theorems": [
    "C103_file",
    "C103_run",
    "C103_open",
    "C103_tells",
    "C103_forged_refuted",
    "C103_glued_refuted"
   ],
   "note": "proved when names and error texts are without tabs and newlines and the file was empty or ended with a newline; the _refuted theorems are the violations otherwise"
  },
  {
   "property": "C104",
   "status": "partial",
   "theorems": [
    "C104_sheet",
    "C104_origin",
    "C104_stream",
    "C104_globals",
    "C104_file",
    "C104_overrun_refuted"
   ],
   "note": "proved for all byte sequences that can be opened, for substreams with at most one complete Dimensions record; the bytes behind a record that a too long name or format takes are part of the statement, and the _refuted theorem shows that this happens; the text of a hyperlink is the one of the model's decoder (C46)"
  },
  {
   "property": "C105",
   "status": "proved",
   "theorems": [
    "C105_sheet",
    "C105_open",
    "C105_origin",
    "C105_get"
   ],
   "note": "for any package that opens; a dimension element that comes late is C87_late_dimension_refuted, and which texts of a cell element count is C62"
  },
  {
   "property": "C106",
   "status": "proved",
   "theorems": [
    "C106_stream",
    "C106_one_content",
    "C106_exact",
    "C106_open",
    "C106_exact_open",
    "C106_sheet"
   ],
   "note": "no file written by a reference writer is assumed; which contents load as workbooks is C85 and C104; a name of length 0 or of 32768 and more (even) makes Open panic (ex_C106_nameless)"
  },
  {
   "property": "C107",
   "status": "proved",
   "theorems": [
    "C107_package",
    "C107_no_package",
    "C107_lost",
    "C107_left",
    "C107_opened_xlsx",
    "C107_opened_text"
   ],
   "note": "the files opened as XLS are C106_exact_open; archive/zip and encoding/xml are parameters whose errors are not grate's; C98 and C77 are the cases in which the outcome is not the one a user wants"
  },
  {
   "property": "C108",
   "status": "proved",
   "theorems": [
    "C108_deciphers",
    "C108_loads",
    "C108_opened_xls"
   ],
   "note": "loads: without an error and without a panic; texts of one byte a character may run on behind their record (C104_overrun_refuted); with C107 this says for every byte sequence whether Open opens it and as what"
  },
  {
   "property": "C109",
   "status": "proved",
   "theorems": [
    "C109_scan_int",
    "C109_scan_float",
    "C109_scan",
    "C109_xlsx_number",
    "C109_number_format",
    "C109_less",
    "C109_less_blanks"
   ],
   "note": "strconv.ParseFloat and ParseInt are modelled in GoFloat and GoBase; that the modelled rounding is the nearest float64 is proved here, for any number of digits (L_round). Longer texts with an exponent of 100000 and more are left out: strconv does not count such exponents exactly"
  },
  {
   "property": "C110",
   "status": "proved",
   "theorems": [
    "C110_general",
    "C110_general_special",
    "C110_read_back",
    "C110_general_back",
    "C110_sprint"
   ],
   "note": "strconv.FormatFloat is modelled in GoFloat; that the modelled search finds the shortest digits, and within seventeen, is proved here (L_short). The text of six digits loses the rest of the number (ex_C110_six)"
  },
  {
   "property": "C111",
   "status": "partial",
   "theorems": [
    "C111_xls",
    "C111_xlsx",
    "C111_text",
    "C111_errors",
    "C111_steady",
    "C111_swallowed_refuted",
    "C111_written_refuted"
   ],
   "note": "which source comes from which reading is exact; the _refuted theorems are the violations. The parts of an archive are taken to stay as they were at Open"
  },
  {
   "property": "C112",
   "status": "partial",
   "theorems": [
    "C112_values",
    "C112_exported",
    "C112_third_refuted"
   ],
   "note": "the round trip holds with the six-digit exception stated; the _refuted theorem is a number that does not come back exactly. Values under formats other than General are shown as C29, C67 and C82 say and are not read back here"
  },
  {
   "property": "C113",
   "status": "proved",
   "theorems": [
    "C113_shown",
    "C113_separated",
    "C113_custom",
    "C113_read",
    "C113_exported",
    "C113_whole",
    "C113_whole_exported",
    "C113_refused",
    "C113_separators_refuted",
    "C113_xlsx",
    "C113_rk",
    "C113_parens",
    "C113_accounting"
   ],
   "note": "15 digits is where it stops being true of decimal numbers and float64; the _refuted theorem is about reading texts with separators, which is not claimed"
  },
  {
   "property": "C114",
   "status": "partial",
   "theorems": [
    "C114_scan",
    "C114_number",
    "C114_word",
    "C114_xlsx",
    "C114_formats_refuted",
    "C114_all",
    "C114_hex",
    "C114_xlsx_all"
   ],
   "note": "which texts are numbers is exact for all texts; the values of hexadecimal numerals with exponents of 100000 and more are left out; the _refuted theorem is the violation"
  },
  {
   "property": "C115",
   "status": "partial",
   "theorems": [
    "C115_shown",
    "C115_custom",
    "C115_whole",
    "C115_not_read_refuted",
    "C115_whole_refuted"
   ],
   "note": "proved for percent formats with decimals; for 0% the shown percentage is the right one or one less; the _refuted theorems are the violations"
  },
  {
   "property": "C116",
   "status": "proved",
   "theorems": [
    "C116_shown",
    "C116_custom",
    "C116_read",
    "C116_back"
   ],
   "note": "15 digits is where it stops being true of decimal numbers and float64; below 10^-290 the bound on the rounding error used here no longer holds near the subnormal numbers"
  }
 ]
}