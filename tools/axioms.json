{
"C01_open_first_decisive": [],
"C01_open_cases": [],
"C01_open_unknown": [],
"C02_table_sorted_permutation": [],
"C02_registration_order_irrelevant": [],
"C03_errors_is_chain": [],
"C03_wrap_second": [],
"C03_wrap_single": [],
"C03_wrap_text": [],
"C04_tsv_round_trip": [
"ClassicalDedekindReals.sig_not_dec",
"ClassicalDedekindReals.sig_forall_dec",
"FunctionalExtensionality.functional_extensionality_dep",
"Classical_Prop.classic"
],
"C04_tsv_rows_are_lines": [
"ClassicalDedekindReals.sig_not_dec",
"ClassicalDedekindReals.sig_forall_dec",
"FunctionalExtensionality.functional_extensionality_dep",
"Classical_Prop.classic"
],
"C05_order_independent": [
"ClassicalDedekindReals.sig_not_dec",
"ClassicalDedekindReals.sig_forall_dec",
"FunctionalExtensionality.functional_extensionality_dep",
"Classical_Prop.classic"
],
"C05_accept_iff": [
"ClassicalDedekindReals.sig_not_dec",
"ClassicalDedekindReals.sig_forall_dec",
"FunctionalExtensionality.functional_extensionality_dep",
"Classical_Prop.classic"
],
"C06_csv_opens_refuted": [
"ClassicalDedekindReals.sig_not_dec",
"ClassicalDedekindReals.sig_forall_dec",
"FunctionalExtensionality.functional_extensionality_dep",
"Classical_Prop.classic"
],
"C06_csv_clean_end": [
"ClassicalDedekindReals.sig_not_dec",
"ClassicalDedekindReals.sig_forall_dec",
"FunctionalExtensionality.functional_extensionality_dep",
"Classical_Prop.classic"
],
"C07_commas_are_not_split_refuted": [
"ClassicalDedekindReals.sig_not_dec",
"ClassicalDedekindReals.sig_forall_dec",
"FunctionalExtensionality.functional_extensionality_dep",
"Classical_Prop.classic"
],
"C08_cursor": [],
"C08_after_the_end": [],
"C09_scan_count": [
"ClassicalDedekindReals.sig_not_dec",
"ClassicalDedekindReals.sig_forall_dec",
"FunctionalExtensionality.functional_extensionality_dep",
"Classical_Prop.classic"
],
"C09_scan_prefix": [
"ClassicalDedekindReals.sig_not_dec",
"ClassicalDedekindReals.sig_forall_dec",
"FunctionalExtensionality.functional_extensionality_dep",
"Classical_Prop.classic"
],
"C09_scan_values": [
"ClassicalDedekindReals.sig_not_dec",
"ClassicalDedekindReals.sig_forall_dec",
"FunctionalExtensionality.functional_extensionality_dep",
"Classical_Prop.classic"
],
"C10_last_put_wins": [
"ClassicalDedekindReals.sig_not_dec",
"ClassicalDedekindReals.sig_forall_dec",
"FunctionalExtensionality.functional_extensionality_dep",
"Classical_Prop.classic"
],
"C10_grid_unique": [],
"C11_rectangular": [
"ClassicalDedekindReals.sig_not_dec",
"ClassicalDedekindReals.sig_forall_dec",
"FunctionalExtensionality.functional_extensionality_dep",
"Classical_Prop.classic"
],
"C11_strings_width": [
"ClassicalDedekindReals.sig_not_dec",
"ClassicalDedekindReals.sig_forall_dec",
"FunctionalExtensionality.functional_extensionality_dep",
"Classical_Prop.classic"
],
"C11_shrink_panics_refuted": [
"ClassicalDedekindReals.sig_not_dec",
"ClassicalDedekindReals.sig_forall_dec",
"FunctionalExtensionality.functional_extensionality_dep",
"Classical_Prop.classic"
],
"C12_extra_record_refuted": [
"ClassicalDedekindReals.sig_not_dec",
"ClassicalDedekindReals.sig_forall_dec",
"FunctionalExtensionality.functional_extensionality_dep",
"Classical_Prop.classic"
],
"C12_records": [
"ClassicalDedekindReals.sig_not_dec",
"ClassicalDedekindReals.sig_forall_dec",
"FunctionalExtensionality.functional_extensionality_dep",
"Classical_Prop.classic"
],
"C12_stays_at_end": [],
"C13_put_frame": [
"ClassicalDedekindReals.sig_not_dec",
"ClassicalDedekindReals.sig_forall_dec",
"FunctionalExtensionality.functional_extensionality_dep",
"Classical_Prop.classic"
],
"C14_set": [
"ClassicalDedekindReals.sig_not_dec",
"ClassicalDedekindReals.sig_forall_dec",
"FunctionalExtensionality.functional_extensionality_dep",
"Classical_Prop.classic"
],
"C14_set_url": [
"ClassicalDedekindReals.sig_not_dec",
"ClassicalDedekindReals.sig_forall_dec",
"FunctionalExtensionality.functional_extensionality_dep",
"Classical_Prop.classic"
],
"C14_set_panics_refuted": [
"ClassicalDedekindReals.sig_not_dec",
"ClassicalDedekindReals.sig_forall_dec",
"FunctionalExtensionality.functional_extensionality_dep",
"Classical_Prop.classic"
],
"C15_scan": [],
"C15_scan_too_many_refuted": [],
"C16_is_empty": [
"ClassicalDedekindReals.sig_not_dec",
"ClassicalDedekindReals.sig_forall_dec",
"FunctionalExtensionality.functional_extensionality_dep",
"Classical_Prop.classic"
],
"C16_A1_dropped_refuted": [
"ClassicalDedekindReals.sig_not_dec",
"ClassicalDedekindReals.sig_forall_dec",
"FunctionalExtensionality.functional_extensionality_dep",
"Classical_Prop.classic"
],
"C17_new_cell": [
"ClassicalDedekindReals.sig_not_dec",
"ClassicalDedekindReals.sig_forall_dec",
"FunctionalExtensionality.functional_extensionality_dep",
"Classical_Prop.classic"
],
"C17_new_cell_total": [
"ClassicalDedekindReals.sig_not_dec",
"ClassicalDedekindReals.sig_forall_dec",
"FunctionalExtensionality.functional_extensionality_dep",
"Classical_Prop.classic"
],
"C17_uint_wraps_refuted": [
"ClassicalDedekindReals.sig_not_dec",
"ClassicalDedekindReals.sig_forall_dec",
"FunctionalExtensionality.functional_extensionality_dep",
"Classical_Prop.classic"
],
"C18_coercion": [
"ClassicalDedekindReals.sig_not_dec",
"ClassicalDedekindReals.sig_forall_dec",
"FunctionalExtensionality.functional_extensionality_dep",
"Classical_Prop.classic"
],
"C18_same_type_unchanged": [
"ClassicalDedekindReals.sig_not_dec",
"ClassicalDedekindReals.sig_forall_dec",
"FunctionalExtensionality.functional_extensionality_dep",
"Classical_Prop.classic"
],
"C18_total": [
"ClassicalDedekindReals.sig_not_dec",
"ClassicalDedekindReals.sig_forall_dec",
"FunctionalExtensionality.functional_extensionality_dep",
"Classical_Prop.classic"
],
"C18_type_obeyed": [
"ClassicalDedekindReals.sig_not_dec",
"ClassicalDedekindReals.sig_forall_dec",
"FunctionalExtensionality.functional_extensionality_dep",
"Classical_Prop.classic"
],
"C18_int_to_float": [
"ClassicalDedekindReals.sig_not_dec",
"ClassicalDedekindReals.sig_forall_dec",
"FunctionalExtensionality.functional_extensionality_dep",
"Classical_Prop.classic"
],
"C18_float_to_int": [
"ClassicalDedekindReals.sig_not_dec",
"ClassicalDedekindReals.sig_forall_dec",
"FunctionalExtensionality.functional_extensionality_dep",
"Classical_Prop.classic"
],
"C20_less_means": [
"ClassicalDedekindReals.sig_not_dec",
"ClassicalDedekindReals.sig_forall_dec",
"FunctionalExtensionality.functional_extensionality_dep",
"Classical_Prop.classic"
],
"C20_less_numbers": [
"ClassicalDedekindReals.sig_not_dec",
"ClassicalDedekindReals.sig_forall_dec",
"FunctionalExtensionality.functional_extensionality_dep",
"Classical_Prop.classic"
],
"C20_less_false": [
"ClassicalDedekindReals.sig_not_dec",
"ClassicalDedekindReals.sig_forall_dec",
"FunctionalExtensionality.functional_extensionality_dep",
"Classical_Prop.classic"
],
"C20_less_text": [
"ClassicalDedekindReals.sig_not_dec",
"ClassicalDedekindReals.sig_forall_dec",
"FunctionalExtensionality.functional_extensionality_dep",
"Classical_Prop.classic"
],
"C20_less_word": [
"ClassicalDedekindReals.sig_not_dec",
"ClassicalDedekindReals.sig_forall_dec",
"FunctionalExtensionality.functional_extensionality_dep",
"Classical_Prop.classic"
],
"C20_less_bool_text": [
"ClassicalDedekindReals.sig_not_dec",
"ClassicalDedekindReals.sig_forall_dec",
"FunctionalExtensionality.functional_extensionality_dep",
"Classical_Prop.classic"
],
"C20_less_blank": [
"ClassicalDedekindReals.sig_not_dec",
"ClassicalDedekindReals.sig_forall_dec",
"FunctionalExtensionality.functional_extensionality_dep",
"Classical_Prop.classic"
],
"C20_irreflexive": [
"ClassicalDedekindReals.sig_not_dec",
"ClassicalDedekindReals.sig_forall_dec",
"FunctionalExtensionality.functional_extensionality_dep",
"Classical_Prop.classic"
],
"C20_transitive": [
"ClassicalDedekindReals.sig_not_dec",
"ClassicalDedekindReals.sig_forall_dec",
"FunctionalExtensionality.functional_extensionality_dep",
"Classical_Prop.classic"
],
"C20_total_up_to_equal": [
"ClassicalDedekindReals.sig_not_dec",
"ClassicalDedekindReals.sig_forall_dec",
"FunctionalExtensionality.functional_extensionality_dep",
"Classical_Prop.classic"
],
"C20_total_big_ints_refuted": [
"ClassicalDedekindReals.sig_not_dec",
"ClassicalDedekindReals.sig_forall_dec",
"FunctionalExtensionality.functional_extensionality_dep",
"Classical_Prop.classic"
],
"C20_mixed_kinds_refuted": [
"ClassicalDedekindReals.sig_not_dec",
"ClassicalDedekindReals.sig_forall_dec",
"FunctionalExtensionality.functional_extensionality_dep",
"Classical_Prop.classic"
],
"C20_dates_panic_refuted": [],
"C20_false_and_negative_refuted": [
"ClassicalDedekindReals.sig_not_dec",
"ClassicalDedekindReals.sig_forall_dec",
"FunctionalExtensionality.functional_extensionality_dep",
"Classical_Prop.classic"
],
"C21_equal_numbers": [
"ClassicalDedekindReals.sig_not_dec",
"ClassicalDedekindReals.sig_forall_dec",
"FunctionalExtensionality.functional_extensionality_dep",
"Classical_Prop.classic"
],
"C21_equal_numbers_real": [
"ClassicalDedekindReals.sig_not_dec",
"ClassicalDedekindReals.sig_forall_dec",
"FunctionalExtensionality.functional_extensionality_dep",
"Classical_Prop.classic"
],
"C21_reflexive": [
"ClassicalDedekindReals.sig_not_dec",
"ClassicalDedekindReals.sig_forall_dec",
"FunctionalExtensionality.functional_extensionality_dep",
"Classical_Prop.classic"
],
"C21_symmetry_refuted": [
"ClassicalDedekindReals.sig_not_dec",
"ClassicalDedekindReals.sig_forall_dec",
"FunctionalExtensionality.functional_extensionality_dep",
"Classical_Prop.classic"
],
"C21_blank_equals_text_refuted": [
"ClassicalDedekindReals.sig_not_dec",
"ClassicalDedekindReals.sig_forall_dec",
"FunctionalExtensionality.functional_extensionality_dep",
"Classical_Prop.classic"
],
"C22_no_panic": [
"ClassicalDedekindReals.sig_not_dec",
"ClassicalDedekindReals.sig_forall_dec",
"FunctionalExtensionality.functional_extensionality_dep",
"Classical_Prop.classic"
],
"C22_setters_total": [
"ClassicalDedekindReals.sig_not_dec",
"ClassicalDedekindReals.sig_forall_dec",
"FunctionalExtensionality.functional_extensionality_dep",
"Classical_Prop.classic"
],
"C22_set_format": [
"ClassicalDedekindReals.sig_not_dec",
"ClassicalDedekindReals.sig_forall_dec",
"FunctionalExtensionality.functional_extensionality_dep",
"Classical_Prop.classic"
],
"C22_set_url": [
"ClassicalDedekindReals.sig_not_dec",
"ClassicalDedekindReals.sig_forall_dec",
"FunctionalExtensionality.functional_extensionality_dep",
"Classical_Prop.classic"
],
"C22_hyperlink_refuted": [],
"C19_exact": [
"ClassicalDedekindReals.sig_not_dec",
"ClassicalDedekindReals.sig_forall_dec",
"FunctionalExtensionality.functional_extensionality_dep",
"Classical_Prop.classic"
],
"C19_general": [
"ClassicalDedekindReals.sig_not_dec",
"ClassicalDedekindReals.sig_forall_dec",
"FunctionalExtensionality.functional_extensionality_dep",
"Classical_Prop.classic"
],
"C19_stored": [
"ClassicalDedekindReals.sig_not_dec",
"ClassicalDedekindReals.sig_forall_dec",
"FunctionalExtensionality.functional_extensionality_dep",
"Classical_Prop.classic"
],
"C19_dates": [
"ClassicalDedekindReals.sig_not_dec",
"ClassicalDedekindReals.sig_forall_dec",
"FunctionalExtensionality.functional_extensionality_dep",
"Classical_Prop.classic"
],
"C19_numbers_refuted": [
"ClassicalDedekindReals.sig_not_dec",
"ClassicalDedekindReals.sig_forall_dec",
"FunctionalExtensionality.functional_extensionality_dep",
"Classical_Prop.classic"
],
"C19_text_lost_refuted": [
"ClassicalDedekindReals.sig_not_dec",
"ClassicalDedekindReals.sig_forall_dec",
"FunctionalExtensionality.functional_extensionality_dep",
"Classical_Prop.classic"
],
"C19_date_text_refuted": [
"ClassicalDedekindReals.sig_not_dec",
"ClassicalDedekindReals.sig_forall_dec",
"FunctionalExtensionality.functional_extensionality_dep",
"Classical_Prop.classic"
],
"C19_empty_text_refuted": [
"ClassicalDedekindReals.sig_not_dec",
"ClassicalDedekindReals.sig_forall_dec",
"FunctionalExtensionality.functional_extensionality_dep",
"Classical_Prop.classic"
],
"C23_commas": [
"ClassicalDedekindReals.sig_not_dec",
"ClassicalDedekindReals.sig_forall_dec",
"FunctionalExtensionality.functional_extensionality_dep",
"Classical_Prop.classic"
],
"C23_only_commas_added": [],
"C23_grouping_unique": [],
"C23_builtin_integers": [
"ClassicalDedekindReals.sig_not_dec",
"ClassicalDedekindReals.sig_forall_dec",
"FunctionalExtensionality.functional_extensionality_dep",
"Classical_Prop.classic"
],
"C23_builtin_floats": [
"ClassicalDedekindReals.sig_not_dec",
"ClassicalDedekindReals.sig_forall_dec",
"FunctionalExtensionality.functional_extensionality_dep",
"Classical_Prop.classic"
],
"C24_parens": [
"ClassicalDedekindReals.sig_not_dec",
"ClassicalDedekindReals.sig_forall_dec",
"FunctionalExtensionality.functional_extensionality_dep",
"Classical_Prop.classic"
],
"C24_builtin_integers": [
"ClassicalDedekindReals.sig_not_dec",
"ClassicalDedekindReals.sig_forall_dec",
"FunctionalExtensionality.functional_extensionality_dep",
"Classical_Prop.classic"
],
"C24_builtin_floats": [
"ClassicalDedekindReals.sig_not_dec",
"ClassicalDedekindReals.sig_forall_dec",
"FunctionalExtensionality.functional_extensionality_dep",
"Classical_Prop.classic"
],
"C24_empty_text_refuted": [
"ClassicalDedekindReals.sig_not_dec",
"ClassicalDedekindReals.sig_forall_dec",
"FunctionalExtensionality.functional_extensionality_dep",
"Classical_Prop.classic"
],
"C25_general": [
"ClassicalDedekindReals.sig_not_dec",
"ClassicalDedekindReals.sig_forall_dec",
"FunctionalExtensionality.functional_extensionality_dep",
"Classical_Prop.classic"
],
"C26_sections": [
"ClassicalDedekindReals.sig_not_dec",
"ClassicalDedekindReals.sig_forall_dec",
"FunctionalExtensionality.functional_extensionality_dep",
"Classical_Prop.classic"
],
"C27_builtin_fixed": [
"ClassicalDedekindReals.sig_not_dec",
"ClassicalDedekindReals.sig_forall_dec",
"FunctionalExtensionality.functional_extensionality_dep",
"Classical_Prop.classic"
],
"C27_rejected_unchanged": [],
"C27_first_wins": [
"ClassicalDedekindReals.sig_not_dec",
"ClassicalDedekindReals.sig_forall_dec",
"FunctionalExtensionality.functional_extensionality_dep",
"Classical_Prop.classic"
],
"C27_general_replaces_refuted": [
"ClassicalDedekindReals.sig_not_dec",
"ClassicalDedekindReals.sig_forall_dec",
"FunctionalExtensionality.functional_extensionality_dep",
"Classical_Prop.classic"
],
"C28_unknown_panics_refuted": [
"ClassicalDedekindReals.sig_not_dec",
"ClassicalDedekindReals.sig_forall_dec",
"FunctionalExtensionality.functional_extensionality_dep",
"Classical_Prop.classic"
],
"C28_cell_panics_refuted": [
"ClassicalDedekindReals.sig_not_dec",
"ClassicalDedekindReals.sig_forall_dec",
"FunctionalExtensionality.functional_extensionality_dep",
"Classical_Prop.classic"
],
"C28_known_ids_render": [
"ClassicalDedekindReals.sig_not_dec",
"ClassicalDedekindReals.sig_forall_dec",
"FunctionalExtensionality.functional_extensionality_dep",
"Classical_Prop.classic"
],
"C29_decimals": [
"ClassicalDedekindReals.sig_not_dec",
"ClassicalDedekindReals.sig_forall_dec",
"FunctionalExtensionality.functional_extensionality_dep",
"Classical_Prop.classic"
],
"C29_truncates": [
"ClassicalDedekindReals.sig_not_dec",
"ClassicalDedekindReals.sig_forall_dec",
"FunctionalExtensionality.functional_extensionality_dep",
"Classical_Prop.classic"
],
"C29_custom_percent_refuted": [
"ClassicalDedekindReals.sig_not_dec",
"ClassicalDedekindReals.sig_forall_dec",
"FunctionalExtensionality.functional_extensionality_dep",
"Classical_Prop.classic"
],
"C33_terminates": [
"ClassicalDedekindReals.sig_not_dec",
"ClassicalDedekindReals.sig_forall_dec",
"FunctionalExtensionality.functional_extensionality_dep",
"Classical_Prop.classic"
],
"C33_whole_terminates": [
"ClassicalDedekindReals.sig_not_dec",
"ClassicalDedekindReals.sig_forall_dec",
"FunctionalExtensionality.functional_extensionality_dep",
"Classical_Prop.classic"
],
"C33_close": [
"ClassicalDedekindReals.sig_not_dec",
"ClassicalDedekindReals.sig_forall_dec",
"FunctionalExtensionality.functional_extensionality_dep",
"Classical_Prop.classic"
],
"C33_whole_fraction": [
"ClassicalDedekindReals.sig_not_dec",
"ClassicalDedekindReals.sig_forall_dec",
"FunctionalExtensionality.functional_extensionality_dep",
"Classical_Prop.classic"
],
"C33_text": [
"ClassicalDedekindReals.sig_not_dec",
"ClassicalDedekindReals.sig_forall_dec",
"FunctionalExtensionality.functional_extensionality_dep",
"Classical_Prop.classic"
],
"C33_exact": [
"ClassicalDedekindReals.sig_not_dec",
"ClassicalDedekindReals.sig_forall_dec",
"FunctionalExtensionality.functional_extensionality_dep",
"Classical_Prop.classic"
],
"C33_whole": [
"ClassicalDedekindReals.sig_not_dec",
"ClassicalDedekindReals.sig_forall_dec",
"FunctionalExtensionality.functional_extensionality_dep",
"Classical_Prop.classic"
],
"C33_negative_refuted": [
"ClassicalDedekindReals.sig_not_dec",
"ClassicalDedekindReals.sig_forall_dec",
"FunctionalExtensionality.functional_extensionality_dep",
"Classical_Prop.classic"
],
"C33_carry_refuted": [
"ClassicalDedekindReals.sig_not_dec",
"ClassicalDedekindReals.sig_forall_dec",
"FunctionalExtensionality.functional_extensionality_dep",
"Classical_Prop.classic"
],
"C33_improper_refuted": [
"ClassicalDedekindReals.sig_not_dec",
"ClassicalDedekindReals.sig_forall_dec",
"FunctionalExtensionality.functional_extensionality_dep",
"Classical_Prop.classic"
],
"C67_two_decimals": [
"ClassicalDedekindReals.sig_not_dec",
"ClassicalDedekindReals.sig_forall_dec",
"FunctionalExtensionality.functional_extensionality_dep",
"Classical_Prop.classic"
],
"C30_integral_serials": [
"ClassicalDedekindReals.sig_not_dec",
"ClassicalDedekindReals.sig_forall_dec",
"FunctionalExtensionality.functional_extensionality_dep",
"Classical_Prop.classic"
],
"C30_fractional_serials": [
"ClassicalDedekindReals.sig_not_dec",
"ClassicalDedekindReals.sig_forall_dec",
"FunctionalExtensionality.functional_extensionality_dep",
"Classical_Prop.classic"
],
"C30_time_of_day": [
"ClassicalDedekindReals.sig_not_dec",
"ClassicalDedekindReals.sig_forall_dec",
"FunctionalExtensionality.functional_extensionality_dep",
"Classical_Prop.classic"
],
"C31_monotone": [
"ClassicalDedekindReals.sig_not_dec",
"ClassicalDedekindReals.sig_forall_dec",
"FunctionalExtensionality.functional_extensionality_dep",
"Classical_Prop.classic"
],
"C34_read": [],
"C34_read_all": [],
"C34_read_all_new": [],
"C34_empty_slice_refuted": [],
"C35_seek": [],
"C35_terminates": [],
"C35_back_to_start_refuted": [],
"C35_to_end_refuted": [],
"C36_stream_bytes": [],
"C36_read_all": [],
"C36_short_chain": [],
"C36_terminates": [],
"C36_terminates_loaded": [],
"C37_mini_stream_bytes": [],
"C37_read_all": [],
"C37_short_mini_chain_refuted": [],
"C38_not_in_format": [],
"C39_exact": [
"Classical_Prop.classic"
],
"C39_terminates": [
"Classical_Prop.classic"
],
"C39_cyclic_difat_refuted": [],
"C40_only_first_sector_refuted": [],
"C40_later_entries_panic_refuted": [],
"C41_list": [],
"C41_listed_is_found": [],
"C41_unlisted_not_found": [],
"C41_at_most_four": [],
"C41_fifth_entry_refuted": [],
"C41_empty_name_refuted": [],
"C42_chunks": [],
"C42_chunking_irrelevant": [],
"C42_new_ready": [],
"C42_reset_ready": [],
"C42_set_password_ready": [],
"C43_involution": [],
"C43_decrypts": [],
"C43_decrypts_password": [],
"C43_rejects": [],
"C44_decrypts": [],
"C44_open": [],
"C44_other_methods": [],
"C45_framing": [],
"C45_truncated": [],
"C45_large_record_refuted": [],
"C46_substreams": [],
"C46_no_bof_refuted": [],
"C47_short": [],
"C47_long": [],
"C47_text": [],
"C47_roundtrip": [],
"C47_overrun_refuted": [],
"C48_shared_strings": [],
"C48_one_byte_refuted": [],
"C49_integer": [
"ClassicalDedekindReals.sig_not_dec",
"ClassicalDedekindReals.sig_forall_dec",
"FunctionalExtensionality.functional_extensionality_dep",
"Classical_Prop.classic"
],
"C49_double": [
"ClassicalDedekindReals.sig_not_dec",
"ClassicalDedekindReals.sig_forall_dec",
"FunctionalExtensionality.functional_extensionality_dep",
"Classical_Prop.classic"
],
"C49_double_100": [
"ClassicalDedekindReals.sig_not_dec",
"ClassicalDedekindReals.sig_forall_dec",
"FunctionalExtensionality.functional_extensionality_dep",
"Classical_Prop.classic"
],
"C49_integer_100_refuted": [
"ClassicalDedekindReals.sig_not_dec",
"ClassicalDedekindReals.sig_forall_dec",
"FunctionalExtensionality.functional_extensionality_dep",
"Classical_Prop.classic"
],
"C54_hyperlinks": [],
"C54_trim_unique": [],
"C54_version": [],
"C50_cells": [
"ClassicalDedekindReals.sig_not_dec",
"ClassicalDedekindReals.sig_forall_dec",
"FunctionalExtensionality.functional_extensionality_dep",
"Classical_Prop.classic"
],
"C52_workbook": [
"ClassicalDedekindReals.sig_not_dec",
"ClassicalDedekindReals.sig_forall_dec",
"FunctionalExtensionality.functional_extensionality_dep",
"Classical_Prop.classic"
],
"C52_partition": [],
"C52_position_refuted": [
"ClassicalDedekindReals.sig_not_dec",
"ClassicalDedekindReals.sig_forall_dec",
"FunctionalExtensionality.functional_extensionality_dep",
"Classical_Prop.classic"
],
"C61_workbook": [
"ClassicalDedekindReals.sig_not_dec",
"ClassicalDedekindReals.sig_forall_dec",
"FunctionalExtensionality.functional_extensionality_dep",
"Classical_Prop.classic"
],
"C53_label": [
"ClassicalDedekindReals.sig_not_dec",
"ClassicalDedekindReals.sig_forall_dec",
"FunctionalExtensionality.functional_extensionality_dep",
"Classical_Prop.classic"
],
"C53_boundary_refuted": [
"ClassicalDedekindReals.sig_not_dec",
"ClassicalDedekindReals.sig_forall_dec",
"FunctionalExtensionality.functional_extensionality_dep",
"Classical_Prop.classic"
],
"C68_text": [],
"C68_latin1_refuted": [],
"C68_surrogate_refuted": [],
"C68_split_refuted": [
"ClassicalDedekindReals.sig_not_dec",
"ClassicalDedekindReals.sig_forall_dec",
"FunctionalExtensionality.functional_extensionality_dep",
"Classical_Prop.classic"
],
"C51_marks": [
"ClassicalDedekindReals.sig_not_dec",
"ClassicalDedekindReals.sig_forall_dec",
"FunctionalExtensionality.functional_extensionality_dep",
"Classical_Prop.classic"
],
"C51_xls": [
"ClassicalDedekindReals.sig_not_dec",
"ClassicalDedekindReals.sig_forall_dec",
"FunctionalExtensionality.functional_extensionality_dep",
"Classical_Prop.classic"
],
"C51_xlsx": [
"ClassicalDedekindReals.sig_not_dec",
"ClassicalDedekindReals.sig_forall_dec",
"FunctionalExtensionality.functional_extensionality_dep",
"Classical_Prop.classic"
],
"C51_xlsx_inside": [
"ClassicalDedekindReals.sig_not_dec",
"ClassicalDedekindReals.sig_forall_dec",
"FunctionalExtensionality.functional_extensionality_dep",
"Classical_Prop.classic"
],
"C55_xls_refuted": [
"ClassicalDedekindReals.sig_not_dec",
"ClassicalDedekindReals.sig_forall_dec",
"FunctionalExtensionality.functional_extensionality_dep",
"Classical_Prop.classic"
],
"C55_xls_rest": [
"ClassicalDedekindReals.sig_not_dec",
"ClassicalDedekindReals.sig_forall_dec",
"FunctionalExtensionality.functional_extensionality_dep",
"Classical_Prop.classic"
],
"C55_xlsx": [
"ClassicalDedekindReals.sig_not_dec",
"ClassicalDedekindReals.sig_forall_dec",
"FunctionalExtensionality.functional_extensionality_dep",
"Classical_Prop.classic"
],
"C32_xls_refuted": [],
"C32_xlsx_refuted": [],
"C57_round_trip": [],
"C57_letters_distinct": [],
"C58_panics": [],
"C58_total": [],
"C58_R1C1_refuted": [],
"C59_shared_strings": [],
"C59_phonetic_refuted": [],
"C59_space_refuted": [],
"C60_styles": [],
"C60_style_number": [],
"C60_large_refuted": [],
"C61_sheet": [
"ClassicalDedekindReals.sig_not_dec",
"ClassicalDedekindReals.sig_forall_dec",
"FunctionalExtensionality.functional_extensionality_dep",
"Classical_Prop.classic"
],
"C62_last_text": [
"ClassicalDedekindReals.sig_not_dec",
"ClassicalDedekindReals.sig_forall_dec",
"FunctionalExtensionality.functional_extensionality_dep",
"Classical_Prop.classic"
],
"C62_trailing_refuted": [
"ClassicalDedekindReals.sig_not_dec",
"ClassicalDedekindReals.sig_forall_dec",
"FunctionalExtensionality.functional_extensionality_dep",
"Classical_Prop.classic"
],
"C62_shared_refuted": [
"ClassicalDedekindReals.sig_not_dec",
"ClassicalDedekindReals.sig_forall_dec",
"FunctionalExtensionality.functional_extensionality_dep",
"Classical_Prop.classic"
],
"C63_link": [
"ClassicalDedekindReals.sig_not_dec",
"ClassicalDedekindReals.sig_forall_dec",
"FunctionalExtensionality.functional_extensionality_dep",
"Classical_Prop.classic"
],
"C63_text_lost_refuted": [
"ClassicalDedekindReals.sig_not_dec",
"ClassicalDedekindReals.sig_forall_dec",
"FunctionalExtensionality.functional_extensionality_dep",
"Classical_Prop.classic"
],
"C63_unknown_refuted": [
"ClassicalDedekindReals.sig_not_dec",
"ClassicalDedekindReals.sig_forall_dec",
"FunctionalExtensionality.functional_extensionality_dep",
"Classical_Prop.classic"
],
"C63_range_refuted": [
"ClassicalDedekindReals.sig_not_dec",
"ClassicalDedekindReals.sig_forall_dec",
"FunctionalExtensionality.functional_extensionality_dep",
"Classical_Prop.classic"
],
"C64_history": [
"ClassicalDedekindReals.sig_not_dec",
"ClassicalDedekindReals.sig_forall_dec",
"FunctionalExtensionality.functional_extensionality_dep",
"Classical_Prop.classic"
],
"C64_missing": [
"ClassicalDedekindReals.sig_not_dec",
"ClassicalDedekindReals.sig_forall_dec",
"FunctionalExtensionality.functional_extensionality_dep",
"Classical_Prop.classic"
],
"C64_exhausted_refuted": [
"ClassicalDedekindReals.sig_not_dec",
"ClassicalDedekindReals.sig_forall_dec",
"FunctionalExtensionality.functional_extensionality_dep",
"Classical_Prop.classic"
],
"C64_opened_fresh": [],
"C69_shared_index_refuted": [
"ClassicalDedekindReals.sig_not_dec",
"ClassicalDedekindReals.sig_forall_dec",
"FunctionalExtensionality.functional_extensionality_dep",
"Classical_Prop.classic"
],
"C69_bool_refuted": [
"ClassicalDedekindReals.sig_not_dec",
"ClassicalDedekindReals.sig_forall_dec",
"FunctionalExtensionality.functional_extensionality_dep",
"Classical_Prop.classic"
],
"C69_style_index_refuted": [
"ClassicalDedekindReals.sig_not_dec",
"ClassicalDedekindReals.sig_forall_dec",
"FunctionalExtensionality.functional_extensionality_dep",
"Classical_Prop.classic"
],
"C69_styles_refuted": [],
"C70_absolute_refuted": [],
"C71_merges_refuted": [
"ClassicalDedekindReals.sig_not_dec",
"ClassicalDedekindReals.sig_forall_dec",
"FunctionalExtensionality.functional_extensionality_dep",
"Classical_Prop.classic"
],
"C71_width_refuted": [
"ClassicalDedekindReals.sig_not_dec",
"ClassicalDedekindReals.sig_forall_dec",
"FunctionalExtensionality.functional_extensionality_dep",
"Classical_Prop.classic"
],
"C56_exclusive": [],
"C56_read": [],
"C56_outcome": [],
"C56_frame": [],
"C65_exit": [],
"C65_no_deadlock": [],
"C65_terminates": [],
"C65_exits": [],
"C65_no_workers_refuted": [],
"C66_cell": [],
"C66_blank": [],
"C66_rows": [],
"C66_lines": [],
"C66_reopen": [
"ClassicalDedekindReals.sig_not_dec",
"ClassicalDedekindReals.sig_forall_dec",
"FunctionalExtensionality.functional_extensionality_dep",
"Classical_Prop.classic"
],
"C66_files": [],
"C72_grater": [],
"C72_ambiguous_refuted": [],
"C66_collision_refuted": [],
"C66_columns_refuted": [],
"C66_no_trim_refuted": [],
"C74_xls_file": [
"ClassicalDedekindReals.sig_not_dec",
"ClassicalDedekindReals.sig_forall_dec",
"FunctionalExtensionality.functional_extensionality_dep",
"Classical_Prop.classic"
],
"C74_xlsx_file": [
"ClassicalDedekindReals.sig_not_dec",
"ClassicalDedekindReals.sig_forall_dec",
"FunctionalExtensionality.functional_extensionality_dep",
"Classical_Prop.classic"
],
"C75_missing": [
"ClassicalDedekindReals.sig_not_dec",
"ClassicalDedekindReals.sig_forall_dec",
"FunctionalExtensionality.functional_extensionality_dep",
"Classical_Prop.classic"
],
"C75_zip": [
"ClassicalDedekindReals.sig_not_dec",
"ClassicalDedekindReals.sig_forall_dec",
"FunctionalExtensionality.functional_extensionality_dep",
"Classical_Prop.classic"
],
"C75_text": [
"ClassicalDedekindReals.sig_not_dec",
"ClassicalDedekindReals.sig_forall_dec",
"FunctionalExtensionality.functional_extensionality_dep",
"Classical_Prop.classic"
],
"C75_tsv_file": [
"ClassicalDedekindReals.sig_not_dec",
"ClassicalDedekindReals.sig_forall_dec",
"FunctionalExtensionality.functional_extensionality_dep",
"Classical_Prop.classic"
],
"C75_name_irrelevant": [
"ClassicalDedekindReals.sig_not_dec",
"ClassicalDedekindReals.sig_forall_dec",
"FunctionalExtensionality.functional_extensionality_dep",
"Classical_Prop.classic"
],
"C76_handle_left_refuted": [
"ClassicalDedekindReals.sig_not_dec",
"ClassicalDedekindReals.sig_forall_dec",
"FunctionalExtensionality.functional_extensionality_dep",
"Classical_Prop.classic"
],
"C76_xlsx_close": [],
"C76_text": [
"ClassicalDedekindReals.sig_not_dec",
"ClassicalDedekindReals.sig_forall_dec",
"FunctionalExtensionality.functional_extensionality_dep",
"Classical_Prop.classic"
],
"C76_xlsx_failure_refuted": [],
"C77_word_document_refuted": [
"ClassicalDedekindReals.sig_not_dec",
"ClassicalDedekindReals.sig_forall_dec",
"FunctionalExtensionality.functional_extensionality_dep",
"Classical_Prop.classic"
],
"C77_other_archives": [],
"C78_views": [
"ClassicalDedekindReals.sig_not_dec",
"ClassicalDedekindReals.sig_forall_dec",
"FunctionalExtensionality.functional_extensionality_dep",
"Classical_Prop.classic"
],
"C79_dates": [
"ClassicalDedekindReals.sig_not_dec",
"ClassicalDedekindReals.sig_forall_dec",
"FunctionalExtensionality.functional_extensionality_dep",
"Classical_Prop.classic"
],
"C79_hours_refuted": [
"ClassicalDedekindReals.sig_not_dec",
"ClassicalDedekindReals.sig_forall_dec",
"FunctionalExtensionality.functional_extensionality_dep",
"Classical_Prop.classic"
],
"C79_quotes_refuted": [
"ClassicalDedekindReals.sig_not_dec",
"ClassicalDedekindReals.sig_forall_dec",
"FunctionalExtensionality.functional_extensionality_dep",
"Classical_Prop.classic"
],
"C79_month_refuted": [
"ClassicalDedekindReals.sig_not_dec",
"ClassicalDedekindReals.sig_forall_dec",
"FunctionalExtensionality.functional_extensionality_dep",
"Classical_Prop.classic"
],
"C79_elapsed_refuted": [
"ClassicalDedekindReals.sig_not_dec",
"ClassicalDedekindReals.sig_forall_dec",
"FunctionalExtensionality.functional_extensionality_dep",
"Classical_Prop.classic"
],
"C79_time_words_refuted": [
"ClassicalDedekindReals.sig_not_dec",
"ClassicalDedekindReals.sig_forall_dec",
"FunctionalExtensionality.functional_extensionality_dep",
"Classical_Prop.classic"
],
"C79_noon_words_refuted": [
"ClassicalDedekindReals.sig_not_dec",
"ClassicalDedekindReals.sig_forall_dec",
"FunctionalExtensionality.functional_extensionality_dep",
"Classical_Prop.classic"
],
"C79_tenths_refuted": [
"ClassicalDedekindReals.sig_not_dec",
"ClassicalDedekindReals.sig_forall_dec",
"FunctionalExtensionality.functional_extensionality_dep",
"Classical_Prop.classic"
],
"C79_buddhist_refuted": [
"ClassicalDedekindReals.sig_not_dec",
"ClassicalDedekindReals.sig_forall_dec",
"FunctionalExtensionality.functional_extensionality_dep",
"Classical_Prop.classic"
],
"C80_integers": [
"ClassicalDedekindReals.sig_not_dec",
"ClassicalDedekindReals.sig_forall_dec",
"FunctionalExtensionality.functional_extensionality_dep",
"Classical_Prop.classic"
],
"C80_floats": [
"ClassicalDedekindReals.sig_not_dec",
"ClassicalDedekindReals.sig_forall_dec",
"FunctionalExtensionality.functional_extensionality_dep",
"Classical_Prop.classic"
],
"C80_zero": [
"ClassicalDedekindReals.sig_not_dec",
"ClassicalDedekindReals.sig_forall_dec",
"FunctionalExtensionality.functional_extensionality_dep",
"Classical_Prop.classic"
],
"C80_negative_refuted": [
"ClassicalDedekindReals.sig_not_dec",
"ClassicalDedekindReals.sig_forall_dec",
"FunctionalExtensionality.functional_extensionality_dep",
"Classical_Prop.classic"
],
"C81_scientific": [
"ClassicalDedekindReals.sig_not_dec",
"ClassicalDedekindReals.sig_forall_dec",
"FunctionalExtensionality.functional_extensionality_dep",
"Classical_Prop.classic"
],
"C81_engineering_refuted": [
"ClassicalDedekindReals.sig_not_dec",
"ClassicalDedekindReals.sig_forall_dec",
"FunctionalExtensionality.functional_extensionality_dep",
"Classical_Prop.classic"
],
"C82_integers": [
"ClassicalDedekindReals.sig_not_dec",
"ClassicalDedekindReals.sig_forall_dec",
"FunctionalExtensionality.functional_extensionality_dep",
"Classical_Prop.classic"
],
"C82_decimals": [
"ClassicalDedekindReals.sig_not_dec",
"ClassicalDedekindReals.sig_forall_dec",
"FunctionalExtensionality.functional_extensionality_dep",
"Classical_Prop.classic"
],
"C82_percent": [
"ClassicalDedekindReals.sig_not_dec",
"ClassicalDedekindReals.sig_forall_dec",
"FunctionalExtensionality.functional_extensionality_dep",
"Classical_Prop.classic"
],
"C82_scientific": [
"ClassicalDedekindReals.sig_not_dec",
"ClassicalDedekindReals.sig_forall_dec",
"FunctionalExtensionality.functional_extensionality_dep",
"Classical_Prop.classic"
],
"C82_text": [
"ClassicalDedekindReals.sig_not_dec",
"ClassicalDedekindReals.sig_forall_dec",
"FunctionalExtensionality.functional_extensionality_dep",
"Classical_Prop.classic"
],
"C82_static": [
"ClassicalDedekindReals.sig_not_dec",
"ClassicalDedekindReals.sig_forall_dec",
"FunctionalExtensionality.functional_extensionality_dep",
"Classical_Prop.classic"
],
"C82_rounding_refuted": [
"ClassicalDedekindReals.sig_not_dec",
"ClassicalDedekindReals.sig_forall_dec",
"FunctionalExtensionality.functional_extensionality_dep",
"Classical_Prop.classic"
],
"C82_zero_padding_refuted": [
"ClassicalDedekindReals.sig_not_dec",
"ClassicalDedekindReals.sig_forall_dec",
"FunctionalExtensionality.functional_extensionality_dep",
"Classical_Prop.classic"
],
"C82_literal_refuted": [
"ClassicalDedekindReals.sig_not_dec",
"ClassicalDedekindReals.sig_forall_dec",
"FunctionalExtensionality.functional_extensionality_dep",
"Classical_Prop.classic"
],
"C82_negative_section_refuted": [
"ClassicalDedekindReals.sig_not_dec",
"ClassicalDedekindReals.sig_forall_dec",
"FunctionalExtensionality.functional_extensionality_dep",
"Classical_Prop.classic"
],
"C83_layout": [
"ClassicalDedekindReals.sig_not_dec",
"ClassicalDedekindReals.sig_forall_dec",
"FunctionalExtensionality.functional_extensionality_dep",
"Classical_Prop.classic"
],
"C83_hours_refuted": [
"ClassicalDedekindReals.sig_not_dec",
"ClassicalDedekindReals.sig_forall_dec",
"FunctionalExtensionality.functional_extensionality_dep",
"Classical_Prop.classic"
],
"C83_ampm_refuted": [
"ClassicalDedekindReals.sig_not_dec",
"ClassicalDedekindReals.sig_forall_dec",
"FunctionalExtensionality.functional_extensionality_dep",
"Classical_Prop.classic"
],
"C83_minutes_refuted": [
"ClassicalDedekindReals.sig_not_dec",
"ClassicalDedekindReals.sig_forall_dec",
"FunctionalExtensionality.functional_extensionality_dep",
"Classical_Prop.classic"
],
"C83_weekday_refuted": [
"ClassicalDedekindReals.sig_not_dec",
"ClassicalDedekindReals.sig_forall_dec",
"FunctionalExtensionality.functional_extensionality_dep",
"Classical_Prop.classic"
],
"C84_exact": [
"ClassicalDedekindReals.sig_not_dec",
"ClassicalDedekindReals.sig_forall_dec",
"FunctionalExtensionality.functional_extensionality_dep",
"Classical_Prop.classic"
],
"C84_open_ends": [
"ClassicalDedekindReals.sig_not_dec",
"ClassicalDedekindReals.sig_forall_dec",
"FunctionalExtensionality.functional_extensionality_dep",
"Classical_Prop.classic"
],
"C84_endless_refuted": [
"ClassicalDedekindReals.sig_not_dec",
"ClassicalDedekindReals.sig_forall_dec",
"FunctionalExtensionality.functional_extensionality_dep",
"Classical_Prop.classic"
],
"C84_workbook_ends": [],
"C84_get_ends": [
"ClassicalDedekindReals.sig_not_dec",
"ClassicalDedekindReals.sig_forall_dec",
"FunctionalExtensionality.functional_extensionality_dep",
"Classical_Prop.classic"
],
"C85_get": [
"ClassicalDedekindReals.sig_not_dec",
"ClassicalDedekindReals.sig_forall_dec",
"FunctionalExtensionality.functional_extensionality_dep",
"Classical_Prop.classic"
],
"C85_load": [],
"C85_split": [],
"C85_short_refuted": [
"ClassicalDedekindReals.sig_not_dec",
"ClassicalDedekindReals.sig_forall_dec",
"FunctionalExtensionality.functional_extensionality_dep",
"Classical_Prop.classic"
],
"C85_text_refuted": [
"ClassicalDedekindReals.sig_not_dec",
"ClassicalDedekindReals.sig_forall_dec",
"FunctionalExtensionality.functional_extensionality_dep",
"Classical_Prop.classic"
],
"C85_split_refuted": [],
"C86_dimensions_refuted": [
"ClassicalDedekindReals.sig_not_dec",
"ClassicalDedekindReals.sig_forall_dec",
"FunctionalExtensionality.functional_extensionality_dep",
"Classical_Prop.classic"
],
"C86_dimension_xlsx_refuted": [
"ClassicalDedekindReals.sig_not_dec",
"ClassicalDedekindReals.sig_forall_dec",
"FunctionalExtensionality.functional_extensionality_dep",
"Classical_Prop.classic"
],
"C87_exact": [
"ClassicalDedekindReals.sig_not_dec",
"ClassicalDedekindReals.sig_forall_dec",
"FunctionalExtensionality.functional_extensionality_dep",
"Classical_Prop.classic"
],
"C87_styles": [],
"C87_open": [],
"C87_get": [
"ClassicalDedekindReals.sig_not_dec",
"ClassicalDedekindReals.sig_forall_dec",
"FunctionalExtensionality.functional_extensionality_dep",
"Classical_Prop.classic"
],
"C87_late_dimension_refuted": [
"ClassicalDedekindReals.sig_not_dec",
"ClassicalDedekindReals.sig_forall_dec",
"FunctionalExtensionality.functional_extensionality_dep",
"Classical_Prop.classic"
],
"C88_workbook": [
"ClassicalDedekindReals.sig_not_dec",
"ClassicalDedekindReals.sig_forall_dec",
"FunctionalExtensionality.functional_extensionality_dep",
"Classical_Prop.classic"
],
"C88_file": [
"ClassicalDedekindReals.sig_not_dec",
"ClassicalDedekindReals.sig_forall_dec",
"FunctionalExtensionality.functional_extensionality_dep",
"Classical_Prop.classic"
],
"C89_inline": [
"ClassicalDedekindReals.sig_not_dec",
"ClassicalDedekindReals.sig_forall_dec",
"FunctionalExtensionality.functional_extensionality_dep",
"Classical_Prop.classic"
],
"C89_inline_piece": [
"ClassicalDedekindReals.sig_not_dec",
"ClassicalDedekindReals.sig_forall_dec",
"FunctionalExtensionality.functional_extensionality_dep",
"Classical_Prop.classic"
],
"C89_runs_refuted": [
"ClassicalDedekindReals.sig_not_dec",
"ClassicalDedekindReals.sig_forall_dec",
"FunctionalExtensionality.functional_extensionality_dep",
"Classical_Prop.classic"
],
"C89_hint_refuted": [
"ClassicalDedekindReals.sig_not_dec",
"ClassicalDedekindReals.sig_forall_dec",
"FunctionalExtensionality.functional_extensionality_dep",
"Classical_Prop.classic"
],
"C89_formula_refuted": [
"ClassicalDedekindReals.sig_not_dec",
"ClassicalDedekindReals.sig_forall_dec",
"FunctionalExtensionality.functional_extensionality_dep",
"Classical_Prop.classic"
],
"C89_reference_refuted": [
"ClassicalDedekindReals.sig_not_dec",
"ClassicalDedekindReals.sig_forall_dec",
"FunctionalExtensionality.functional_extensionality_dep",
"Classical_Prop.classic"
],
"C89_strict_refuted": [],
"C89_chart_refuted": [
"ClassicalDedekindReals.sig_not_dec",
"ClassicalDedekindReals.sig_forall_dec",
"FunctionalExtensionality.functional_extensionality_dep",
"Classical_Prop.classic"
],
"C90_commands": [
"ClassicalDedekindReals.sig_not_dec",
"ClassicalDedekindReals.sig_forall_dec",
"FunctionalExtensionality.functional_extensionality_dep",
"Classical_Prop.classic"
],
"C90_printed": [
"ClassicalDedekindReals.sig_not_dec",
"ClassicalDedekindReals.sig_forall_dec",
"FunctionalExtensionality.functional_extensionality_dep",
"Classical_Prop.classic"
],
"C90_independent": [
"ClassicalDedekindReals.sig_not_dec",
"ClassicalDedekindReals.sig_forall_dec",
"FunctionalExtensionality.functional_extensionality_dep",
"Classical_Prop.classic"
],
"C90_xls_file": [
"ClassicalDedekindReals.sig_not_dec",
"ClassicalDedekindReals.sig_forall_dec",
"FunctionalExtensionality.functional_extensionality_dep",
"Classical_Prop.classic"
],
"C90_encrypted_file": [
"ClassicalDedekindReals.sig_not_dec",
"ClassicalDedekindReals.sig_forall_dec",
"FunctionalExtensionality.functional_extensionality_dep",
"Classical_Prop.classic"
],
"C90_xlsx_file": [
"ClassicalDedekindReals.sig_not_dec",
"ClassicalDedekindReals.sig_forall_dec",
"FunctionalExtensionality.functional_extensionality_dep",
"Classical_Prop.classic"
],
"C90_tsv_file": [
"ClassicalDedekindReals.sig_not_dec",
"ClassicalDedekindReals.sig_forall_dec",
"FunctionalExtensionality.functional_extensionality_dep",
"Classical_Prop.classic"
],
"C90_blank_row_refuted": [
"ClassicalDedekindReals.sig_not_dec",
"ClassicalDedekindReals.sig_forall_dec",
"FunctionalExtensionality.functional_extensionality_dep",
"Classical_Prop.classic"
],
"C90_one_cell_refuted": [
"ClassicalDedekindReals.sig_not_dec",
"ClassicalDedekindReals.sig_forall_dec",
"FunctionalExtensionality.functional_extensionality_dep",
"Classical_Prop.classic"
],
"C90_nil_refuted": [
"ClassicalDedekindReals.sig_not_dec",
"ClassicalDedekindReals.sig_forall_dec",
"FunctionalExtensionality.functional_extensionality_dep",
"Classical_Prop.classic"
],
"C91_label_refuted": [
"ClassicalDedekindReals.sig_not_dec",
"ClassicalDedekindReals.sig_forall_dec",
"FunctionalExtensionality.functional_extensionality_dep",
"Classical_Prop.classic"
],
"C91_label_allowed": [],
"C91_link_refuted": [
"ClassicalDedekindReals.sig_not_dec",
"ClassicalDedekindReals.sig_forall_dec",
"FunctionalExtensionality.functional_extensionality_dep",
"Classical_Prop.classic"
],
"C91_dialog_refuted": [
"ClassicalDedekindReals.sig_not_dec",
"ClassicalDedekindReals.sig_forall_dec",
"FunctionalExtensionality.functional_extensionality_dep",
"Classical_Prop.classic"
],
"C91_sync_refuted": [
"ClassicalDedekindReals.sig_not_dec",
"ClassicalDedekindReals.sig_forall_dec",
"FunctionalExtensionality.functional_extensionality_dep",
"Classical_Prop.classic"
],
"C91_sync_panics_refuted": [
"ClassicalDedekindReals.sig_not_dec",
"ClassicalDedekindReals.sig_forall_dec",
"FunctionalExtensionality.functional_extensionality_dep",
"Classical_Prop.classic"
],
"C91_nested_refuted": [
"ClassicalDedekindReals.sig_not_dec",
"ClassicalDedekindReals.sig_forall_dec",
"FunctionalExtensionality.functional_extensionality_dep",
"Classical_Prop.classic"
],
"C91_chart_refuted": [
"ClassicalDedekindReals.sig_not_dec",
"ClassicalDedekindReals.sig_forall_dec",
"FunctionalExtensionality.functional_extensionality_dep",
"Classical_Prop.classic"
],
"C92_brackets": [],
"C92_accounting": [
"ClassicalDedekindReals.sig_not_dec",
"ClassicalDedekindReals.sig_forall_dec",
"FunctionalExtensionality.functional_extensionality_dep",
"Classical_Prop.classic"
],
"C92_currency_refuted": [
"ClassicalDedekindReals.sig_not_dec",
"ClassicalDedekindReals.sig_forall_dec",
"FunctionalExtensionality.functional_extensionality_dep",
"Classical_Prop.classic"
],
"C92_condition_refuted": [
"ClassicalDedekindReals.sig_not_dec",
"ClassicalDedekindReals.sig_forall_dec",
"FunctionalExtensionality.functional_extensionality_dep",
"Classical_Prop.classic"
],
"C92_general_refuted": [
"ClassicalDedekindReals.sig_not_dec",
"ClassicalDedekindReals.sig_forall_dec",
"FunctionalExtensionality.functional_extensionality_dep",
"Classical_Prop.classic"
],
"C92_date_section_refuted": [
"ClassicalDedekindReals.sig_not_dec",
"ClassicalDedekindReals.sig_forall_dec",
"FunctionalExtensionality.functional_extensionality_dep",
"Classical_Prop.classic"
],
"C92_elapsed_refuted": [
"ClassicalDedekindReals.sig_not_dec",
"ClassicalDedekindReals.sig_forall_dec",
"FunctionalExtensionality.functional_extensionality_dep",
"Classical_Prop.classic"
],
"C92_optional_refuted": [
"ClassicalDedekindReals.sig_not_dec",
"ClassicalDedekindReals.sig_forall_dec",
"FunctionalExtensionality.functional_extensionality_dep",
"Classical_Prop.classic"
],
"C92_scaling_refuted": [
"ClassicalDedekindReals.sig_not_dec",
"ClassicalDedekindReals.sig_forall_dec",
"FunctionalExtensionality.functional_extensionality_dep",
"Classical_Prop.classic"
],
"C92_fraction_refuted": [
"ClassicalDedekindReals.sig_not_dec",
"ClassicalDedekindReals.sig_forall_dec",
"FunctionalExtensionality.functional_extensionality_dep",
"Classical_Prop.classic"
],
"C92_picture_refuted": [
"ClassicalDedekindReals.sig_not_dec",
"ClassicalDedekindReals.sig_forall_dec",
"FunctionalExtensionality.functional_extensionality_dep",
"Classical_Prop.classic"
],
"C92_accounting_refuted": [
"ClassicalDedekindReals.sig_not_dec",
"ClassicalDedekindReals.sig_forall_dec",
"FunctionalExtensionality.functional_extensionality_dep",
"Classical_Prop.classic"
],
"C93_results": [],
"C93_files": [],
"C93_exit": [],
"C93_reported_unwritten_refuted": [],
"C93_collision_refuted": [],
"C93_write_errors_refuted": [],
"C94_survives": [],
"C94_terminates": [],
"C94_dies": [],
"C94_reported_empty_refuted": [],
"C94_lost_refuted": [],
"C95_values": [],
"C95_frame": [],
"C95_raw": [],
"C95_strings_fresh": [],
"C95_strings_once": [],
"C95_assignment_refuted": [],
"C95_capacity_refuted": [],
"C95_strings_shared_refuted": [],
"C96_tables": [],
"C96_unambiguous": [],
"C96_otherwise": [],
"C96_workbook": [],
"C96_count_refuted": [],
"C96_cut_refuted": [],
"C97_links": [],
"C97_valid": [],
"C97_overrun_refuted": [],
"C97_frame_refuted": [],
"C97_memory_refuted": [],
"C98_text": [
"ClassicalDedekindReals.sig_not_dec",
"ClassicalDedekindReals.sig_forall_dec",
"FunctionalExtensionality.functional_extensionality_dep",
"Classical_Prop.classic"
],
"C98_header": [
"ClassicalDedekindReals.sig_not_dec",
"ClassicalDedekindReals.sig_forall_dec",
"FunctionalExtensionality.functional_extensionality_dep",
"Classical_Prop.classic"
],
"C98_foreign_refuted": [
"ClassicalDedekindReals.sig_not_dec",
"ClassicalDedekindReals.sig_forall_dec",
"FunctionalExtensionality.functional_extensionality_dep",
"Classical_Prop.classic"
],
"C98_short_refuted": [
"ClassicalDedekindReals.sig_not_dec",
"ClassicalDedekindReals.sig_forall_dec",
"FunctionalExtensionality.functional_extensionality_dep",
"Classical_Prop.classic"
],
"C98_cut_refuted": [
"ClassicalDedekindReals.sig_not_dec",
"ClassicalDedekindReals.sig_forall_dec",
"FunctionalExtensionality.functional_extensionality_dep",
"Classical_Prop.classic"
],
"C99_distinct": [
"ClassicalDedekindReals.sig_not_dec",
"ClassicalDedekindReals.sig_forall_dec",
"FunctionalExtensionality.functional_extensionality_dep",
"Classical_Prop.classic"
],
"C99_sequence": [
"ClassicalDedekindReals.sig_not_dec",
"ClassicalDedekindReals.sig_forall_dec",
"FunctionalExtensionality.functional_extensionality_dep",
"Classical_Prop.classic"
],
"C99_commands": [
"ClassicalDedekindReals.sig_not_dec",
"ClassicalDedekindReals.sig_forall_dec",
"FunctionalExtensionality.functional_extensionality_dep",
"Classical_Prop.classic"
],
"C99_twice_refuted": [
"ClassicalDedekindReals.sig_not_dec",
"ClassicalDedekindReals.sig_forall_dec",
"FunctionalExtensionality.functional_extensionality_dep",
"Classical_Prop.classic"
],
"C100_normal": [],
"C100_rectangles": [
"ClassicalDedekindReals.sig_not_dec",
"ClassicalDedekindReals.sig_forall_dec",
"FunctionalExtensionality.functional_extensionality_dep",
"Classical_Prop.classic"
],
"C100_again": [
"ClassicalDedekindReals.sig_not_dec",
"ClassicalDedekindReals.sig_forall_dec",
"FunctionalExtensionality.functional_extensionality_dep",
"Classical_Prop.classic"
],
"C100_tables": [
"ClassicalDedekindReals.sig_not_dec",
"ClassicalDedekindReals.sig_forall_dec",
"FunctionalExtensionality.functional_extensionality_dep",
"Classical_Prop.classic"
],
"C100_long_refuted": [
"ClassicalDedekindReals.sig_not_dec",
"ClassicalDedekindReals.sig_forall_dec",
"FunctionalExtensionality.functional_extensionality_dep",
"Classical_Prop.classic"
],
"C101_cut": [
"ClassicalDedekindReals.sig_not_dec",
"ClassicalDedekindReals.sig_forall_dec",
"FunctionalExtensionality.functional_extensionality_dep",
"Classical_Prop.classic"
],
"C101_behind": [
"ClassicalDedekindReals.sig_not_dec",
"ClassicalDedekindReals.sig_forall_dec",
"FunctionalExtensionality.functional_extensionality_dep",
"Classical_Prop.classic"
],
"C101_appended": [
"ClassicalDedekindReals.sig_not_dec",
"ClassicalDedekindReals.sig_forall_dec",
"FunctionalExtensionality.functional_extensionality_dep",
"Classical_Prop.classic"
],
"C101_panic_refuted": [
"ClassicalDedekindReals.sig_not_dec",
"ClassicalDedekindReals.sig_forall_dec",
"FunctionalExtensionality.functional_extensionality_dep",
"Classical_Prop.classic"
],
"C101_memory_refuted": [
"ClassicalDedekindReals.sig_not_dec",
"ClassicalDedekindReals.sig_forall_dec",
"FunctionalExtensionality.functional_extensionality_dep",
"Classical_Prop.classic"
],
"C102_refines": [],
"C102_own": [],
"C102_once": [],
"C102_exit": [],
"C102_terminates": [],
"C102_exits": [],
"C103_file": [],
"C103_run": [],
"C103_open": [
"ClassicalDedekindReals.sig_not_dec",
"ClassicalDedekindReals.sig_forall_dec",
"FunctionalExtensionality.functional_extensionality_dep",
"Classical_Prop.classic"
],
"C103_tells": [],
"C103_forged_refuted": [],
"C103_glued_refuted": [],
"C33_limits": [
"ClassicalDedekindReals.sig_not_dec",
"ClassicalDedekindReals.sig_forall_dec",
"FunctionalExtensionality.functional_extensionality_dep",
"Classical_Prop.classic"
],
"C33_near": [
"ClassicalDedekindReals.sig_not_dec",
"ClassicalDedekindReals.sig_forall_dec",
"FunctionalExtensionality.functional_extensionality_dep",
"Classical_Prop.classic"
],
"C104_sheet": [
"ClassicalDedekindReals.sig_not_dec",
"ClassicalDedekindReals.sig_forall_dec",
"FunctionalExtensionality.functional_extensionality_dep",
"Classical_Prop.classic"
],
"C104_origin": [
"ClassicalDedekindReals.sig_not_dec",
"ClassicalDedekindReals.sig_forall_dec",
"FunctionalExtensionality.functional_extensionality_dep",
"Classical_Prop.classic"
],
"C104_stream": [],
"C104_globals": [],
"C104_file": [
"ClassicalDedekindReals.sig_not_dec",
"ClassicalDedekindReals.sig_forall_dec",
"FunctionalExtensionality.functional_extensionality_dep",
"Classical_Prop.classic"
],
"C104_overrun_refuted": [],
"C105_sheet": [
"ClassicalDedekindReals.sig_not_dec",
"ClassicalDedekindReals.sig_forall_dec",
"FunctionalExtensionality.functional_extensionality_dep",
"Classical_Prop.classic"
],
"C105_open": [],
"C105_origin": [
"ClassicalDedekindReals.sig_not_dec",
"ClassicalDedekindReals.sig_forall_dec",
"FunctionalExtensionality.functional_extensionality_dep",
"Classical_Prop.classic"
],
"C105_get": [
"ClassicalDedekindReals.sig_not_dec",
"ClassicalDedekindReals.sig_forall_dec",
"FunctionalExtensionality.functional_extensionality_dep",
"Classical_Prop.classic"
],
"C106_stream": [],
"C106_one_content": [],
"C106_exact": [],
"C106_open": [
"ClassicalDedekindReals.sig_not_dec",
"ClassicalDedekindReals.sig_forall_dec",
"FunctionalExtensionality.functional_extensionality_dep",
"Classical_Prop.classic"
],
"C106_exact_open": [
"ClassicalDedekindReals.sig_not_dec",
"ClassicalDedekindReals.sig_forall_dec",
"FunctionalExtensionality.functional_extensionality_dep",
"Classical_Prop.classic"
],
"C106_sheet": [
"ClassicalDedekindReals.sig_not_dec",
"ClassicalDedekindReals.sig_forall_dec",
"FunctionalExtensionality.functional_extensionality_dep",
"Classical_Prop.classic"
],
"C107_package": [],
"C107_no_package": [],
"C107_lost": [],
"C107_left": [],
"C107_opened_xlsx": [
"ClassicalDedekindReals.sig_not_dec",
"ClassicalDedekindReals.sig_forall_dec",
"FunctionalExtensionality.functional_extensionality_dep",
"Classical_Prop.classic"
],
"C107_opened_text": [
"ClassicalDedekindReals.sig_not_dec",
"ClassicalDedekindReals.sig_forall_dec",
"FunctionalExtensionality.functional_extensionality_dep",
"Classical_Prop.classic"
],
"C108_deciphers": [],
"C108_loads": [],
"C108_opened_xls": [
"ClassicalDedekindReals.sig_not_dec",
"ClassicalDedekindReals.sig_forall_dec",
"FunctionalExtensionality.functional_extensionality_dep",
"Classical_Prop.classic"
],
"C109_scan_int": [
"ClassicalDedekindReals.sig_not_dec",
"ClassicalDedekindReals.sig_forall_dec",
"FunctionalExtensionality.functional_extensionality_dep",
"Classical_Prop.classic"
],
"C109_scan_float": [
"ClassicalDedekindReals.sig_not_dec",
"ClassicalDedekindReals.sig_forall_dec",
"FunctionalExtensionality.functional_extensionality_dep",
"Classical_Prop.classic"
],
"C109_scan": [
"ClassicalDedekindReals.sig_not_dec",
"ClassicalDedekindReals.sig_forall_dec",
"FunctionalExtensionality.functional_extensionality_dep",
"Classical_Prop.classic"
],
"C109_xlsx_number": [
"ClassicalDedekindReals.sig_not_dec",
"ClassicalDedekindReals.sig_forall_dec",
"FunctionalExtensionality.functional_extensionality_dep",
"Classical_Prop.classic"
],
"C109_number_format": [
"ClassicalDedekindReals.sig_not_dec",
"ClassicalDedekindReals.sig_forall_dec",
"FunctionalExtensionality.functional_extensionality_dep",
"Classical_Prop.classic"
],
"C109_less": [
"ClassicalDedekindReals.sig_not_dec",
"ClassicalDedekindReals.sig_forall_dec",
"FunctionalExtensionality.functional_extensionality_dep",
"Classical_Prop.classic"
],
"C110_general": [
"ClassicalDedekindReals.sig_not_dec",
"ClassicalDedekindReals.sig_forall_dec",
"FunctionalExtensionality.functional_extensionality_dep",
"Classical_Prop.classic"
],
"C110_general_special": [
"ClassicalDedekindReals.sig_not_dec",
"ClassicalDedekindReals.sig_forall_dec",
"FunctionalExtensionality.functional_extensionality_dep",
"Classical_Prop.classic"
],
"C110_read_back": [
"ClassicalDedekindReals.sig_not_dec",
"ClassicalDedekindReals.sig_forall_dec",
"FunctionalExtensionality.functional_extensionality_dep",
"Classical_Prop.classic"
],
"C110_general_back": [
"ClassicalDedekindReals.sig_not_dec",
"ClassicalDedekindReals.sig_forall_dec",
"FunctionalExtensionality.functional_extensionality_dep",
"Classical_Prop.classic"
],
"C110_sprint": [
"ClassicalDedekindReals.sig_not_dec",
"ClassicalDedekindReals.sig_forall_dec",
"FunctionalExtensionality.functional_extensionality_dep",
"Classical_Prop.classic"
],
"C82_exponent_refuted": [
"ClassicalDedekindReals.sig_not_dec",
"ClassicalDedekindReals.sig_forall_dec",
"FunctionalExtensionality.functional_extensionality_dep",
"Classical_Prop.classic"
],
"C111_xls": [
"ClassicalDedekindReals.sig_not_dec",
"ClassicalDedekindReals.sig_forall_dec",
"FunctionalExtensionality.functional_extensionality_dep",
"Classical_Prop.classic"
],
"C111_xlsx": [
"ClassicalDedekindReals.sig_not_dec",
"ClassicalDedekindReals.sig_forall_dec",
"FunctionalExtensionality.functional_extensionality_dep",
"Classical_Prop.classic"
],
"C111_text": [
"ClassicalDedekindReals.sig_not_dec",
"ClassicalDedekindReals.sig_forall_dec",
"FunctionalExtensionality.functional_extensionality_dep",
"Classical_Prop.classic"
],
"C111_errors": [
"ClassicalDedekindReals.sig_not_dec",
"ClassicalDedekindReals.sig_forall_dec",
"FunctionalExtensionality.functional_extensionality_dep",
"Classical_Prop.classic"
],
"C111_steady": [
"ClassicalDedekindReals.sig_not_dec",
"ClassicalDedekindReals.sig_forall_dec",
"FunctionalExtensionality.functional_extensionality_dep",
"Classical_Prop.classic"
],
"C111_swallowed_refuted": [
"ClassicalDedekindReals.sig_not_dec",
"ClassicalDedekindReals.sig_forall_dec",
"FunctionalExtensionality.functional_extensionality_dep",
"Classical_Prop.classic"
],
"C111_written_refuted": [
"ClassicalDedekindReals.sig_not_dec",
"ClassicalDedekindReals.sig_forall_dec",
"FunctionalExtensionality.functional_extensionality_dep",
"Classical_Prop.classic"
],
"C112_values": [
"ClassicalDedekindReals.sig_not_dec",
"ClassicalDedekindReals.sig_forall_dec",
"FunctionalExtensionality.functional_extensionality_dep",
"Classical_Prop.classic"
],
"C112_exported": [
"ClassicalDedekindReals.sig_not_dec",
"ClassicalDedekindReals.sig_forall_dec",
"FunctionalExtensionality.functional_extensionality_dep",
"Classical_Prop.classic"
],
"C112_third_refuted": [
"ClassicalDedekindReals.sig_not_dec",
"ClassicalDedekindReals.sig_forall_dec",
"FunctionalExtensionality.functional_extensionality_dep",
"Classical_Prop.classic"
],
"C113_shown": [
"ClassicalDedekindReals.sig_not_dec",
"ClassicalDedekindReals.sig_forall_dec",
"FunctionalExtensionality.functional_extensionality_dep",
"Classical_Prop.classic"
],
"C113_separated": [
"ClassicalDedekindReals.sig_not_dec",
"ClassicalDedekindReals.sig_forall_dec",
"FunctionalExtensionality.functional_extensionality_dep",
"Classical_Prop.classic"
],
"C113_custom": [
"ClassicalDedekindReals.sig_not_dec",
"ClassicalDedekindReals.sig_forall_dec",
"FunctionalExtensionality.functional_extensionality_dep",
"Classical_Prop.classic"
],
"C113_read": [
"ClassicalDedekindReals.sig_not_dec",
"ClassicalDedekindReals.sig_forall_dec",
"FunctionalExtensionality.functional_extensionality_dep",
"Classical_Prop.classic"
],
"C113_exported": [
"ClassicalDedekindReals.sig_not_dec",
"ClassicalDedekindReals.sig_forall_dec",
"FunctionalExtensionality.functional_extensionality_dep",
"Classical_Prop.classic"
],
"C113_separators_refuted": [
"ClassicalDedekindReals.sig_not_dec",
"ClassicalDedekindReals.sig_forall_dec",
"FunctionalExtensionality.functional_extensionality_dep",
"Classical_Prop.classic"
],
"C113_refused": [
"ClassicalDedekindReals.sig_not_dec",
"ClassicalDedekindReals.sig_forall_dec",
"FunctionalExtensionality.functional_extensionality_dep",
"Classical_Prop.classic"
],
"C113_whole": [
"ClassicalDedekindReals.sig_not_dec",
"ClassicalDedekindReals.sig_forall_dec",
"FunctionalExtensionality.functional_extensionality_dep",
"Classical_Prop.classic"
],
"C113_whole_exported": [
"ClassicalDedekindReals.sig_not_dec",
"ClassicalDedekindReals.sig_forall_dec",
"FunctionalExtensionality.functional_extensionality_dep",
"Classical_Prop.classic"
],
"C113_xlsx": [
"ClassicalDedekindReals.sig_not_dec",
"ClassicalDedekindReals.sig_forall_dec",
"FunctionalExtensionality.functional_extensionality_dep",
"Classical_Prop.classic"
],
"C113_rk": [
"ClassicalDedekindReals.sig_not_dec",
"ClassicalDedekindReals.sig_forall_dec",
"FunctionalExtensionality.functional_extensionality_dep",
"Classical_Prop.classic"
],
"C114_scan": [
"ClassicalDedekindReals.sig_not_dec",
"ClassicalDedekindReals.sig_forall_dec",
"FunctionalExtensionality.functional_extensionality_dep",
"Classical_Prop.classic"
],
"C114_number": [
"ClassicalDedekindReals.sig_not_dec",
"ClassicalDedekindReals.sig_forall_dec",
"FunctionalExtensionality.functional_extensionality_dep",
"Classical_Prop.classic"
],
"C114_word": [
"ClassicalDedekindReals.sig_not_dec",
"ClassicalDedekindReals.sig_forall_dec",
"FunctionalExtensionality.functional_extensionality_dep",
"Classical_Prop.classic"
],
"C114_xlsx": [
"ClassicalDedekindReals.sig_not_dec",
"ClassicalDedekindReals.sig_forall_dec",
"FunctionalExtensionality.functional_extensionality_dep",
"Classical_Prop.classic"
],
"C114_formats_refuted": [
"ClassicalDedekindReals.sig_not_dec",
"ClassicalDedekindReals.sig_forall_dec",
"FunctionalExtensionality.functional_extensionality_dep",
"Classical_Prop.classic"
],
"C114_all": [
"ClassicalDedekindReals.sig_not_dec",
"ClassicalDedekindReals.sig_forall_dec",
"FunctionalExtensionality.functional_extensionality_dep",
"Classical_Prop.classic"
],
"C114_hex": [
"ClassicalDedekindReals.sig_not_dec",
"ClassicalDedekindReals.sig_forall_dec",
"FunctionalExtensionality.functional_extensionality_dep",
"Classical_Prop.classic"
],
"C114_xlsx_all": [
"ClassicalDedekindReals.sig_not_dec",
"ClassicalDedekindReals.sig_forall_dec",
"FunctionalExtensionality.functional_extensionality_dep",
"Classical_Prop.classic"
],
"C115_shown": [
"ClassicalDedekindReals.sig_not_dec",
"ClassicalDedekindReals.sig_forall_dec",
"FunctionalExtensionality.functional_extensionality_dep",
"Classical_Prop.classic"
],
"C115_custom": [
"ClassicalDedekindReals.sig_not_dec",
"ClassicalDedekindReals.sig_forall_dec",
"FunctionalExtensionality.functional_extensionality_dep",
"Classical_Prop.classic"
],
"C115_not_read_refuted": [
"ClassicalDedekindReals.sig_not_dec",
"ClassicalDedekindReals.sig_forall_dec",
"FunctionalExtensionality.functional_extensionality_dep",
"Classical_Prop.classic"
],
"C115_whole_refuted": [
"ClassicalDedekindReals.sig_not_dec",
"ClassicalDedekindReals.sig_forall_dec",
"FunctionalExtensionality.functional_extensionality_dep",
"Classical_Prop.classic"
],
"C115_whole": [
"ClassicalDedekindReals.sig_not_dec",
"ClassicalDedekindReals.sig_forall_dec",
"FunctionalExtensionality.functional_extensionality_dep",
"Classical_Prop.classic"
],
"C116_shown": [
"ClassicalDedekindReals.sig_not_dec",
"ClassicalDedekindReals.sig_forall_dec",
"FunctionalExtensionality.functional_extensionality_dep",
"Classical_Prop.classic"
],
"C116_custom": [
"ClassicalDedekindReals.sig_not_dec",
"ClassicalDedekindReals.sig_forall_dec",
"FunctionalExtensionality.functional_extensionality_dep",
"Classical_Prop.classic"
],
"C116_read": [
"ClassicalDedekindReals.sig_not_dec",
"ClassicalDedekindReals.sig_forall_dec",
"FunctionalExtensionality.functional_extensionality_dep",
"Classical_Prop.classic"
],
"C116_back": [
"ClassicalDedekindReals.sig_not_dec",
"ClassicalDedekindReals.sig_forall_dec",
"FunctionalExtensionality.functional_extensionality_dep",
"Classical_Prop.classic"
],
"C113_parens": [
"ClassicalDedekindReals.sig_not_dec",
"ClassicalDedekindReals.sig_forall_dec",
"FunctionalExtensionality.functional_extensionality_dep",
"Classical_Prop.classic"
],
"C113_accounting": [
"ClassicalDedekindReals.sig_not_dec",
"ClassicalDedekindReals.sig_forall_dec",
"FunctionalExtensionality.functional_extensionality_dep",
"Classical_Prop.classic"
],
"C109_less_blanks": [
"ClassicalDedekindReals.sig_not_dec",
"ClassicalDedekindReals.sig_forall_dec",
"FunctionalExtensionality.functional_extensionality_dep",
"Classical_Prop.classic"
]
}