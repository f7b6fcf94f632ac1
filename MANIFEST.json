{
 "claims": [
  {
   "property": "C07",
   "status": "proved",
   "theorems": [
    "C07_values",
    "C07_acronyms_survive",
    "C07_own_numbers",
    "C07_acronym_numbers_survive",
    "C07_limit_refuted"
   ],
   "note": "for the numbers 1..17976931, the largest range for which it is true"
  },
  {
   "property": "C10",
   "status": "proved",
   "theorems": [
    "C10_dataset_sort_is_stable"
   ],
   "note": ""
  },
  {
   "property": "C11",
   "status": "proved",
   "theorems": [
    "C11_labels_are_numbered",
    "C11_labels_stay",
    "C11_registering",
    "C11_labels_are_a_dictionary",
    "C11_numbers_are_stable"
   ],
   "note": "every object that writes, or reads a file written with this library"
  },
  {
   "property": "C12",
   "status": "proved",
   "theorems": [
    "C12_renaming",
    "C12_rename_effect"
   ],
   "note": ""
  },
  {
   "property": "C13",
   "status": "proved",
   "theorems": [
    "C13_labels_are_well_formed",
    "C13_bad_labels_are_refused",
    "C13_accepted_exactly",
    "C13_label_check_is_exact"
   ],
   "note": ""
  },
  {
   "property": "C19",
   "status": "proved",
   "theorems": [
    "C19_integer_maps"
   ],
   "note": ""
  },
  {
   "property": "C22",
   "status": "proved",
   "theorems": [
    "C22_compression_is_transparent"
   ],
   "note": ""
  },
  {
   "property": "C23",
   "status": "proved",
   "theorems": [
    "C23_buffering_is_transparent"
   ],
   "note": ""
  },
  {
   "property": "C24",
   "status": "proved",
   "theorems": [
    "C24_values_in_either_order",
    "C24_between_machines",
    "C24_model_of_reading",
    "C24_any_machine",
    "C24_any_machine_calls",
    "C24_closing",
    "C24_opening",
    "C24_opens",
    "C24_metadata",
    "C24_records",
    "C24_append_refuted"
   ],
   "note": "Files read on machines with another byte order than the writer: values, opening, metadata and records. Appending on such a machine destroys the file (C24_append_refuted)"
  },
  {
   "property": "C34",
   "status": "proved",
   "theorems": [
    "C34_texts_are_made_safe",
    "C34_element_texts_are_safe",
    "C34_explanatory_texts_are_safe",
    "C34_starting_stores_the_text",
    "C34_texts_stay"
   ],
   "note": ""
  },
  {
   "property": "C41",
   "status": "proved",
   "theorems": [
    "C41_packed_integers",
    "C41_packed_doubles",
    "C41_packed_specials",
    "C41_packed_acronyms",
    "C41_outside_refuted"
   ],
   "note": ""
  },
  {
   "property": "C42",
   "status": "proved",
   "theorems": [
    "C42_password_is_transparent"
   ],
   "note": ""
  },
  {
   "property": "C43",
   "status": "proved",
   "theorems": [
    "C43_strings"
   ],
   "note": ""
  },
  {
   "property": "C44",
   "status": "proved",
   "theorems": [
    "C44_bit_sets",
    "C44_clear_refuted"
   ],
   "note": "for set operations, which is the property; the unused clearing operation clears the whole byte: C44_clear_refuted"
  },
  {
   "property": "C06",
   "status": "proved",
   "theorems": [
    "C06_special_values_differ",
    "C06_set_special_values",
    "C06_values_are_recognised"
   ],
   "note": "over every history of an object, opening and closing included"
  },
  {
   "property": "C27",
   "status": "partial",
   "theorems": [
    "C27_calls_out_of_order",
    "C27_starting_out_of_order_partial",
    "C27_starting_out_of_order_refuted",
    "C27_reading_while_writing_refuted"
   ],
   "note": "record transfer, registration, domain and filter calls: proved. Starting a symbol or a read out of order is refused but not harmless: refuted"
  },
  {
   "property": "C28",
   "status": "proved",
   "theorems": [
    "C28_first_error_is_kept",
    "C28_fetch",
    "C28_errors_are_counted",
    "C28_count_never_decreases",
    "C28_opening_clears"
   ],
   "note": ""
  },
  {
   "property": "C20",
   "status": "proved",
   "theorems": [
    "C20_closed_files_open",
    "C20_metadata_is_found_again",
    "C20_labels_are_found_again",
    "C20_texts_are_found_again",
    "C20_acronyms_are_found_again"
   ],
   "note": "every write history that ends between two symbols; counters fit in 32 bits, file shorter than 2^63 bytes"
  },
  {
   "property": "C29",
   "status": "proved",
   "theorems": [
    "C29_names_are_unique",
    "C29_names_are_identifiers",
    "C29_names_are_found",
    "C29_symbols_stay",
    "C29_only_named_calls_add",
    "C29_starting_a_symbol"
   ],
   "note": ""
  },
  {
   "property": "C30",
   "status": "proved",
   "theorems": [
    "C30_aliases_refer_back",
    "C30_aliases_resolve",
    "C30_resolution_is_unique",
    "C30_adding_an_alias",
    "C30_reading_an_alias"
   ],
   "note": ""
  },
  {
   "property": "C32",
   "status": "proved",
   "theorems": [
    "C32_setting_a_domain",
    "C32_domains_stay",
    "C32_setting_relaxed",
    "C32_relaxed_stays",
    "C32_domains_after_reopening"
   ],
   "note": "relaxed names that differ in case only share the spelling of the first"
  },
  {
   "property": "C33",
   "status": "proved",
   "theorems": [
    "C33_adding_a_text",
    "C33_texts_stay",
    "C33_equal_texts_share",
    "C33_texts_after_reopening"
   ],
   "note": ""
  },
  {
   "property": "C35",
   "status": "proved",
   "theorems": [
    "C35_comments_are_kept",
    "C35_comments_are_found_again"
   ],
   "note": "comments with up to 255 characters are kept whole, longer ones cut; the symbol is named by its number"
  },
  {
   "property": "C40",
   "status": "proved",
   "theorems": [
    "C40_acronyms_are_unique",
    "C40_adding_an_acronym",
    "C40_acronyms_stay",
    "C40_acronyms_after_reopening",
    "C40_translation",
    "C40_numbers_stay",
    "C40_one_to_one",
    "C40_mixed_numbers_refuted"
   ],
   "note": "one-to-one when the library gives the numbers; numbers the user sets with gdxAcronymSetInfo may collide with them: refuted"
  },
  {
   "property": "C49",
   "status": "partial",
   "theorems": [
    "C49_disjoint_partial",
    "C49_disjoint_refuted"
   ],
   "note": "refuted: gdxAcronymAdd accepts the name of a symbol"
  },
  {
   "property": "C01",
   "status": "proved",
   "theorems": [
    "C01_raw_round_trip",
    "C01_after_opening",
    "C01_after_reading",
    "C01_empty_scalar"
   ],
   "note": "every raw symbol of every write session that ends between two symbols, read after any calls; indices not negative or within the bounds given; a symbol without indices and without records is read as one default record"
  },
  {
   "property": "C03",
   "status": "proved",
   "theorems": [
    "C03_first_change"
   ],
   "note": "raw, string and mapped symbols"
  },
  {
   "property": "C04",
   "status": "proved",
   "theorems": [
    "C04_numbers_survive"
   ],
   "note": "raw, string and mapped symbols"
  },
  {
   "property": "C05",
   "status": "proved",
   "theorems": [
    "C05_special_values_are_translated",
    "C05_machine_values"
   ],
   "note": "raw, string and mapped symbols"
  },
  {
   "property": "C21",
   "status": "proved",
   "theorems": [
    "C21_independent_of_the_rest"
   ],
   "note": "raw, string and mapped symbols"
  },
  {
   "property": "C37",
   "status": "proved",
   "theorems": [
    "C37_fast_ex_agrees",
    "C37_fast_agrees",
    "C37_filt_agrees",
    "C37_callback_reads_end"
   ],
   "note": "agreement for every object that reads any file; termination for files written with this library"
  },
  {
   "property": "C39",
   "status": "proved",
   "theorems": [
    "C39_universe",
    "C39_universe_labels"
   ],
   "note": ""
  },
  {
   "property": "C02",
   "status": "proved",
   "theorems": [
    "C02_accepted_exactly",
    "C02_count_is_accepted",
    "C01_after_opening"
   ],
   "note": "indices that are not negative and, with declared bounds, earlier records within them; the domains of the symbol are part of the condition; that refused records leave no trace is C01: exactly the accepted ones are read back"
  },
  {
   "property": "C08",
   "status": "proved",
   "theorems": [
    "C08_strings_come_back",
    "C08_labels_handed_over",
    "C08_refused_are_counted"
   ],
   "note": "labels not renamed after the symbol was begun"
  },
  {
   "property": "C31",
   "status": "proved",
   "theorems": [
    "C31_labels_are_checked",
    "C31_user_numbers_are_checked",
    "C31_raw_indices_are_checked"
   ],
   "note": "domain sets written before in the same session while domain sets are stored; gdxSymbolSetDomain right after the start"
  },
  {
   "property": "C45",
   "status": "proved",
   "theorems": [
    "C45_labels_refused",
    "C45_user_numbers_refused",
    "C45_raw_refused",
    "C17_selection"
   ],
   "note": "writing: the three C45 theorems; mapped and filtered reads: the last clause of C17_selection"
  },
  {
   "property": "C36",
   "status": "proved",
   "theorems": [
    "C36_slices"
   ],
   "note": "files written with this library; the object reads no other symbol in between"
  },
  {
   "property": "C38",
   "status": "proved",
   "theorems": [
    "C38_elements"
   ],
   "note": "agreement with the raw reading of the same symbol, for every object that reads any file"
  },
  {
   "property": "C46",
   "status": "proved",
   "theorems": [
    "C46_index_widths",
    "C46_label_width",
    "C46_name_width"
   ],
   "note": "agreement with the raw reading of the same symbol, for every object that reads any file"
  },
  {
   "property": "C14",
   "status": "proved",
   "theorems": [
    "C14_registering",
    "C14_numbers_stay",
    "C14_same_again",
    "C14_numbers_are_consecutive"
   ],
   "note": "consecutive numbers: sessions without gdxUELRegisterMap"
  },
  {
   "property": "C15",
   "status": "partial",
   "theorems": [
    "C15_conflicts_are_refused",
    "C15_one_number_per_label",
    "C15_accepted",
    "C15_two_labels_refuted"
   ],
   "note": "one label never gets two user numbers (proved); two labels can share one user number, the code does not look at that: refuted"
  },
  {
   "property": "C18",
   "status": "proved",
   "theorems": [
    "C18_filter_is_what_was_registered",
    "C18_accepted_exactly",
    "C18_refused_registrations",
    "C18_defined_filters_exist",
    "C18_only_defined_filters_exist",
    "C18_domain_elements"
   ],
   "note": ""
  },
  {
   "property": "C47",
   "status": "proved",
   "theorems": [
    "C47_enumeration"
   ],
   "note": ""
  },
  {
   "property": "C09",
   "status": "proved",
   "theorems": [
    "C09_user_numbers_come_back"
   ],
   "note": "the reader has given the labels the numbers that the writer used"
  },
  {
   "property": "C16",
   "status": "proved",
   "theorems": [
    "C16_increasing",
    "C16_shared_numbers_refuted"
   ],
   "note": "the refuted theorem shows why a filtered read needs distinct user numbers"
  },
  {
   "property": "C17",
   "status": "proved",
   "theorems": [
    "C17_selection",
    "C17_selection_can_be_read"
   ],
   "note": "requests as stored / user number / filter; requests that extend the label map are not covered"
  },
  {
   "property": "C48",
   "status": "proved",
   "theorems": [
    "C48_marks",
    "C48_opened",
    "C48_append"
   ],
   "note": "for every byte string; a file that ends inside a section is undefined behaviour of the reader"
  },
  {
   "property": "C25",
   "status": "proved",
   "theorems": [
    "C25_interrupted",
    "C25_closing",
    "C25_abandoned",
    "C25_freed",
    "C25_freed_file",
    "C25_all_writes",
    "C25_torn_index_refuted"
   ],
   "note": "new files, up to the write of the index; the refuted theorem shows that a torn write of the index itself is not noticed"
  },
  {
   "property": "C26",
   "status": "proved",
   "theorems": [
    "C26_opens",
    "C26_symbols",
    "C26_new_symbols",
    "C26_symbol_texts",
    "C26_labels",
    "C26_element_texts",
    "C26_acronyms",
    "C26_comments",
    "C26_file_version",
    "C26_domains",
    "C26_domain_names",
    "C26_records",
    "C26_record_counts",
    "C26_string_records",
    "C26_has_text"
   ],
   "note": "any number of sessions; excluded are calls that change old entries on purpose (renaming labels, acronym information, relaxed domains)"
  },
  {
   "property": "C50",
   "status": "proved",
   "theorems": [
    "C50_other_files_stay",
    "C50_reading_changes_nothing"
   ],
   "note": ""
  },
  {
   "property": "C51",
   "status": "proved",
   "theorems": [
    "C51_close_completes_the_symbol",
    "C51_closed",
    "C51_before_the_first_record_refuted"
   ],
   "note": "between the start of a symbol and its first record gdxClose abandons the whole file instead (refuted theorem, C25_abandoned)"
  },
  {
   "property": "C52",
   "status": "proved",
   "theorems": [
    "C52_changes",
    "C52_wide",
    "C52_equations_refuted",
    "C52_diffonly_refuted"
   ],
   "note": "for runs of the comparison without undefined behaviour; the refuted theorems show two that have it (all equations; 19 dimensions under DiffOnly)"
  },
  {
   "property": "C53",
   "status": "proved",
   "theorems": [
    "C53_same_number",
    "C53_tolerance",
    "C53_close_enough",
    "C53_reflexive",
    "C53_symmetric",
    "C53_looser",
    "C53_files_swapped"
   ],
   "note": ""
  },
  {
   "property": "C54",
   "status": "proved",
   "theorems": [
    "C54_no_differences",
    "C54_self",
    "C54_self_infinity_refuted"
   ],
   "note": ""
  },
  {
   "property": "C55",
   "status": "proved",
   "theorems": [
    "C55_merged",
    "C55_in_order"
   ],
   "note": "for runs without undefined behaviour and input files without acronyms, fewer than 2^31 records in all; the spellings of a name are all selected by the options or none"
  },
  {
   "property": "C56",
   "status": "partial",
   "theorems": [
    "C56_selection",
    "C56_all_selected",
    "C56_names_by_case_refuted",
    "C56_big_refuted",
    "C56_big_scalar_refuted",
    "C56_same_file_name_refuted"
   ],
   "note": "selection by ID and EXCLUDE is proved with case mattering; the refuted theorems show what the code does not keep: case of names, BIG (an empty label, lost texts, undefined behaviour for scalars), files of the same name"
  },
  {
   "property": "C57",
   "status": "proved",
   "theorems": [
    "C57_switches",
    "C57_file_stays",
    "C57_new_file",
    "C57_file_read",
    "C57_closed",
    "C57_symbols",
    "C57_labels",
    "C57_error_records",
    "C57_acronym_names"
   ],
   "note": "acronym names: while a new file is written"
  },
  {
   "property": "C58",
   "status": "proved",
   "theorems": [
    "C58_nothing_is_refused",
    "C58_labels",
    "C58_user_numbers"
   ],
   "note": "raw records, records by label, records by user number, each with gdxAddSetText in between; labels not renamed afterwards in the string case"
  },
  {
   "property": "C59",
   "status": "proved",
   "theorems": [
    "C59_merged_file",
    "C59_merged_file_read",
    "C59_file_names",
    "C59_file_names_read"
   ],
   "note": "for the runs of C55 whose output is opened again; records with different file names or labels; symbols with valid names and types; for the set of files, different names that are labels; reading while no acronym numbering is asked for"
  },
  {
   "property": "C60",
   "status": "proved",
   "theorems": [
    "C60_csv"
   ],
   "note": "header option not given; the text of a number is a parameter that must not contain the delimiter; strings of at most 255 characters; with tabs as delimiter, texts without tabs and line feeds"
  },
  {
   "property": "C61",
   "status": "proved",
   "theorems": [
    "C61_table"
   ],
   "note": "symbols with at least one record, last indices with labels (see C62)"
  },
  {
   "property": "C62",
   "status": "partial",
   "theorems": [
    "C62_columns_partial",
    "C62_columns_refuted",
    "C62_index_refuted"
   ],
   "note": "names of columns that are not neighbours differ; neighbours may have the same name; an index without a label is undefined behaviour with CDim=Y"
  },
  {
   "property": "C63",
   "status": "partial",
   "theorems": [
    "C63_interrupted_append_partial",
    "C63_closing_partial",
    "C63_nothing_is_lost_refuted",
    "C63_old_or_new_refuted"
   ],
   "note": "files without compression; during the calls, and in gdxClose up to its last write if a symbol was stored; refuted for gdxClose of a session that stored no symbol; what the file held before can be lost"
  },
  {
   "property": "C64",
   "status": "proved",
   "theorems": [
    "C64_has_text"
   ],
   "note": "all three ways of writing, domains, and files that were appended to"
  },
  {
   "property": "C65",
   "status": "partial",
   "theorems": [
    "C65_data_partial",
    "C65_quoted_text_refuted"
   ],
   "note": "an element text that begins with a quote and has no special character is written without quotes and read back differently (refuted); proved for texts that begin with neither a quote nor a period, records whose indices all have labels, symbols without comments; the declaration in front of the data is not modelled"
  },
  {
   "property": "C66",
   "status": "proved",
   "theorems": [
    "C66_labels",
    "C66_symbols",
    "C66_domains"
   ],
   "note": ""
  },
  {
   "property": "C67",
   "status": "proved",
   "theorems": [
    "C67_count",
    "C67_texts",
    "C67_highest_refuted"
   ],
   "note": "C67_texts: if the pass over the records comes to its end"
  },
  {
   "property": "C68",
   "status": "proved",
   "theorems": [
    "C68_declaration",
    "C68_alias",
    "C68_comment_refuted"
   ],
   "note": "C68_declaration is about symbols without comments; C68_comment_refuted shows that a comment joins the text"
  },
  {
   "property": "C69",
   "status": "partial",
   "theorems": [
    "C69_acronyms_partial",
    "C69_acronyms_refuted",
    "C69_none",
    "C69_name_refuted"
   ],
   "note": "the property does not hold: a statement without a name comes first and the last acronym is missing; the partial theorem says what is written, if the names are words"
  },
  {
   "property": "C70",
   "status": "proved",
   "theorems": [
    "C70_symbols",
    "C70_domains"
   ],
   "note": ""
  },
  {
   "property": "C71",
   "status": "proved",
   "theorems": [
    "C71_writing",
    "C71_reading"
   ],
   "note": ""
  },
  {
   "property": "C72",
   "status": "partial",
   "theorems": [
    "C72_errors_have_messages",
    "C72_opening_errors_have_messages",
    "C72_messages_differ",
    "C72_missing_file_partial",
    "C72_long_name_refuted"
   ],
   "note": "the part about missing files does not hold for long names: a text of 256 characters is written with its end mark behind the buffer, a longer one is not handed over"
  }
 ]
}