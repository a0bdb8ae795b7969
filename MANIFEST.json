{
 "claims": [
  {
   "property": "C01",
   "status": "proved",
   "theorems": [
    "C01_written_metadata_is_read"
   ],
   "note": ""
  },
  {
   "property": "C02",
   "status": "proved",
   "theorems": [
    "C02_filetype_and_audio_kept"
   ],
   "note": ""
  },
  {
   "property": "C03",
   "status": "proved",
   "theorems": [
    "C03_rest_preserved",
    "C03_media_preserved",
    "C03_any_file",
    "C03_any_unchecked"
   ],
   "note": "The first two for well-formed files; the last two for every byte string on which the write succeeds."
  },
  {
   "property": "C04",
   "status": "partial",
   "theorems": [
    "C04_chunks_kept_partial",
    "C04_wrap_refuted",
    "C04_track_behind_udta_refuted",
    "C04_two_sided_refuted"
   ],
   "note": "False (refuted) if a track follows the user data, if there is media data on both sides of the movie atom, or if an offset leaves the range of its table; proved for all other files. C74 and C94 say for every single offset of every file whether it stays right."
  },
  {
   "property": "C05",
   "status": "proved",
   "theorems": [
    "C05_sizes_consistent",
    "C05_tree"
   ],
   "note": ""
  },
  {
   "property": "C06",
   "status": "proved",
   "theorems": [
    "C06_no_udta",
    "C06_no_meta",
    "C06_no_ilst",
    "C06_replaced"
   ],
   "note": ""
  },
  {
   "property": "C07",
   "status": "proved",
   "theorems": [
    "C07_last_write_wins",
    "C07_idempotent",
    "C07_large_refuted"
   ],
   "note": "The refuted theorem shows that the 4 GiB limit on the tags is necessary."
  },
  {
   "property": "C08",
   "status": "partial",
   "theorems": [
    "C08_tables_refuted",
    "C08_only_tables_partial",
    "C08_unchecked",
    "C08_no_tables"
   ],
   "note": "False (refuted with a witness); proved for all byte strings: the length and every byte that is not a chunk offset stay the same."
  },
  {
   "property": "C09",
   "status": "proved",
   "theorems": [
    "C09_calls",
    "C09_front_intact",
    "C09_repeated",
    "C09_calls_any",
    "C09_front_any",
    "C09_outcome_any",
    "C09_behind_refuted"
   ],
   "note": "The refuted theorem shows that media data behind the movie atom is not protected."
  },
  {
   "property": "C10",
   "status": "proved",
   "theorems": [
    "C10_dump_read",
    "C10_file_type"
   ],
   "note": ""
  },
  {
   "property": "C11",
   "status": "partial",
   "theorems": [
    "C11_items_partial",
    "C11_containers_partial",
    "C11_utf16_refuted",
    "C11_large_refuted",
    "C11_exactly",
    "C11_fails"
   ],
   "note": "False for UTF-16 values (refuted: off by one byte per code unit) and for items of 4 GiB or more (refuted: truncated size field); proved otherwise. C11_exactly: for all items of all sizes, everything written has its announced length if and only if no UTF-16 text has a character, and the size field of an item is right if and only if it is smaller than 4 GiB. C11_fails: when writing panics instead."
  },
  {
   "property": "C12",
   "status": "partial",
   "theorems": [
    "C12_utf16_refuted",
    "C12_empty_partial",
    "C12_exactly",
    "C12_written"
   ],
   "note": "False; a dumped tag is read back exactly if all its UTF-16 texts are empty (C12_exactly, whatever else is in the tag and however the misplaced bytes are read). A text with two halves of equal length comes back as its first half. C12_written is the same equivalence for items written to a file where nothing of the movie is behind the list; elsewhere see C37_only_storable_refuted."
  },
  {
   "property": "C13",
   "status": "partial",
   "theorems": [
    "C13_zero_timescale_refuted",
    "C13_short_value_refuted",
    "C13_no_panic_partial",
    "C13_truncated_partial",
    "C13_release_partial",
    "C13_causes_partial"
   ],
   "note": "False (refuted: time scale 0, values shorter than eight bytes); proved for well-formed files, for truncations of readable files, and overflow panics excluded in release builds; for all byte strings under 2^62 bytes a panic implies one of seven listed flaws in a box or descriptor the reader looks at. Exactly which files panic: C72 and C73."
  },
  {
   "property": "C14",
   "status": "partial",
   "theorems": [
    "C14_debug",
    "C14_release_refuted",
    "C14_release_partial",
    "C14_well_formed_partial"
   ],
   "note": "Proved with overflow checks for all byte strings; false without (refuted); proved without for files whose 64-bit size fields are neither 0 nor at least 2^63. Exactly which files: C73 and C78."
  },
  {
   "property": "C15",
   "status": "proved",
   "theorems": [
    "C15_read_returns_content",
    "C15_unambiguous"
   ],
   "note": ""
  },
  {
   "property": "C16",
   "status": "proved",
   "theorems": [
    "C16_foreign_atoms"
   ],
   "note": ""
  },
  {
   "property": "C17",
   "status": "proved",
   "theorems": [
    "C17_merged_items",
    "C17_no_item_list"
   ],
   "note": ""
  },
  {
   "property": "C18",
   "status": "proved",
   "theorems": [
    "C18_unique_identifiers"
   ],
   "note": ""
  },
  {
   "property": "C19",
   "status": "proved",
   "theorems": [
    "C19_data_of",
    "C19_ordered_map",
    "C19_take_returns",
    "C19_identifier_equality",
    "C19_idents_match"
   ],
   "note": ""
  },
  {
   "property": "C20",
   "status": "proved",
   "theorems": [
    "C20_single_strings"
   ],
   "note": ""
  },
  {
   "property": "C21",
   "status": "proved",
   "theorems": [
    "C21_multi_strings"
   ],
   "note": ""
  },
  {
   "property": "C22",
   "status": "proved",
   "theorems": [
    "C22_flags",
    "C22_flag_meaning"
   ],
   "note": ""
  },
  {
   "property": "C23",
   "status": "proved",
   "theorems": [
    "C23_integers",
    "C23_stored_bytes"
   ],
   "note": ""
  },
  {
   "property": "C24",
   "status": "partial",
   "theorems": [
    "C24_track_disc_partial",
    "C24_track_disc_refuted",
    "C24_rest_kept",
    "C24_layout",
    "C24_exactly"
   ],
   "note": "False for stored values of exactly three bytes of which the last is not 0 (refuted with a witness); proved for all others. C24_exactly has it as an equivalence."
  },
  {
   "property": "C25",
   "status": "partial",
   "theorems": [
    "C25_last_half_refuted",
    "C25_last_half_partial"
   ],
   "note": "The code violates the property (refuted); the partial theorem says exactly when the item is removed."
  },
  {
   "property": "C26",
   "status": "partial",
   "theorems": [
    "C26_genres_partial",
    "C26_genre_is_first_refuted",
    "C26_take_genre_refuted",
    "C26_standard_codes",
    "C26_standard_genre_names",
    "C26_exactly"
   ],
   "note": "Two clauses are false (refuted with witnesses); C26_exactly says for both when they hold, as equivalences; the other clauses are proved."
  },
  {
   "property": "C27",
   "status": "proved",
   "theorems": [
    "C27_media_type_rating",
    "C27_codes",
    "C27_meaning"
   ],
   "note": ""
  },
  {
   "property": "C28",
   "status": "proved",
   "theorems": [
    "C28_artwork"
   ],
   "note": ""
  },
  {
   "property": "C29",
   "status": "proved",
   "theorems": [
    "C29_retain_of",
    "C29_retain_all",
    "C29_typed"
   ],
   "note": ""
  },
  {
   "property": "C30",
   "status": "proved",
   "theorems": [
    "C30_no_interference",
    "C30_distinct",
    "C30_documented"
   ],
   "note": ""
  },
  {
   "property": "C31",
   "status": "proved",
   "theorems": [
    "C31_duration_v0",
    "C31_duration_v1",
    "C31_duration_overflow_refuted"
   ],
   "note": "The refuted theorem shows that the side condition on version 1 headers is necessary."
  },
  {
   "property": "C32",
   "status": "proved",
   "theorems": [
    "C32_first_track",
    "C32_every_layout",
    "C32_reserved"
   ],
   "note": ""
  },
  {
   "property": "C33",
   "status": "proved",
   "theorems": [
    "C33_not_mp4",
    "C33_no_movie"
   ],
   "note": ""
  },
  {
   "property": "C34",
   "status": "partial",
   "theorems": [
    "C34_utf8_value",
    "C34_utf16_value_partial",
    "C34_utf16_odd_refuted",
    "C34_freeform_name",
    "C34_filetype"
   ],
   "note": "False for UTF-16 values with an odd number of bytes (refuted: the last byte is dropped); everything else proved. What the odd byte means for arbitrary files is exact in C67 (text16 of its specification ignores it)."
  },
  {
   "property": "C35",
   "status": "proved",
   "theorems": [
    "C35_head_roundtrip",
    "C35_head_faithful",
    "C35_size_from",
    "C35_short_lengths"
   ],
   "note": ""
  },
  {
   "property": "C36",
   "status": "proved",
   "theorems": [
    "C36_reading",
    "C36_writing",
    "C36_reading_any",
    "C36_writing_any"
   ],
   "note": ""
  },
  {
   "property": "C37",
   "status": "partial",
   "theorems": [
    "C37_careful_partial",
    "C37_empty_values_refuted",
    "C37_free_refuted",
    "C37_utf16_refuted",
    "C37_duplicates_refuted",
    "C37_dumped",
    "C37_written",
    "C37_last",
    "C37_fresh",
    "C37_only_storable_refuted",
    "C37_repeated",
    "C37_careful_repeated_partial"
   ],
   "note": "False in four ways (refuted with witnesses); proved for all other sequences of operations. C37_dumped shows that these four are exactly the tags that do not come back: a dumped tag comes back if and only if none of the four applies. C37_written says the same for writing into a well-formed file if there is no UTF-16 text, and C37_repeated also if containers are repeated. C37_last says it for all items if the list is the last thing of the movie, in particular for files without user data (C37_fresh); in other files text in UTF-16 may come back by accident (C37_only_storable_refuted)."
  },
  {
   "property": "C38",
   "status": "proved",
   "theorems": [
    "C38_write_back",
    "C38_twice"
   ],
   "note": "For files smaller than 4 GiB whose containers are not repeated; C89_back is the same with repeated containers."
  },
  {
   "property": "C39",
   "status": "partial",
   "theorems": [
    "C39_same_handle_refuted",
    "C39_rewound_partial"
   ],
   "note": "False for every well-formed file: the second operation on the handle fails. The partial theorem rewinds the handle first."
  },
  {
   "property": "C40",
   "status": "proved",
   "theorems": [
    "C40_iterators"
   ],
   "note": ""
  },
  {
   "property": "C41",
   "status": "proved",
   "theorems": [
    "C41_written",
    "C41_decoded",
    "C41_unknown",
    "C41_only_unknown"
   ],
   "note": ""
  },
  {
   "property": "C42",
   "status": "partial",
   "theorems": [
    "C42_debug",
    "C42_release_refuted",
    "C42_release_partial"
   ],
   "note": "With overflow checks: proved for all bytes. Without: false (refuted for a family of files), proved for all files without 64-bit lengths of zero or at least 2^63. Exactly which files: C75 and C78."
  },
  {
   "property": "C43",
   "status": "partial",
   "theorems": [
    "C43_cut_list_refuted",
    "C43_well_formed_partial",
    "C43_kinds_partial",
    "C43_release_partial",
    "C43_causes_partial",
    "C43_long_value_refuted",
    "C43_long_name_refuted"
   ],
   "note": "False (refuted in both profiles); proved for well-formed files, and for all bytes which panics are possible and that each comes from one of six listed flaws of the file or the items, each of which does panic. Exactly when: C75."
  },
  {
   "property": "C44",
   "status": "partial",
   "theorems": [
    "C44_second_movie_refuted",
    "C01_written_metadata_is_read"
   ],
   "note": "False for every file with a second movie atom (refuted for all such files); true with one movie atom (C01)."
  },
  {
   "property": "C45",
   "status": "partial",
   "theorems": [
    "C45_strings",
    "C45_numbers",
    "C45_line_break_refuted"
   ],
   "note": "Proved for all tags without line feeds in strings; with line feeds two different tags can have the same text (refuted)."
  },
  {
   "property": "C46",
   "status": "proved",
   "theorems": [
    "C46_audio",
    "C46_artworks"
   ],
   "note": ""
  },
  {
   "property": "C47",
   "status": "proved",
   "theorems": [
    "C47_order",
    "C47_labels_distinct"
   ],
   "note": ""
  },
  {
   "property": "C48",
   "status": "partial",
   "theorems": [
    "C48_genres_partial",
    "C48_all_genres_partial",
    "C48_genres_refuted",
    "C48_exactly"
   ],
   "note": "False when the first standard genre code is unknown (refuted); C48_genres_partial says exactly what is shown, C48_exactly when it is all genres."
  },
  {
   "property": "C49",
   "status": "proved",
   "theorems": [
    "C49_transparent",
    "C49_reported"
   ],
   "note": "Here reading is one event per scan or table: it fails or not, and moves the cursor anywhere. C62 has every call."
  },
  {
   "property": "C50",
   "status": "proved",
   "theorems": [
    "C50_state",
    "C50_front",
    "C50_front_boxes",
    "C50_repeated",
    "C50_atomic_refuted"
   ],
   "note": "The refutation shows that nothing more can be said about reading the file afterwards: it may fail."
  },
  {
   "property": "C51",
   "status": "proved",
   "theorems": [
    "C51_sessions",
    "C51_one_session",
    "C51_chunks"
   ],
   "note": "Composes C15, C19, C01, C02, C07, C37 and C04."
  },
  {
   "property": "C52",
   "status": "proved",
   "theorems": [
    "C52_read",
    "C52_write",
    "C52_media"
   ],
   "note": "The examples are the crate's own tests on the crate's own files, run in the model."
  },
  {
   "property": "C53",
   "status": "proved",
   "theorems": [
    "C53_report",
    "C53_scan",
    "C53_transparent",
    "C53_each_call"
   ],
   "note": ""
  },
  {
   "property": "C54",
   "status": "partial",
   "theorems": [
    "C54_any_file",
    "C54_success",
    "C54_well_formed",
    "C54_refuted"
   ],
   "note": "The last buffer of a failing read is unbounded (refuted: a file of 16 bytes requests any number of bytes below 2^63); everything else is proved."
  },
  {
   "property": "C55",
   "status": "partial",
   "theorems": [
    "C55_effort_counts",
    "C55_refuted",
    "C55_forwards",
    "C55_forwards_scan",
    "C55_no_huge_box",
    "C55_no_huge_box_scan",
    "C55_same_operations",
    "C55_well_formed",
    "C55_well_formed_scan"
   ],
   "note": "False in general: a file of 48 bytes is read successfully after more than 2^63 operations (refuted, for both profiles); the bound is proved for the files named in the statement."
  },
  {
   "property": "C56",
   "status": "proved",
   "theorems": [
    "C56_in_file",
    "C56_in_order",
    "C56_file_type",
    "C56_duration",
    "C56_audio"
   ],
   "note": ""
  },
  {
   "property": "C57",
   "status": "partial",
   "theorems": [
    "C57_no_larger",
    "C57_refuted"
   ],
   "note": "False for files with 64-bit sizes of 2^63 or more (refuted, for both profiles); proved for all others."
  },
  {
   "property": "C58",
   "status": "proved",
   "theorems": [
    "C58_read",
    "C58_scan",
    "C58_started",
    "C58_table",
    "C58_rest",
    "C58_capacity"
   ],
   "note": ""
  },
  {
   "property": "C59",
   "status": "proved",
   "theorems": [
    "C59_longer",
    "C59_cut",
    "C59_shared"
   ],
   "note": ""
  },
  {
   "property": "C60",
   "status": "proved",
   "theorems": [
    "C60_report",
    "C60_transparent",
    "C60_left",
    "C60_any_part"
   ],
   "note": ""
  },
  {
   "property": "C61",
   "status": "partial",
   "theorems": [
    "C61_others",
    "C61_missing",
    "C61_content",
    "C61_write_read",
    "C61_dump_read",
    "C61_not_opened",
    "C61_repeated",
    "C61_dump_keeps_refuted"
   ],
   "note": "The last sentence is false (refuted: dump_to_path empties an existing file before anything is written); the rest is proved."
  },
  {
   "property": "C62",
   "status": "proved",
   "theorems": [
    "C62_transparent",
    "C62_reported",
    "C62_state",
    "C62_front"
   ],
   "note": "By refinement: every run is one of the coarser model of C49 and C50."
  },
  {
   "property": "C63",
   "status": "proved",
   "theorems": [
    "C63_error_causes",
    "C63_described",
    "C63_no_cause"
   ],
   "note": "Files with a flaw of C13 are excluded; the list of causes is in ErrSpec.v."
  },
  {
   "property": "C64",
   "status": "proved",
   "theorems": [
    "C64_read_without_cause",
    "C64_exact",
    "C64_error_of_cause"
   ],
   "note": "Files with a flaw of C13 are excluded."
  },
  {
   "property": "C65",
   "status": "proved",
   "theorems": [
    "C65_error_causes",
    "C65_described",
    "C65_error_iff_cause"
   ],
   "note": "Files and items with a flaw of C43 are excluded; the list of causes is in LayoutSpec.v."
  },
  {
   "property": "C66",
   "status": "proved",
   "theorems": [
    "C66_written_as",
    "C66_failed_as"
   ],
   "note": "Files and items with a flaw of C43 are excluded; the bytes of items as in C03 (exact_items, items_fit)."
  },
  {
   "property": "C67",
   "status": "proved",
   "theorems": [
    "C67_tag_as",
    "C67_only",
    "C67_exact"
   ],
   "note": "Files with a flaw of C13 are excluded; the specification is in TreeSpec.v."
  },
  {
   "property": "C68",
   "status": "proved",
   "theorems": [
    "C68_kinds",
    "C68_one_family",
    "C68_contents",
    "C68_single",
    "C68_image",
    "C68_image_formats",
    "C68_empty",
    "C68_item_empty",
    "C68_assign"
   ],
   "note": ""
  },
  {
   "property": "C69",
   "status": "proved",
   "theorems": [
    "C69_first_item",
    "C69_no_item",
    "C69_removed",
    "C69_lawful",
    "C69_crate_lawful",
    "C69_reflexive",
    "C69_reflexive_needed"
   ],
   "note": "The comparisons of an implementation are functions without side effects that do not panic."
  },
  {
   "property": "C70",
   "status": "partial",
   "theorems": [
    "C70_name",
    "C70_description",
    "C70_plain",
    "C70_form",
    "C70_variant",
    "C70_determined",
    "C70_library",
    "C70_cause",
    "C70_fourcc_text",
    "C70_freeform_text_partial",
    "C70_freeform_text_refuted",
    "C70_channel_config",
    "C70_sample_rate",
    "C70_media_type",
    "C70_conversion_kind_refuted",
    "C70_conversion_text"
   ],
   "note": "Two freeform identifiers can have the same text (C70_freeform_text_refuted); proved if their means have no colon. The kind of the error for an unknown sample rate is the one for channel configurations (C70_conversion_kind_refuted); the description tells them apart."
  },
  {
   "property": "C71",
   "status": "proved",
   "theorems": [
    "C71_error_is_first",
    "C71_read_through",
    "C71_unique",
    "C71_outcome",
    "C71_is_cause"
   ],
   "note": "Files with a flaw of C13 are excluded; the specification is in FirstSpec.v."
  },
  {
   "property": "C72",
   "status": "proved",
   "theorems": [
    "C72_sound",
    "C72_unique",
    "C72_outcome",
    "C72_total",
    "C72_break_is_flaw",
    "C72_release"
   ],
   "note": "The specification is in OutSpec.v and excludes nothing but files of 2^62 bytes and more."
  },
  {
   "property": "C73",
   "status": "proved",
   "theorems": [
    "C73_sound",
    "C73_unique",
    "C73_outcome",
    "C73_total",
    "C73_panics",
    "C73_same",
    "C73_checked"
   ],
   "note": "The specification is in OutSpec.v. That reading does not always end is C14_release_refuted; here the files are characterised for which it does not. C73_total is stated without excluded middle: a file without end and without stop is read forever."
  },
  {
   "property": "C74",
   "status": "proved",
   "theorems": [
    "C74_exact",
    "C74_bytes",
    "C74_all"
   ],
   "note": "The condition is stays in ChunkSpec.v. It contains the sufficient conditions and the counterexamples of C04."
  },
  {
   "property": "C75",
   "status": "proved",
   "theorems": [
    "C75_sound",
    "C75_unique",
    "C75_outcome",
    "C75_endless",
    "C75_checked",
    "C75_total",
    "C75_same",
    "C75_panics",
    "C75_capacity"
   ],
   "note": "The specification is in WOutSpec.v. That writing does not always end without overflow checks is C42_release_refuted. C75_total is stated without excluded middle: without an outcome the scan is endless."
  },
  {
   "property": "C76",
   "status": "proved",
   "theorems": [
    "C76_strings",
    "C76_unique",
    "C76_table",
    "C76_read_utf8",
    "C76_read_utf16",
    "C76_written",
    "C76_numbers",
    "C76_numbers_written",
    "C76_value"
   ],
   "note": "The specification is in UnicodeSpec.v. That an odd last byte of a UTF-16 value is dropped is C34_utf16_odd_refuted. The conversions themselves belong to the standard library and are modelled from its documentation."
  },
  {
   "property": "C77",
   "status": "proved",
   "theorems": [
    "C77_arguments",
    "C77_words",
    "C77_names",
    "C77_calls",
    "C77_tag",
    "C77_display",
    "C77_plural"
   ],
   "note": "The macros are modelled in Macro.v as functions from the argument text to a list of methods whose bodies have holes filled with text; the specification is in MacroSpec.v. Parsing of the generated text by the compiler and the documentation comments are not modelled."
  },
  {
   "property": "C78",
   "status": "proved",
   "theorems": [
    "C78_reading",
    "C78_scanning",
    "C78_read_decided",
    "C78_write_decided",
    "C78_steps"
   ],
   "note": "The specification is in CycleSpec.v, over the places of OutSpec.v and WOutSpec.v. The number of steps in C78_steps is astronomical; it shows that the question is decidable, not that it is practical."
  },
  {
   "property": "C79",
   "status": "proved",
   "theorems": [
    "C79_calls",
    "C79_file",
    "C79_repeated",
    "C79_getters"
   ],
   "note": "C79_repeated is C79_file for files with repeated containers. The specification is in WireSpec.v; it spells out the codes and uses neither the constants nor the functions of the model. The hypotheses source and careful of C79_file are those of C37: no item called free, no UTF-16 text, no empty list of values (C37 shows that the file cannot be read otherwise)."
  },
  {
   "property": "C80",
   "status": "proved",
   "theorems": [
    "C80_covers",
    "C80_front",
    "C80_reach",
    "C80_same_length",
    "C80_mixed_refuted"
   ],
   "note": "settles (PowerSpec.v) is any order, any part and any repetition of the calls; C80_covers shows that the failures of C09 are among these. C80_reach and C80_same_length are about arbitrary files. C80_mixed_refuted shows that C80_same_length cannot be improved to: the old or the new list."
  },
  {
   "property": "C81",
   "status": "proved",
   "theorems": [
    "C81_bytes",
    "C81_calls",
    "C81_none",
    "C81_rest",
    "C81_behind",
    "C81_repeated",
    "C81_nothing_new_refuted"
   ],
   "note": "handed (CostSpec.v) counts the bytes of the calls; cost and moves are sums over the boxes of LayoutSpec.v. C81_bytes, C81_calls, C81_none and C81_rest are about arbitrary files. C81_repeated is C81_behind for files with repeated containers. C81_nothing_new_refuted refutes, for every well-formed file: a write that changes nothing does not rewrite the media data."
  },
  {
   "property": "C82",
   "status": "partial",
   "theorems": [
    "C82_file",
    "C82_more",
    "C82_well_formed",
    "C82_as_far",
    "C82_small_boxes",
    "C82_memory_refuted",
    "C82_end_refuted"
   ],
   "note": "The wanted statement is false: 44 bytes are read as a tag from a Cursor and not from a file (C82_memory_refuted), and a file whose last atom is cut is not read from a reader that refuses places behind its end (C82_end_refuted). Everything else in the statement is proved for all readers."
  },
  {
   "property": "C83",
   "status": "partial",
   "theorems": [
    "C83_atoms",
    "C83_absolute",
    "C83_relative",
    "C83_bytes",
    "C83_absolute_refuted",
    "C83_repeated"
   ],
   "note": "C83_repeated says all of it also for files with repeated containers. The wanted statement is false: C83_absolute_refuted is a fragmented file whose fragment addresses bytes of the movie after writing. C83_absolute and C83_relative say for every file exactly which positions stay right; moof, traf and tfhd are described in FragSpec.v after ISO/IEC 14496-12, the library does not know them."
  },
  {
   "property": "C84",
   "status": "proved",
   "theorems": [
    "C84_depends",
    "C84_one_pass",
    "C84_well_formed",
    "C84_any_media",
    "C84_scan",
    "C84_scan_one_pass",
    "C84_again_refuted"
   ],
   "note": "trail (LookSpec.v) lists the stretches read and passed by the operations of ReadIO.v, which gives the same results as the model (C54, read_is, scan_is). C84_depends and C84_scan are about arbitrary bytes. C84_again_refuted shows that the assumption of C84_one_pass is needed."
  },
  {
   "property": "C85",
   "status": "proved",
   "theorems": [
    "C85_read",
    "C85_range"
   ],
   "note": "readable_items is defined in SurviveSpec.v. The witness of C85_range is the file a correct dump would produce, with UTF-16 texts announced at their right length."
  },
  {
   "property": "C86",
   "status": "proved",
   "theorems": [
    "C86_item",
    "C86_containers",
    "C86_sums"
   ],
   "note": "LenSum.v has the functions with 64-bit additions; the rest of the model takes the sums without limits."
  },
  {
   "property": "C87",
   "status": "proved",
   "theorems": [
    "C87_written",
    "C87_read",
    "C87_repaired",
    "C87_forgotten"
   ],
   "note": "The new sizes have to fit the size fields of the atoms that stay (good_sizes of the result)."
  },
  {
   "property": "C88",
   "status": "proved",
   "theorems": [
    "C88_written",
    "C88_read",
    "C88_twice",
    "C88_same",
    "C88_chunks_refuted"
   ],
   "note": "Reading back is stated for files with one movie; with several the reader uses the first and the writer the last (finding s, C44). The last sentence of the statement is a refutation: C88_chunks_refuted."
  },
  {
   "property": "C89",
   "status": "partial",
   "theorems": [
    "C89_copied",
    "C89_chain",
    "C89_dumped",
    "C89_back",
    "C89_utf16_refuted",
    "C89_exactly"
   ],
   "note": "Proved for items without UTF-16 text; with it the statement is false (refuted). C89_exactly has it as an equivalence for targets that get the list as the last thing of the movie: the copy is right exactly if no UTF-16 text has a character."
  },
  {
   "property": "C90",
   "status": "proved",
   "theorems": [
    "C90_place",
    "C90_written",
    "C90_left_over",
    "C90_chunks_kept",
    "C90_mended",
    "C90_read",
    "C90_locked"
   ],
   "note": "The chunks stay addressed under the conditions of C04."
  },
  {
   "property": "C91",
   "status": "proved",
   "theorems": [
    "C91_exactly",
    "C91_domain",
    "C91_written",
    "C91_untidy_refuted",
    "C91_long_refuted"
   ],
   "note": "The last sentence of the statement are the two refutations: the layout and, without overflow checks, the size of the duration are needed."
  },
  {
   "property": "C92",
   "status": "proved",
   "theorems": [
    "C92_sound",
    "C92_write_back",
    "C92_sessions",
    "C92_one_session",
    "C92_chunks",
    "C92_write_chunks",
    "C92_laid_out"
   ],
   "note": "For operations without UTF-16 text, items called `free` and empty lists (C37) and files smaller than 4 GiB; chunks under the conditions of C04."
  },
  {
   "property": "C93",
   "status": "proved",
   "theorems": [
    "C93_exact",
    "C93_rejected",
    "C93_one_meaning",
    "C93_tables",
    "C93_items",
    "C93_read",
    "C93_write"
   ],
   "note": "Completeness of the test of C52, whose soundness gave only one direction."
  },
  {
   "property": "C94",
   "status": "proved",
   "theorems": [
    "C94_tables",
    "C94_exact",
    "C94_bytes",
    "C94_all"
   ],
   "note": "The condition is any_stays in ChunkLive.v. It extends C74 from files without repetitions to all well-formed files with sound tables, and covers the tables that are ignored."
  },
  {
   "property": "C95",
   "status": "partial",
   "theorems": [
    "C95_alone",
    "C95_front",
    "C95_between",
    "C95_appended_refuted",
    "C95_two_writers",
    "C95_two_writers_refuted"
   ],
   "note": "The others (Interfere.v) are a list of functions on the contents, one before each call. Two parts of the statement are false: what others do behind the movie is lost (C95_between, for all files and changes; C95_appended_refuted), and two writers can both succeed and leave a file none of whose chunk offsets is right, because the offsets are displaced by the growth of both (C95_two_writers for all files: the tag of the last writer is there, and the offsets are wrong by what the other added; C95_two_writers_refuted for a file that cannot be played any more). The rest is proved for all files with sound tables, repeated containers included."
  },
  {
   "property": "C96",
   "status": "partial",
   "theorems": [
    "C96_alone",
    "C96_seen",
    "C96_kept",
    "C96_behind",
    "C96_written_before",
    "C96_torn_refuted",
    "C96_path_alone",
    "C96_path_kept",
    "C96_path_behind",
    "C96_path_torn_refuted"
   ],
   "note": "The others are a list of functions on the contents, one before each operation of a reader without a buffer (SharedRead.v), one before each call of the operating system with a buffer (SharedBuf.v, C96_path_*). The last part of the statement is false (C96_torn_refuted, C96_path_torn_refuted): if another program writes a tag while the movie is read, the result can be a mixture of both tags, or an error. The rest is proved for all well-formed files."
  },
  {
   "property": "C97",
   "status": "partial",
   "theorems": [
    "C97_alone",
    "C97_unnoticed",
    "C97_front",
    "C97_scanned",
    "C97_contents",
    "C97_tables_contents",
    "C97_tables_alone",
    "C97_fails",
    "C97_two_writers_refuted"
   ],
   "note": "It extends C95 to the part of the call that reads (SharedScan.v). The last part of the statement is false (C97_two_writers_refuted): if another program makes the file shorter between the scan and the question for its length, the subtraction of mod.rs 451 panics; if it does so before the rest is read, the call succeeds and leaves a file that cannot be read. The rest is proved: C97_unnoticed for all byte strings, C97_front and C97_contents for all files with sound tables, repeated containers included. In SharedTables.v the others act while the tables of chunk offsets are read, too (C97_tables_*; C97_tables_alone covers calls that fail as well)."
  }
 ]
}