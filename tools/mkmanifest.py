#!/usr/bin/env python3
"""Generates /verif/MANIFEST.json."""
import json, os, re
HERE = os.path.dirname(os.path.abspath(__file__))
C = []
def c(prop, status, theorems, note=""):
    C.append({"property": prop, "status": status, "theorems": theorems.split(), "note": note})

c("C10", "proved", "C10_dump_read C10_file_type")
c("C11", "partial", "C11_items_partial C11_containers_partial C11_utf16_refuted C11_large_refuted C11_exactly C11_fails",
  "False for UTF-16 values (refuted: off by one byte per code unit) and for items of 4 GiB or more (refuted: truncated size field); proved otherwise. C11_exactly: for all items of all sizes, everything written has its announced length if and only if no UTF-16 text has a character, and the size field of an item is right if and only if it is smaller than 4 GiB. C11_fails: when writing panics instead.")
c("C12", "partial", "C12_utf16_refuted C12_empty_partial C12_exactly C12_written", "False; a dumped tag is read back exactly if all its UTF-16 texts are empty (C12_exactly, whatever else is in the tag and however the misplaced bytes are read). A text with two halves of equal length comes back as its first half. C12_written is the same equivalence for items written to a file where nothing of the movie is behind the list; elsewhere see C37_only_storable_refuted.")
c("C13", "partial", "C13_zero_timescale_refuted C13_short_value_refuted C13_no_panic_partial C13_truncated_partial C13_release_partial C13_causes_partial",
  "False (refuted: time scale 0, values shorter than eight bytes); proved for well-formed files, for truncations of readable files, and overflow panics excluded in release builds; for all byte strings under 2^62 bytes a panic implies one of seven listed flaws in a box or descriptor the reader looks at. Exactly which files panic: C72 and C73.")
c("C14", "partial", "C14_debug C14_release_refuted C14_release_partial C14_well_formed_partial",
  "Proved with overflow checks for all byte strings; false without (refuted); proved without for files whose 64-bit size fields are neither 0 nor at least 2^63. Exactly which files: C73 and C78.")
c("C15", "proved", "C15_read_returns_content C15_unambiguous")
c("C16", "proved", "C16_foreign_atoms")
c("C17", "proved", "C17_merged_items C17_no_item_list")
c("C31", "proved", "C31_duration_v0 C31_duration_v1 C31_duration_overflow_refuted",
  "The refuted theorem shows that the side condition on version 1 headers is necessary.")
c("C32", "proved", "C32_first_track C32_every_layout C32_reserved")
c("C33", "proved", "C33_not_mp4 C33_no_movie")
c("C34", "partial", "C34_utf8_value C34_utf16_value_partial C34_utf16_odd_refuted C34_freeform_name C34_filetype",
  "False for UTF-16 values with an odd number of bytes (refuted: the last byte is dropped); everything else proved. What the odd byte means for arbitrary files is exact in C67 (text16 of its specification ignores it).")
c("C35", "proved", "C35_head_roundtrip C35_head_faithful C35_size_from C35_short_lengths")
c("C36", "proved", "C36_reading C36_writing C36_reading_any C36_writing_any")
c("C01", "proved", "C01_written_metadata_is_read")
c("C02", "proved", "C02_filetype_and_audio_kept")
c("C03", "proved", "C03_rest_preserved C03_media_preserved C03_any_file C03_any_unchecked",
  "The first two for well-formed files; the last two for every byte string on which the write succeeds.")
c("C04", "partial", "C04_chunks_kept_partial C04_wrap_refuted C04_track_behind_udta_refuted C04_two_sided_refuted",
  "False (refuted) if a track follows the user data, if there is media data on both sides of the movie atom, or if an offset leaves the range of its table; proved for all other files. C74 and C94 say for every single offset of every file whether it stays right.")
c("C05", "proved", "C05_sizes_consistent C05_tree")
c("C06", "proved", "C06_no_udta C06_no_meta C06_no_ilst C06_replaced")
c("C07", "proved", "C07_last_write_wins C07_idempotent C07_large_refuted",
  "The refuted theorem shows that the 4 GiB limit on the tags is necessary.")
c("C09", "proved", "C09_calls C09_front_intact C09_repeated C09_calls_any C09_front_any C09_outcome_any C09_behind_refuted",
  "The refuted theorem shows that media data behind the movie atom is not protected.")
c("C08", "partial", "C08_tables_refuted C08_only_tables_partial C08_unchecked C08_no_tables",
  "False (refuted with a witness); proved for all byte strings: the length and every byte that is not a chunk offset stay the same.")
c("C37", "partial", "C37_careful_partial C37_empty_values_refuted C37_free_refuted C37_utf16_refuted C37_duplicates_refuted C37_dumped C37_written C37_last C37_fresh C37_only_storable_refuted C37_repeated C37_careful_repeated_partial",
  "False in four ways (refuted with witnesses); proved for all other sequences of operations. C37_dumped shows that these four are exactly the tags that do not come back: a dumped tag comes back if and only if none of the four applies. C37_written says the same for writing into a well-formed file if there is no UTF-16 text, and C37_repeated also if containers are repeated. C37_last says it for all items if the list is the last thing of the movie, in particular for files without user data (C37_fresh); in other files text in UTF-16 may come back by accident (C37_only_storable_refuted).")
c("C38", "proved", "C38_write_back C38_twice", "For files smaller than 4 GiB whose containers are not repeated; C89_back is the same with repeated containers.")
c("C39", "partial", "C39_same_handle_refuted C39_rewound_partial",
  "False for every well-formed file: the second operation on the handle fails. The partial theorem rewinds the handle first.")
c("C41", "proved", "C41_written C41_decoded C41_unknown C41_only_unknown")
c("C18", "proved", "C18_unique_identifiers")
c("C19", "proved", "C19_data_of C19_ordered_map C19_take_returns C19_identifier_equality C19_idents_match")
c("C20", "proved", "C20_single_strings")
c("C21", "proved", "C21_multi_strings")
c("C22", "proved", "C22_flags C22_flag_meaning")
c("C23", "proved", "C23_integers C23_stored_bytes")
c("C24", "partial", "C24_track_disc_partial C24_track_disc_refuted C24_rest_kept C24_layout C24_exactly",
  "False for stored values of exactly three bytes of which the last is not 0 (refuted with a witness); proved for all others. C24_exactly has it as an equivalence.")
c("C25", "partial", "C25_last_half_refuted C25_last_half_partial",
  "The code violates the property (refuted); the partial theorem says exactly when the item is removed.")
c("C26", "partial", "C26_genres_partial C26_genre_is_first_refuted C26_take_genre_refuted C26_standard_codes C26_standard_genre_names C26_exactly",
  "Two clauses are false (refuted with witnesses); C26_exactly says for both when they hold, as equivalences; the other clauses are proved.")
c("C27", "proved", "C27_media_type_rating C27_codes C27_meaning")
c("C28", "proved", "C28_artwork")
c("C29", "proved", "C29_retain_of C29_retain_all C29_typed")
c("C30", "proved", "C30_no_interference C30_distinct C30_documented")
c("C40", "proved", "C40_iterators")
c("C42", "partial", "C42_debug C42_release_refuted C42_release_partial",
  "With overflow checks: proved for all bytes. Without: false (refuted for a family of files), proved for all files without 64-bit lengths of zero or at least 2^63. Exactly which files: C75 and C78.")
c("C43", "partial", "C43_cut_list_refuted C43_well_formed_partial C43_kinds_partial C43_release_partial C43_causes_partial C43_long_value_refuted C43_long_name_refuted",
  "False (refuted in both profiles); proved for well-formed files, and for all bytes which panics are possible and that each comes from one of six listed flaws of the file or the items, each of which does panic. Exactly when: C75.")
c("C44", "partial", "C44_second_movie_refuted C01_written_metadata_is_read",
  "False for every file with a second movie atom (refuted for all such files); true with one movie atom (C01).")
c("C45", "partial", "C45_strings C45_numbers C45_line_break_refuted",
  "Proved for all tags without line feeds in strings; with line feeds two different tags can have the same text (refuted).")
c("C46", "proved", "C46_audio C46_artworks")
c("C47", "proved", "C47_order C47_labels_distinct")
c("C48", "partial", "C48_genres_partial C48_all_genres_partial C48_genres_refuted C48_exactly",
  "False when the first standard genre code is unknown (refuted); C48_genres_partial says exactly what is shown, C48_exactly when it is all genres.")
c("C49", "proved", "C49_transparent C49_reported", "Here reading is one event per scan or table: it fails or not, and moves the cursor anywhere. C62 has every call.")
c("C50", "proved", "C50_state C50_front C50_front_boxes C50_repeated C50_atomic_refuted",
  "The refutation shows that nothing more can be said about reading the file afterwards: it may fail.")
c("C51", "proved", "C51_sessions C51_one_session C51_chunks", "Composes C15, C19, C01, C02, C07, C37 and C04.")
c("C52", "proved", "C52_read C52_write C52_media", "The examples are the crate's own tests on the crate's own files, run in the model.")

c("C53", "proved", "C53_report C53_scan C53_transparent C53_each_call")
c("C54", "partial", "C54_any_file C54_success C54_well_formed C54_refuted",
  "The last buffer of a failing read is unbounded (refuted: a file of 16 bytes requests any number of bytes below 2^63); everything else is proved.")
c("C55", "partial", "C55_effort_counts C55_refuted C55_forwards C55_forwards_scan C55_no_huge_box C55_no_huge_box_scan C55_same_operations C55_well_formed C55_well_formed_scan",
  "False in general: a file of 48 bytes is read successfully after more than 2^63 operations (refuted, for both profiles); the bound is proved for the files named in the statement.")
c("C56", "proved", "C56_in_file C56_in_order C56_file_type C56_duration C56_audio")
c("C57", "partial", "C57_no_larger C57_refuted",
  "False for files with 64-bit sizes of 2^63 or more (refuted, for both profiles); proved for all others.")

c("C58", "proved", "C58_read C58_scan C58_started C58_table C58_rest C58_capacity")
c("C59", "proved", "C59_longer C59_cut C59_shared")
c("C60", "proved", "C60_report C60_transparent C60_left C60_any_part")
c("C61", "partial", "C61_others C61_missing C61_content C61_write_read C61_dump_read C61_not_opened C61_repeated C61_dump_keeps_refuted",
  "The last sentence is false (refuted: dump_to_path empties an existing file before anything is written); the rest is proved.")

c("C62", "proved", "C62_transparent C62_reported C62_state C62_front", "By refinement: every run is one of the coarser model of C49 and C50.")
c("C63", "proved", "C63_error_causes C63_described C63_no_cause", "Files with a flaw of C13 are excluded; the list of causes is in ErrSpec.v.")
c("C64", "proved", "C64_read_without_cause C64_exact C64_error_of_cause", "Files with a flaw of C13 are excluded.")
c("C65", "proved", "C65_error_causes C65_described C65_error_iff_cause", "Files and items with a flaw of C43 are excluded; the list of causes is in LayoutSpec.v.")
c("C66", "proved", "C66_written_as C66_failed_as", "Files and items with a flaw of C43 are excluded; the bytes of items as in C03 (exact_items, items_fit).")
c("C67", "proved", "C67_tag_as C67_only C67_exact", "Files with a flaw of C13 are excluded; the specification is in TreeSpec.v.")

c("C68", "proved", "C68_kinds C68_one_family C68_contents C68_single C68_image C68_image_formats C68_empty C68_item_empty C68_assign", "")
c("C69", "proved", "C69_first_item C69_no_item C69_removed C69_lawful C69_crate_lawful C69_reflexive C69_reflexive_needed", "The comparisons of an implementation are functions without side effects that do not panic.")
c("C70", "partial", "C70_name C70_description C70_plain C70_form C70_variant C70_determined C70_library C70_cause C70_fourcc_text C70_freeform_text_partial C70_freeform_text_refuted C70_channel_config C70_sample_rate C70_media_type C70_conversion_kind_refuted C70_conversion_text", "Two freeform identifiers can have the same text (C70_freeform_text_refuted); proved if their means have no colon. The kind of the error for an unknown sample rate is the one for channel configurations (C70_conversion_kind_refuted); the description tells them apart.")

c("C71", "proved", "C71_error_is_first C71_read_through C71_unique C71_outcome C71_is_cause", "Files with a flaw of C13 are excluded; the specification is in FirstSpec.v.")
c("C72", "proved", "C72_sound C72_unique C72_outcome C72_total C72_break_is_flaw C72_release", "The specification is in OutSpec.v and excludes nothing but files of 2^62 bytes and more.")
c("C73", "proved", "C73_sound C73_unique C73_outcome C73_total C73_panics C73_same C73_checked", "The specification is in OutSpec.v. That reading does not always end is C14_release_refuted; here the files are characterised for which it does not. C73_total is stated without excluded middle: a file without end and without stop is read forever.")
c("C74", "proved", "C74_exact C74_bytes C74_all", "The condition is stays in ChunkSpec.v. It contains the sufficient conditions and the counterexamples of C04.")
c("C75", "proved", "C75_sound C75_unique C75_outcome C75_endless C75_checked C75_total C75_same C75_panics C75_capacity", "The specification is in WOutSpec.v. That writing does not always end without overflow checks is C42_release_refuted. C75_total is stated without excluded middle: without an outcome the scan is endless.")
c("C76", "proved", "C76_strings C76_unique C76_table C76_read_utf8 C76_read_utf16 C76_written C76_numbers C76_numbers_written C76_value", "The specification is in UnicodeSpec.v. That an odd last byte of a UTF-16 value is dropped is C34_utf16_odd_refuted. The conversions themselves belong to the standard library and are modelled from its documentation.")
c("C77", "proved", "C77_arguments C77_words C77_names C77_calls C77_tag C77_display C77_plural", "The macros are modelled in Macro.v as functions from the argument text to a list of methods whose bodies have holes filled with text; the specification is in MacroSpec.v. Parsing of the generated text by the compiler and the documentation comments are not modelled.")
c("C78", "proved", "C78_reading C78_scanning C78_read_decided C78_write_decided C78_steps", "The specification is in CycleSpec.v, over the places of OutSpec.v and WOutSpec.v. The number of steps in C78_steps is astronomical; it shows that the question is decidable, not that it is practical.")
c("C79", "proved", "C79_calls C79_file C79_repeated C79_getters", "C79_repeated is C79_file for files with repeated containers. The specification is in WireSpec.v; it spells out the codes and uses neither the constants nor the functions of the model. The hypotheses source and careful of C79_file are those of C37: no item called free, no UTF-16 text, no empty list of values (C37 shows that the file cannot be read otherwise).")
c("C80", "proved", "C80_covers C80_front C80_reach C80_same_length C80_mixed_refuted", "settles (PowerSpec.v) is any order, any part and any repetition of the calls; C80_covers shows that the failures of C09 are among these. C80_reach and C80_same_length are about arbitrary files. C80_mixed_refuted shows that C80_same_length cannot be improved to: the old or the new list.")
c("C81", "proved", "C81_bytes C81_calls C81_none C81_rest C81_behind C81_repeated C81_nothing_new_refuted", "handed (CostSpec.v) counts the bytes of the calls; cost and moves are sums over the boxes of LayoutSpec.v. C81_bytes, C81_calls, C81_none and C81_rest are about arbitrary files. C81_repeated is C81_behind for files with repeated containers. C81_nothing_new_refuted refutes, for every well-formed file: a write that changes nothing does not rewrite the media data.")
c("C82", "partial", "C82_file C82_more C82_well_formed C82_as_far C82_small_boxes C82_memory_refuted C82_end_refuted", "The wanted statement is false: 44 bytes are read as a tag from a Cursor and not from a file (C82_memory_refuted), and a file whose last atom is cut is not read from a reader that refuses places behind its end (C82_end_refuted). Everything else in the statement is proved for all readers.")
c("C83", "partial", "C83_atoms C83_absolute C83_relative C83_bytes C83_absolute_refuted C83_repeated", "C83_repeated says all of it also for files with repeated containers. The wanted statement is false: C83_absolute_refuted is a fragmented file whose fragment addresses bytes of the movie after writing. C83_absolute and C83_relative say for every file exactly which positions stay right; moof, traf and tfhd are described in FragSpec.v after ISO/IEC 14496-12, the library does not know them.")
c("C84", "proved", "C84_depends C84_one_pass C84_well_formed C84_any_media C84_scan C84_scan_one_pass C84_again_refuted", "trail (LookSpec.v) lists the stretches read and passed by the operations of ReadIO.v, which gives the same results as the model (C54, read_is, scan_is). C84_depends and C84_scan are about arbitrary bytes. C84_again_refuted shows that the assumption of C84_one_pass is needed.")
c("C85", "proved", "C85_read C85_range", "readable_items is defined in SurviveSpec.v. The witness of C85_range is the file a correct dump would produce, with UTF-16 texts announced at their right length.")
c("C86", "proved", "C86_item C86_containers C86_sums", "LenSum.v has the functions with 64-bit additions; the rest of the model takes the sums without limits.")
c("C87", "proved", "C87_written C87_read C87_repaired C87_forgotten", "The new sizes have to fit the size fields of the atoms that stay (good_sizes of the result).")
c("C88", "proved", "C88_written C88_read C88_twice C88_same C88_chunks_refuted", "Reading back is stated for files with one movie; with several the reader uses the first and the writer the last (finding s, C44). The last sentence of the statement is a refutation: C88_chunks_refuted.")
c("C89", "partial", "C89_copied C89_chain C89_dumped C89_back C89_utf16_refuted C89_exactly", "Proved for items without UTF-16 text; with it the statement is false (refuted). C89_exactly has it as an equivalence for targets that get the list as the last thing of the movie: the copy is right exactly if no UTF-16 text has a character.")
c("C90", "proved", "C90_place C90_written C90_left_over C90_chunks_kept C90_mended C90_read C90_locked", "The chunks stay addressed under the conditions of C04.")
c("C91", "proved", "C91_exactly C91_domain C91_written C91_untidy_refuted C91_long_refuted", "The last sentence of the statement are the two refutations: the layout and, without overflow checks, the size of the duration are needed.")
c("C92", "proved", "C92_sound C92_write_back C92_sessions C92_one_session C92_chunks C92_write_chunks C92_laid_out", "For operations without UTF-16 text, items called `free` and empty lists (C37) and files smaller than 4 GiB; chunks under the conditions of C04.")
c("C93", "proved", "C93_exact C93_rejected C93_one_meaning C93_tables C93_items C93_read C93_write", "Completeness of the test of C52, whose soundness gave only one direction.")
c("C94", "proved", "C94_tables C94_exact C94_bytes C94_all", "The condition is any_stays in ChunkLive.v. It extends C74 from files without repetitions to all well-formed files with sound tables, and covers the tables that are ignored.")
c("C95", "partial", "C95_alone C95_front C95_between C95_appended_refuted C95_two_writers C95_two_writers_refuted", "The others (Interfere.v) are a list of functions on the contents, one before each call. Two parts of the statement are false: what others do behind the movie is lost (C95_between, for all files and changes; C95_appended_refuted), and two writers can both succeed and leave a file none of whose chunk offsets is right, because the offsets are displaced by the growth of both (C95_two_writers for all files: the tag of the last writer is there, and the offsets are wrong by what the other added; C95_two_writers_refuted for a file that cannot be played any more). The rest is proved for all files with sound tables, repeated containers included.")
c("C96", "partial", "C96_alone C96_seen C96_kept C96_behind C96_written_before C96_torn_refuted C96_path_alone C96_path_kept C96_path_behind C96_path_torn_refuted", "The others are a list of functions on the contents, one before each operation of a reader without a buffer (SharedRead.v), one before each call of the operating system with a buffer (SharedBuf.v, C96_path_*). The last part of the statement is false (C96_torn_refuted, C96_path_torn_refuted): if another program writes a tag while the movie is read, the result can be a mixture of both tags, or an error. The rest is proved for all well-formed files.")
c("C97", "partial", "C97_alone C97_unnoticed C97_front C97_scanned C97_contents C97_tables_contents C97_tables_alone C97_fails C97_two_writers_refuted", "It extends C95 to the part of the call that reads (SharedScan.v). The last part of the statement is false (C97_two_writers_refuted): if another program makes the file shorter between the scan and the question for its length, the subtraction of mod.rs 451 panics; if it does so before the rest is read, the call succeeds and leaves a file that cannot be read. The rest is proved: C97_unnoticed for all byte strings, C97_front and C97_contents for all files with sound tables, repeated containers included. In SharedTables.v the others act while the tables of chunk offsets are read, too (C97_tables_*; C97_tables_alone covers calls that fail as well).")
props = [json.loads(l)["id"] for l in open(os.path.join(HERE, "..", "properties.jsonl"))]
done = {x["property"] for x in C}
for i in props:
    if i not in done:
        c(i, "partial", "", "Modelled; no theorem yet.")
C.sort(key=lambda x: x["property"])
names = set()
d = os.path.join(HERE, "..", "rocq", "theories")
for f in os.listdir(d):
    if f.endswith(".v"):
        names |= set(re.findall(r"^\s*Theorem\s+(\w+)", open(os.path.join(d, f)).read(), re.M))
listed = {t for x in C for t in x["theorems"]}
assert listed <= names, listed - names
missing = {n for n in names if re.match(r"C\d\d_", n)} - listed
assert not missing, missing
json.dump({"claims": C}, open(os.path.join(HERE, "..", "MANIFEST.json"), "w"), indent=1)
