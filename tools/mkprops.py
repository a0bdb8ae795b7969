#!/usr/bin/env python3
"""Generates /verif/properties.jsonl (kept as a script so that edits stay valid JSON)."""
import json, os
P = []
def p(id, title, statement, quantifier, why, anchors):
    P.append(dict(id=id, title=title, statement=statement, quantifier=quantifier,
                  why_tests_cant=why, anchors=anchors))

p("C01", "Written metadata is read back unchanged",
  "For every well-formed MP4 file with one movie atom, and every tag whose items have pairwise distinct identifiers, "
  "at least one value each, no non-empty UTF-16 value and no item named `free`, Tag::write_to succeeds and a later "
  "Tag::read_from of the resulting file returns exactly the items that were written: same identifiers, same order, same values.",
  "all well-formed files (any atoms, any nesting order, any sizes that still fit their length fields after the write) and all such tags",
  "tests use three sample files and two tags; the claim depends on where ilst/meta/udta/hdlr sit or are missing, on head sizes, and on every item kind",
  ["src/atom/mod.rs: write_tag_to, read_tag_from, AtomData::write, AtomData::parse", "src/atom/ilst.rs", "src/atom/meta.rs", "src/atom/udta.rs", "src/atom/moov.rs", "src/tag/mod.rs: Tag::write_to, Tag::read_from"])
p("C02", "Writing metadata keeps filetype and audio information",
  "After a successful write_to, read_from reports the same filetype string, duration, channel configuration, sample rate and maximum/average bitrate as read_from reported before the write.",
  "all well-formed files and all writable tags",
  "depends on every placement of mvhd/trak relative to the rewritten region and on the chunk table patches not touching other atoms",
  ["src/atom/mod.rs: read_tag_from, write_tag_to", "src/atom/mvhd.rs", "src/atom/mp4a.rs", "src/types.rs: AudioInfo"])
p("C03", "Everything that is not metadata is preserved byte for byte",
  "write_to changes only the item list, the sizes of its enclosing atoms, the chunk offset entries and (if it was missing) the metadata hierarchy itself: every other atom, known or unknown, keeps its head, its content bytes and its order; in particular all media data bytes are preserved.",
  "all well-formed files and writable tags; moreover every byte string without boxes of 2^63 bytes or more, well-formed or not, on which the write succeeds",
  "there are unboundedly many layouts of foreign atoms before, inside and after moov/udta/meta",
  ["src/atom/mod.rs: write_tag_to lines 403-526"])
p("C04", "Chunk offsets keep addressing the same media bytes",
  "After write_to, every chunk offset entry (stco and co64 of every track) addresses the same media bytes it addressed before the write.",
  "all well-formed files, all tracks, all table entries, all writable tags",
  "needs every relative position of mdat, trak and udta; a test with one sample layout cannot show the missed layouts",
  ["src/atom/mod.rs: write_tag_to lines 449-488, 520-523", "src/atom/stco.rs", "src/atom/co64.rs"])
p("C05", "Atom sizes stay consistent",
  "After write_to the file is again a well-formed atom tree: every atom's size field equals the length of what it contains, children exactly fill their parents and the top-level atoms exactly fill the file (no trailing garbage, no missing bytes).",
  "all well-formed files and writable tags whose result fits the size fields",
  "length bookkeeping (len_diff over four nested atoms, 32/64 bit heads) has unboundedly many combinations",
  ["src/atom/mod.rs: write_tag_to lines 440-447, 490-504", "src/atom/head.rs: Size, AtomBounds"])
p("C06", "Missing metadata hierarchy is created",
  "If the movie atom has no user data / metadata / handler / item list atom, write_to creates exactly the missing ones (a handler of subtype mdir/appl, an item list holding the tag), inside the existing parents and without disturbing their other children.",
  "all combinations of present and missing udta, meta, hdlr, ilst with arbitrary siblings",
  "case analysis over all combinations with arbitrary sibling lists",
  ["src/atom/mod.rs: write_tag_to lines 388-447, 506-518", "src/atom/meta.rs: Meta::hdlr"])
p("C07", "The last write wins and writing is idempotent",
  "Writing tag A and then tag B produces byte for byte the same file as writing only B; writing the same tag twice is the same as writing it once. Hence the result does not depend on the tag written before.",
  "all well-formed files and all pairs of writable tags smaller than 4 GiB whose writing keeps the chunk offsets in range",
  "relational property over two runs and all inputs",
  ["src/atom/mod.rs: write_tag_to"])
p("C08", "A failed write does not modify the file",
  "If write_to returns an error, the file content is the same as before the call.",
  "all byte strings as file content and all tags",
  "tests exercise successful writes only; the error may come after some tables were already patched",
  ["src/atom/mod.rs: write_tag_to lines 356-488", "src/atom/stco.rs: parse_atom", "src/atom/co64.rs: parse_atom"])
p("C09", "An interrupted write never damages media data in front of the movie atom",
  "If the process dies or an I/O error occurs at any point during write_to, all bytes in front of the movie atom (file type atom, media data stored before the movie atom) are unchanged. "
  "(Media data stored behind the movie atom enjoys no such protection: it is moved in place.)",
  "all well-formed files, all writable tags and all crash points: every prefix of the sequence of write/truncate calls, including partially executed writes; moreover arbitrary byte strings and every outcome of the call",
  "crash points cannot be enumerated by tests",
  ["src/atom/mod.rs: write_tag_to lines 449-523 (order of BufWriter flushes and File::set_len)"])
p("C10", "A dumped tag is read back unchanged",
  "Tag::dump_to writes a byte stream from which Tag::read_from returns exactly the tag's items, the filetype `M4A `.. and empty audio information.",
  "all writable tags whose dump fits the size fields",
  "all item kinds, sizes and multiplicities",
  ["src/atom/mod.rs: dump_tag_to", "src/tag/mod.rs: Tag::dump_to"])
p("C11", "Announced lengths equal the bytes actually written",
  "For every item and every container the length announced by len() (and stored in the size field) equals the number of bytes write() produces.",
  "all items, values, item lists and nestings",
  "one wrong length corrupts everything behind it; holds for every payload size or not at all",
  ["src/atom/mod.rs: AtomData::len, AtomData::write", "src/atom/data.rs: Data::len, Data::write_raw", "src/atom/head.rs: Size::from", "src/atom/ilst.rs", "src/atom/hdlr.rs"])
p("C12", "UTF-16 values survive a write/read cycle",
  "A tag containing Data::Utf16 values can be written and is read back with the same strings, like any other value.",
  "all strings",
  "no test writes UTF-16 data",
  ["src/atom/data.rs: Data::len, Data::write_raw, ReadData::read_utf16"])
p("C13", "Reading never panics",
  "Tag::read_from returns Ok or Err for every byte stream; it never panics. In particular it does not panic on well-formed files.",
  "all byte strings, debug and release arithmetic",
  "inputs are unbounded; fuzzing only samples",
  ["src/atom/mvhd.rs: parse_atom", "src/atom/head.rs: Size::content_len", "src/atom/mp4a.rs", "src/atom/data.rs: read_u8_vec"])
p("C14", "Reading always terminates",
  "Tag::read_from terminates for every byte stream, in both build profiles.",
  "all byte strings, debug and release arithmetic",
  "a hang is triggered by a particular 64-bit length that sampling does not hit; termination is a statement over all inputs",
  ["src/atom/head.rs: parse_head, Size::content_len", "src/atom/mod.rs: read_tag_from", "src/atom/moov.rs"])
p("C15", "Reading returns exactly what a well-formed file encodes",
  "For every well-formed file read_from succeeds and returns the filetype string, the duration of the movie header, the audio parameters of the first track that has an mp4a description, and the items of the item list.",
  "all well-formed files",
  "universally quantified over file layouts and contents",
  ["src/atom/mod.rs: read_tag_from, AtomData::parse", "src/atom/*.rs: parse_atom"])
p("C16", "Foreign atoms and 64-bit heads are transparent to readers",
  "Inserting, removing or changing atoms the library does not know, at any level, and switching any atom between 32-bit and 64-bit size fields does not change what read_from returns.",
  "all well-formed files that differ only in foreign atoms and head formats",
  "relational property over unboundedly many insertions",
  ["src/atom/head.rs: parse_head", "src/atom/mod.rs", "src/atom/ilst.rs (FREE)"])
p("C17", "Repeated items are merged on reading",
  "When the item list contains several items with the same identifier, read_from returns one item at the position of the first one, whose values are the values of all of them in file order; `free` items are skipped; no value is lost or duplicated.",
  "all item lists",
  "arbitrary numbers and interleavings of repeated identifiers",
  ["src/atom/ilst.rs: parse_atom", "src/atom/mod.rs: AtomData::parse"])
p("C18", "A tag never holds two items with the same identifier",
  "Starting from Tag::default or from any tag returned by read_from, no sequence of public Tag operations produces a tag with two items of the same identifier.",
  "all operation sequences and all readable byte streams",
  "all histories",
  ["src/tag/mod.rs: set_data, set_all_data, add_data, add_all_data, take_data_of, remove_data_of, retain_data_of, retain_data, clear", "src/atom/ilst.rs"])
p("C19", "A tag behaves like an ordered map from identifiers to value lists",
  "data_of returns what was last set/added for that identifier: set_data/set_all_data replace, add_data/add_all_data append, remove_data_of/take_data_of delete, clear deletes everything; operations on one identifier never change the values of another nor the relative order of the other items. Every other public operation (typed accessors, artwork, track, disc, genres, in-place mutation) is a fixed ordered-map operation storing values with documented type codes: strings as UTF-8, flags and integers as big-endian signed, everything else as reserved bytes.",
  "all operation sequences, all identifiers (four character codes and freeform mean/name pairs) and values",
  "all histories",
  ["src/tag/mod.rs: Data accessors"])
p("C20", "Single string accessors",
  "After set_x(s), x() returns s and take_x() returns s and leaves x() empty; remove_x() leaves x() empty; for all twelve single string accessors.",
  "all tags, strings and accessors", "all prior tag states",
  ["proc/src/lib.rs: single_string_value_accessor", "src/tag/mod.rs lines 128-140"])
p("C21", "Multi string accessors",
  "set_xs(l) makes xs() return l, x() its head; add_x/add_xs append to what xs() returned; take_xs returns all and empties; remove_xs empties; for all ten multi string accessors.",
  "all tags, string lists and accessors", "all prior tag states",
  ["proc/src/lib.rs: multiple_string_values_accessor", "src/tag/mod.rs lines 142-152"])
p("C22", "Flag accessors",
  "A flag is reported true after set_x and false after remove_x, and is false for a tag without the item; set_x stores exactly the one byte 1 typed big-endian signed.",
  "all tags and the three flags", "all prior tag states",
  ["proc/src/lib.rs: flag_value_accessor"])
p("C23", "Integer accessors",
  "After set_x(n), x() returns n for every 16-bit (bpm, movement count/index) respectively 32-bit (tv episode/season) n; absent or too short values are reported as None, and no read is ever out of bounds.",
  "all tags, all 2^16 / 2^32 values and all stored byte strings", "value range and prior states",
  ["proc/src/lib.rs: u16_value_accessor, u32_value_accessor", "src/atom/data.rs: be_int!"])
p("C24", "Track and disc numbers",
  "set_track(n,t) makes track() return (n,t) with 0 reported as absent; set_track_number/set_total_tracks change only their half; remove_track_number/remove_total_tracks remove only their half; remove_track removes both; same for disc; and further bytes stored in the item are kept.",
  "all tags (including malformed stored byte strings of any length) and all 16-bit numbers", "stored bytes may have any length",
  ["src/tag/tuple.rs", "src/atom/data.rs: be_int!, set_be_int!"])
p("C25", "Removing the last half of a track/disc pair removes the item",
  "Removing the track number of a tag without total tracks (or vice versa) removes the `trkn` item, so that a tag that held nothing else becomes empty; same for disc.",
  "all tags", "the existing test only looks at track(), not at the item",
  ["src/tag/tuple.rs: remove_track_number, remove_total_tracks, remove_disc_number, remove_total_discs"])
p("C26", "Genre accessors",
  "genres() lists the names of the known standard genre codes (1..80) followed by the custom genres; genre() is the first of genres(); set_genre(s) makes genres() return exactly [s]; remove_genres empties it; take_genre removes the custom genres and returns the first genre.",
  "all tags, all 16-bit codes, all strings", "all prior tag states and stored byte strings",
  ["src/tag/genre.rs"])
p("C27", "Media type and advisory rating",
  "After set_media_type(m)/set_advisory_rating(r), media_type()/advisory_rating() return m/r; unknown media type codes are reported as None, every advisory code other than 0 and 2 as explicit. For any tag the first byte of the first stored byte string decides, whatever follows.",
  "all tags, all enum values, all 256 stored codes", "all prior tag states",
  ["src/types.rs: MediaType, AdvisoryRating", "src/tag/mod.rs lines 252-312"])
p("C28", "Artwork accessors",
  "set_artwork/set_artworks/add_artwork(s)/take_artwork(s)/remove_artworks store, append, return and delete images together with their format; artworks() never returns non-image values.",
  "all tags, image lists and formats", "all prior tag states",
  ["src/tag/mod.rs lines 168-213", "src/atom/data.rs: From<Img>, image"])
p("C29", "retain and typed removal",
  "retain_data/retain_data_of and their typed variants keep exactly the values satisfying the predicate (in order), never touch values of other types or identifiers, and never leave behind an item without values they emptied; remove_bytes_of/strings_of/images_of remove exactly the values of that type.",
  "all tags and predicates", "in-place index loops over arbitrary lists and arbitrary predicates",
  ["src/tag/mod.rs: retain_data_of, retain_data, remove_bytes_of, ..."])
p("C30", "Named accessors do not interfere",
  "Each named accessor works on the item documented for it, all named accessors use pairwise different items, so changing one never changes the result of another.",
  "all pairs of named accessors, all tags and arguments", "number of pairs times all states",
  ["src/tag/mod.rs lines 128-165", "src/atom/ident.rs", "proc/src/lib.rs: base_values"])
p("C31", "Duration",
  "The reported duration is floor(duration * 10^9 / timescale) nanoseconds for every movie header of version 0 with non-zero time scale and for every version 1 header for which the product fits 64 bits.",
  "all 32-bit and 64-bit durations and time scales", "value range",
  ["src/atom/mvhd.rs"])
p("C32", "Audio parameters",
  "Sample rate and channel configuration are decoded from bits 5-8 and 9-12 of the decoder specific descriptor, bitrates from the decoder config descriptor, for every descriptor layout (1-4 byte descriptor lengths, additional descriptors); reserved indices are reported as None; the reported frequencies and channel counts are those of the MPEG-4 tables.",
  "all descriptor contents and encodings", "2^16 contents times all layouts",
  ["src/atom/mp4a.rs", "src/types.rs: ChannelConfig, SampleRate"])
p("C33", "Streams that are not MP4 or have no movie atom are rejected without side effects",
  "A stream whose first atom is not ftyp is rejected with NoTag by read_from and write_to; a well-formed atom sequence without moov is rejected with AtomNotFound(moov) by both; write_to leaves such files untouched.",
  "all such byte streams", "all inputs",
  ["src/atom/ftyp.rs", "src/atom/mod.rs: read_tag_from, write_tag_to"])
p("C34", "Strings are decoded exactly",
  "A UTF-8 value, mean, name or filetype is accepted iff the bytes are the UTF-8 encoding of a sequence of Unicode scalar values, and then that sequence is returned; UTF-16 values likewise from big-endian code units.",
  "all byte strings and all strings", "all inputs",
  ["src/atom/data.rs: read_utf8, read_utf16, write_raw"])
p("C35", "Atom heads are encoded and decoded faithfully",
  "Every atom head (32-bit or 64-bit length, any fourcc) that write_head produces for a representable length is parsed back to the same length, kind and identifier; Size::from chooses the 64-bit form exactly when the 32-bit form cannot represent the length; short lengths (0,2..7) are rejected.",
  "all lengths and identifiers", "2^64 lengths",
  ["src/atom/head.rs"])
p("C36", "Debug and release builds agree on well-formed files",
  "On well-formed files reading and writing give the same result with overflow checks enabled and disabled (no arithmetic in either path overflows).",
  "all well-formed files and writable tags", "all inputs, two semantics",
  ["src/atom/head.rs", "src/atom/mod.rs"])
p("C37", "Any tag built through the public API can be written and read back",
  "For every tag reachable through public operations, writing it to a well-formed file yields a file from which the tag can be read again.",
  "all operation sequences", "all histories",
  ["src/tag/mod.rs: set_all_data, add_all_data", "src/atom/mod.rs: AtomData::parse"])
p("C38", "Reading a tag and writing it back does not change the metadata",
  "For every well-formed file (without UTF-16 values), reading the tag and writing it back to the same file yields a file that reads back as the same tag; doing it once more does not change a single byte.",
  "all well-formed files", "all inputs",
  ["src/atom/mod.rs: read_tag_from, write_tag_to"])
p("C39", "A file handle can be read from and then written to",
  "Reading a tag from an open file handle and writing it back through the same handle works like the path based functions.",
  "all well-formed files", "the tests only use the path based functions",
  ["src/tag/mod.rs: read_from, write_to", "src/atom/mod.rs: write_tag_to line 357"])
p("C40", "Iterators agree with each other",
  "data() enumerates every value exactly once in item order with its identifier; bytes()/strings()/images() are its typed sub-sequences, together they cover all values; take_* yield the same sequences by value; data_of(i) is the sub-sequence with identifier i; is_empty holds iff there is no item.",
  "all tags", "all states",
  ["src/tag/mod.rs: data, bytes, strings, images, take_data, take_bytes, take_strings, take_images"])
p("C41", "Typed values are encoded and decoded faithfully",
  "Writing a value (type code and payload) and parsing it back yields the same value for every kind except non-empty UTF-16 length accounting; unknown type codes are rejected with UnknownDataType and nothing else is.",
  "all values and type codes", "all payloads, 2^24 codes",
  ["src/atom/data.rs: write_typed, parse"])
p("C42", "Writing always terminates",
  "Tag::write_to terminates for every file content and every cursor position, in both build profiles.",
  "all byte strings, cursor positions, items, debug and release arithmetic",
  "termination is a statement over all inputs; the hang needs a particular 64-bit length",
  ["src/atom/mod.rs: write_tag_to lines 356-376", "src/atom/head.rs: Size::content_len, seek_to_end", "src/atom/moov.rs: find_atom"])
p("C43", "Writing never panics",
  "Tag::write_to returns Ok or Err for every file content; it never panics. In particular it does not panic on well-formed files.",
  "all byte strings, items, debug and release arithmetic",
  "inputs are unbounded; fuzzing only samples",
  ["src/atom/mod.rs: write_tag_to lines 447-454 (old_file_length - moved_data_start)"])
p("C44", "Reading and writing agree on which movie atom holds the metadata",
  "For every file that can be read and whose update succeeds, a later read returns the items written, even if the file has more than one movie atom.",
  "all files, items",
  "files with several movie atoms do not occur in the test data",
  ["src/atom/mod.rs: read_tag_from lines 299-353, write_tag_to lines 363-387"])
p("C45", "The text of a tag shows what the accessors return",
  "Reading the text that Display produces for a tag back line by line gives exactly the values of the accessors: every single string, every list of strings in order, every integer, track and disc with totals, every flag, media type, rating and file type, and nothing for absent items.",
  "all tags whose strings contain no line feed, all Debug texts without line feeds",
  "the text depends on 50 accessors; the tests do not look at it",
  ["src/tag/mod.rs: impl Display for Tag", "proc/src/lib.rs: format_*", "src/tag/tuple.rs: format_track, format_disc", "src/types.rs: Display"])
p("C46", "Amounts in the text are rounded down to a unit",
  "The displayed duration, bitrates and artwork sizes are the exact amounts rounded down to the displayed unit; the unit is the coarsest in which the amount is not zero; sample rate and channels are shown exactly.",
  "all durations, rates and images", "2^64 durations, all image sizes",
  ["src/tag/readonly.rs: format_duration, format_avg_bitrate", "src/tag/mod.rs: format_artworks"])
p("C47", "The text of a tag has a fixed order and shows every freeform item",
  "The text consists of the documented headings in a fixed order, each at most once, then every freeform item in order with all its values, then the file type.",
  "all tags whose strings contain no line feed", "all tags",
  ["src/tag/mod.rs: impl Display for Tag", "src/atom/data.rs: Debug for Data", "src/atom/ident.rs: Display for DataIdent"])
p("C48", "The text of a tag shows all genres",
  "The genres in the text of a tag are exactly those returned by genres().",
  "all tags whose strings contain no line feed", "the failure needs an unknown standard genre code",
  ["src/tag/genre.rs: format_genres, genre, genres"])

p("C49", "Failures of the device while writing are reported",
  "If no call to the operating system fails then short and interrupted writes, and the file cursor shared by reader and writer, make no difference "
  "to the result of write_to and to the file. If one fails then the call returns an error or has the result it has without the failure; "
  "if it returns Ok then the file is the one written without failures.",
  "all files, tags, buffer capacities, profiles and all patterns of failures, short writes, interruptions and cursor movements",
  "needs failure injection at every system call of every execution",
  ["src/atom/mod.rs: write_tag_to"])
p("C50", "What a failing write leaves behind",
  "Whichever calls to the operating system fail, the file left behind is one that an interruption of the undisturbed write could leave, except that after a failing "
  "change of the file length the size field changed last may still get stored. Everything in front of the movie atom is unchanged.",
  "all files, tags, buffer capacities and all patterns of failures (the second sentence: files without boxes of absurd size, or well-formed files)",
  "needs failure injection at every system call of every execution, including those made while the writer is dropped",
  ["src/atom/mod.rs: write_tag_to"])

p("C51", "Repeated sessions add up",
  "Take any number of sessions, each of which reads the tag of the file, changes it by public operations and writes it back. If the operations give no item the name free, "
  "store no UTF-16 text and no empty list of values, then all sessions succeed; the tag read in the end is the first tag changed by all the operations in order (as operations on "
  "an ordered map); file type and audio information are those of the first file; the file equals the one a single session with all the operations makes; "
  "and every chunk still addresses the media bytes it addressed at first.",
  "all well-formed files below 4 GiB, all sequences of sessions, build profiles and buffer capacities (chunks: under the conditions of C04)",
  "quantifies over sequences of sequences of operations and over all files",
  ["src/tag/mod.rs", "src/atom/mod.rs: read_tag_from, write_tag_to"])

p("C52", "Guarantees whose assumptions can be evaluated",
  "There is a computable test for files. If it accepts the bytes of a file then reading returns the tag it finds, writing items that pass a second test "
  "succeeds and the items are read back with the same file type and audio parameters; if a third test passes then every chunk of media data is found again.",
  "all byte strings, items, buffer capacities and profiles",
  "the tests check single files; the implication is for all files (the sample files of the crate pass all three tests)",
  ["src/atom/mod.rs: read_tag_from", "src/atom/mod.rs: write_tag_to", "tests/test.rs"])

p("C53", "Failures of the device while reading are reported",
  "If no call to the operating system fails then short and interrupted reads make no difference to the result of read_from. If one that is made fails then an error of the device "
  "is returned, never a tag. Which operations are asked of the reader does not depend on the device, and each of them is checked. The same holds for the scan that precedes writing.",
  "all byte strings, profiles and all patterns of failures, short reads and interruptions",
  "needs failure injection at every system call of every execution",
  ["src/atom/mod.rs: read_tag_from", "src/atom/data.rs: ReadData", "src/atom/head.rs"])
p("C54", "Memory requested while reading",
  "No byte buffer requested while reading is larger than the file, unless it is the last one and reading fails. All buffers of a successful read of a well-formed file together are at most four "
  "times the file plus five bytes. Wanted but false: the size of every buffer is limited by the size of the file.",
  "all byte strings and profiles (sum: well-formed files)", "tests do not observe allocations; the failure needs a file that announces more than it has",
  ["src/atom/data.rs: read_u8_vec, read_utf8, read_utf16"])
p("C55", "The effort of reading",
  "The number of operations on the reader plus the number of bytes read is at most four times the length of the file plus five: for well-formed files, with overflow checks for all files "
  "without 64-bit sizes of 2^63 or more, and in any case for all runs that never seek backwards. The same holds for the scan that precedes writing. Wanted but false: the bound holds for all files.",
  "all byte strings below 2^62 bytes, profiles", "the failure needs a length that makes the reader seek backwards; a test of it would not end",
  ["src/atom/head.rs: seek_to_end, find_bounds", "src/atom/mod.rs: read_tag_from", "src/atom/udta.rs"])

p("C56", "Everything read is in the file",
  "Whenever reading succeeds, whatever the file: every item returned is an atom of the file that contains its values, namespace and name; the file type is the content of the first atom; the duration "
  "is computed from a movie header in the file; the audio parameters are those of descriptors in the file. Nothing is invented. In files without 64-bit sizes of 0 or from 2^63 on the items come in the order "
  "of the file and no part of the file is used for two values.",
  "all byte strings (order: below 2^62 bytes, without such sizes) and profiles", "tests read files that a correct program wrote; what a malformed file can make the reader return is not tested",
  ["src/atom/mod.rs: read_tag_from, AtomData::parse", "src/atom/ilst.rs", "src/atom/mvhd.rs", "src/atom/mp4a.rs", "src/atom/ftyp.rs"])
p("C57", "A tag is not larger than its file",
  "The bytes of all values of a tag, plus twelve per value, are at most the length of the file it was read from. Wanted for all files, true for those without 64-bit sizes of 0 or from 2^63 on; false in general: "
  "there is a file of 93 bytes, for each number, from which a tag with that many values is read.",
  "all byte strings below 2^62 bytes without such sizes; the counterexample is for all numbers of copies", "the failure needs an atom whose size makes the reader seek backwards",
  ["src/atom/ilst.rs: parse_atom", "src/atom/mod.rs: AtomData::parse", "src/atom/head.rs: Head::content_len"])

p("C58", "Buffering makes no difference",
  "Reading through a buffering reader (std's BufReader), whatever its capacity and whatever it holds already, has the result of reading from memory: the tag, the scan of the writer, a chunk offset table, the rest of the file. "
  "Short and interrupted reads do not matter; if a call of the device fails, that is what is reported.",
  "all byte strings below 2^63 bytes, all capacities including 0, all sequences of short, interrupted and failing calls", "tests read small files through one buffer that holds them entirely",
  ["src/tag/mod.rs: read_from_path", "src/atom/mod.rs: write_tag_to", "src/atom/data.rs: ReadData", "src/atom/data.rs: remaining_stream_len"])
p("C59", "Cut files are not misread",
  "A file that is cut short anywhere is reported as ending early or as having no movie atom, or it is read as the same tag as the whole file. What is reported for a file, other than these two errors, is also reported if anything is appended to it.",
  "all byte strings, all positions where they are cut, all bytes appended", "tests use complete files",
  ["src/atom/mod.rs: read_tag_from", "src/atom/head.rs: parse_head", "src/atom/data.rs: remaining_stream_len"])
p("C60", "Dumping to a failing device",
  "Tag::dump_to reports success only if everything was stored; if a call fails that is reported, and what is stored is a proper initial part, which is not read as another tag. Short and interrupted writes make no difference. Any initial part may be left behind.",
  "all lists of items, all sequences of short, interrupted and failing calls", "tests write to files on a device that works",
  ["src/atom/mod.rs: dump_tag_to", "src/tag/mod.rs: dump_to"])
p("C61", "Paths",
  "The functions that take a path do to the file there what the functions on readers and writers do, and touch no other file. Reading or writing a file that is not there is an error and creates nothing. What is written or dumped to a path is read from it. "
  "Wanted too: a dump that fails keeps what was there; this is false, the file is emptied first.",
  "all file systems (maps from paths to contents), paths and sequences of failing calls", "tests use one path at a time and no failures",
  ["src/tag/mod.rs: read_from_path", "src/tag/mod.rs: write_to_path", "src/tag/mod.rs: dump_to_path"])

p("C62", "Every system call of writing can fail",
  "For write_tag_to with every call that its BufReader and its BufWriter make on the file they share: if no call fails then short and interrupted calls, the capacities of both buffers, how std asks for the rest of the file and the shared cursor "
  "make no difference. If a call fails that is reported, or it did not matter; success means that the file is the intended one. A failure leaves a file that an interruption can leave, or one in which the length was not changed and a size field was. "
  "Everything in front of what looks like the first movie atom is as before.",
  "all byte strings below 2^63 bytes, items, capacities, profiles and sequences of short, interrupted and failing calls", "needs failure injection at every system call of every execution",
  ["src/atom/mod.rs: write_tag_to", "src/tag/mod.rs: write_to_path", "src/atom/stco.rs", "src/atom/co64.rs"])

p("C63", "Errors of reading have a cause in the file and name it",
  "Whatever error Tag::read_from ends with, a place of the file that the reader visits has the cause of this kind: a head that is cut off, a size below 8, an unknown version, a value that is not text, a missing data, esds or moov atom, ... "
  "And the description is the names of the atoms around the place, the outermost first, followed by what is wrong there. So a file without any of these causes, and without the flaws of C13, is read.",
  "all byte strings below 2^62 bytes, both build profiles", "tests check the error of one or two bad files and never the description",
  ["src/atom/mod.rs: ParseAtom::parse", "src/atom/head.rs: parse_head", "src/atom/mod.rs: read_tag_from", "src/atom/mod.rs: AtomData", "src/atom/mp4a.rs", "src/error.rs"])

p("C64", "Exactly the files with a cause are not read",
  "The converse of C63: if a visited place of a file has one of the causes then the file is not read. So reading a file without the flaws of C13 ends, in both profiles, with a tag if the file has no cause and with an error if it has one; if all causes are of one kind, with this error.",
  "all byte strings below 2^62 bytes, both build profiles", "no test can show that every bad file is rejected",
  ["src/atom/mod.rs: read_tag_from", "src/atom/head.rs: parse_head", "src/atom/data.rs", "src/atom/mp4a.rs"])

p("C65", "Errors of writing have a cause in the file and name it, and exactly the files with a cause are not written",
  "As C63 and C64 for writing: whatever error write_tag_to ends with, the file has the cause at a place that the writer visits, and the description is the names of the atoms around it and what is wrong there. "
  "If nothing makes the writer panic (C43), it fails if and only if the file has one of the causes. A chunk offset table is never cut off: tables are only read if there is media data behind them.",
  "all byte strings below 2^62 bytes, items below 2^61 bytes, buffer capacities, both build profiles", "tests write to well-formed files only",
  ["src/atom/mod.rs: write_tag_to", "src/atom/mod.rs: FindAtom::find", "src/atom/head.rs: parse_head", "src/atom/stco.rs", "src/atom/co64.rs"])

p("C66", "The file after writing, byte by byte",
  "For an arbitrary file in which nothing makes the writer panic (C43) or fail (C65), writing succeeds and the file is exactly: its old bytes with the new item list (and handler, metadata, user data where these are missing) in the place of the last item list of the last metadata of the last user data of the last movie, "
  "or at the end of the innermost of them that exists; the size fields of these atoms changed by the difference of the lengths; and, if the last media data is behind the movie, every offset of the last table of each kind of each track changed by it. Nothing else is changed. "
  "An error leaves the file as it was, or with the tables before the first unsound one adjusted.",
  "all byte strings below 2^62 bytes, items below 2^61 bytes, buffer capacities, both build profiles", "needs the whole output for every input, well-formed or not",
  ["src/atom/mod.rs: write_tag_to", "src/atom/mod.rs: update_atom_len", "src/atom/mod.rs: FindAtom::find", "src/atom/stco.rs", "src/atom/co64.rs"])

p("C67", "The tag that is read, from an arbitrary file",
  "Whatever bytes a file consists of: the tag that is read from it is the one its boxes say by a declarative specification. The file type is the content of the first box; the items are those of the last item list of the last metadata of the last user data of the first movie, "
  "each with all its values and its last namespace and name, those of the same name merged in order; the duration is that of the last movie header; the audio parameters are those of the last audio sample entry of the first track that has one, the bitrates from its last decoder configuration and the channels and the rate from the last specific configuration. Boxes end where they announce, even if they are larger than the box around them. "
  "The specification allows at most one tag, and a tag is read if and only if the specification allows it and the file has no cause for an error (C64), unless a flaw of C13 makes the reader panic.",
  "all byte strings below 2^62 bytes, both build profiles", "needs the result of reading every possible byte string, including malformed ones",
  ["src/atom/mod.rs: read_tag", "src/atom/head.rs", "src/atom/moov.rs", "src/atom/ilst.rs", "src/atom/data.rs", "src/atom/mp4a.rs", "src/atom/mvhd.rs"])

p("C68", "Values by type code",
  "The predicates on a value say which of the type codes of the file format it has, every value belongs to exactly one of the families bytes, text and image, and an accessor returns the stored content exactly for values of its family. A value made from an image is the only one that gives the image back. "
  "A value is empty if nothing is stored for it, an item if this holds for all its values. Assigning to the content of a value changes only values of the family and never a type.",
  "all values, images and assignments", "values and contents are unbounded; tests use a few of each",
  ["src/atom/data.rs: Data", "src/types.rs: Img, ImgFmt", "src/atom/mod.rs: AtomData::is_empty"])
p("C69", "Identifiers implemented by callers",
  "The methods of a tag that take an identifier work with every implementation of the trait Ident: those that look up, change, take, retain, set or add use the first item the identifier calls equal and leave all others as they are, and if there is none setting and adding append an item with the converted identifier. Removal keeps exactly what the identifier calls unequal. "
  "An identifier that is equal exactly to its own conversion acts as that DataIdent, which holds for all identifiers of the crate. If an identifier at least calls its own conversion equal, the identifiers in the tag stay distinct and what was set is found; if it does not, neither holds.",
  "all implementations (as functions), all tags and values", "implementations of the trait cannot be enumerated",
  ["src/atom/ident.rs: Ident", "src/tag/mod.rs: data_of, data_mut_of, take_data_of, remove_data_of, retain_data_of, set_data, set_all_data, add_data, add_all_data"])
p("C70", "Errors and identifiers as text; conversions from numbers",
  "The text of an error starts with the name of its kind and ends with its description, and determines both, including the identifier or number the kind carries, unless the kind carries an error of the standard library, whose text can be anything. The text of an identifier determines it. "
  "The conversions from numbers to channel configurations, sample rates and media types accept exactly the numbers of the tables, and the error of a failed conversion says which one failed and carries the number.",
  "all errors, descriptions, identifiers and numbers", "injectivity is about all pairs of texts",
  ["src/error.rs", "src/atom/ident.rs: Display", "src/types.rs: TryFrom"])

p("C71", "The first flaw of a file decides the error of reading it",
  "Go through the boxes of a file in order, into containers and out of them, checking each part in the order in which it is needed. If a part is wrong, reading ends with the error of the first such part, whose text names the containers around it; a file that may have several causes of errors has exactly one first flaw. If nothing is wrong up to the end of the movie, the file is read. In files without the flaws of C13.",
  "all byte strings below 2^62 bytes without a flaw of C13, both overflow profiles, sufficient fuel",
  "Which of several defects is reported depends on the order of checks in every parsing function; tests use files with one defect.",
  ["src/atom/mod.rs: read_tag", "src/atom/head.rs", "src/atom/ftyp.rs", "src/atom/moov.rs", "src/atom/ilst.rs", "src/atom/data.rs", "src/atom/mvhd.rs", "src/atom/mp4a.rs", "src/error.rs"])

p("C72", "Every file has exactly one outcome, panics included",
  "Go through the boxes of any file in order, as in C71, but follow the position and the sums of sizes the way 64-bit arithmetic with overflow checks does: boxes whose size moves the position back, sizes below the head, sums that overflow, values too large to allocate, time scales of 0. Every file of less than 2^62 bytes either leads to the end of its movie or is stopped by exactly one thing, and the reader built with overflow checks returns a tag, or that error with that text, or panics in that way, accordingly. Without overflow checks the outcome is the same unless it is an overflow panic.",
  "all byte strings below 2^62 bytes, sufficient fuel",
  "The outcome depends on combinations of 64-bit sizes at every nesting level; no test suite covers the files that overflow.",
  ["src/atom/mod.rs: read_tag", "src/atom/head.rs", "src/atom/ftyp.rs", "src/atom/moov.rs", "src/atom/ilst.rs", "src/atom/data.rs", "src/atom/mvhd.rs", "src/atom/mp4a.rs", "src/error.rs"])

p("C73", "What a release build does with any file, and which files it reads forever",
  "Follow the position and the sums of sizes as in C72, but let 64-bit arithmetic wrap, as it does without overflow checks. Then every file of less than 2^62 bytes leads to the end of its movie, is stopped by exactly one thing, or lets the reader take any number of steps, either from box to box or within one item; these exclude each other, and there is no fourth possibility. The reader built without overflow checks returns a tag, or that error with that text, or panics in that way, or never returns, accordingly. Its only panics are divisions by zero and allocations that are too large. Whatever the reader with overflow checks ends with, except an overflow panic, is also what the one without ends with, and the one with overflow checks never reads forever.",
  "all byte strings below 2^62 bytes, any fuel",
  "Non-termination cannot be observed by a test, and the wrapped sizes that make the reader jump are never produced by encoders.",
  ["src/atom/mod.rs: read_tag", "src/atom/head.rs", "src/atom/ftyp.rs", "src/atom/moov.rs", "src/atom/ilst.rs", "src/atom/data.rs", "src/atom/mvhd.rs", "src/atom/mp4a.rs", "src/error.rs"])
p("C74", "Exactly which chunk offsets still point to the same media bytes",
  "C04 is false in general; this says for every single chunk offset whether it stays right. After writing to a well-formed file, an offset that points into media data still points to the same place of the same media data atom if and only if: it is in a table of a track in front of the user data, media data follows the movie, and either the media data is behind the movie and the sum of offset and displacement fits the entry, or it is in front and the displacement is a multiple of the range of the entry; or it is not adjusted because its track is behind the user data, and the media data is in front of the movie or not displaced; or no media data follows the movie. If it stays right the bytes of the chunk are the same.",
  "all well-formed files that can be updated, all items, all tables, entries and media data atoms, both build profiles",
  "Which offsets are broken depends on the order of tracks, user data, movie and media data, on their sizes, and on wrapping near 2^32.",
  ["src/atom/mod.rs: write_tag_to", "src/atom/stco.rs", "src/atom/co64.rs", "src/atom/moov.rs"])
p("C75", "What writing does to any file: result, text and bytes, panics and endless scans included",
  "Follow the writer from box to box: the position, the sums of sizes, and the boxes noted on the way, with 64-bit arithmetic that is checked or wraps. Then every file of less than 2^62 bytes and every list of items, however large, leads to exactly one outcome: a result, an error with its text or a panic, together with the bytes of the file that are left, or, only without overflow checks, the boxes are looked for forever. This covers tables that overlap other boxes, offsets that do not fit, sizes that overflow when only some of them are written, lengths the device refuses, items whose size does not fit in 32 bits, and the size that is still in the buffer while the length of the file is set. The outcome does not depend on the capacity of the buffer. Without overflow checks the only panic is an allocation that is too large; whatever happens with checks, except an overflow panic, also happens without.",
  "all byte strings below 2^62 bytes, all lists of items, any fuel, both build profiles, any buffer capacity above 8 bytes",
  "The partial states left by a panic in the middle of a table or between two sizes, and scans that never end, do not occur with files made by encoders.",
  ["src/atom/mod.rs: write_tag_to", "src/atom/head.rs", "src/atom/stco.rs", "src/atom/co64.rs", "src/atom/ilst.rs", "src/atom/meta.rs", "src/atom/udta.rs", "src/atom/moov.rs", "src/error.rs"])
p("C76", "Text and numbers in files mean what the standards say",
  "The bytes of a UTF-8 text are accepted if and only if they are a sequence of the rows of table 3-7 of the Unicode standard, and then they are read as the sequence of scalar values whose bit patterns (table 3-6, shortest forms, no surrogates) they are; UTF-16 is read and written as big-endian units with surrogate pairs (table 3-5); every sequence of scalar values has exactly one spelling in each encoding, which is the one written; integers of one, two, four and eight bytes are the binary digits of their bytes in order.",
  "all byte strings, positions, lengths below 2^63 and texts; all places of a UTF-8 value in a well-formed file",
  "1.1 million scalar values and all byte strings; the tests use ASCII almost only; the other theorems take the encoders as their vocabulary, so that an encoder and decoder wrong in the same way would not be noticed",
  ["src/atom/data.rs: read_u8, read_u16, read_u32, read_u64, read_utf8, read_utf16, Data::write_raw"])

p("C77", "The generated accessors are the methods their table promises",
  "Every argument text of an accessor macro is either accepted, with two non-empty values (split at commas, blanks around and all quotation marks removed, a third piece only if blank), or refused with one of four messages, never both. The methods of one invocation have different names whatever the identifier is, and exactly format_... is private; names, labels, plurals and the path to the identifier are formed as specified (two identifiers share a plural only if one ends in y and the other in ie). The thirty invocations of the library are accepted, their methods all have different names, each accessor has exactly the methods of its kind, and each method called by its name reads or changes the item with the code its documentation names, as the accessor functions of the tag do; the format_... methods write the text Display writes.",
  "all argument texts, all upper-case mappings that are right on ASCII, all sequences of invocations, all tags and arguments",
  "the macros produce code from text by string substitution; a wrong hole (another name, path or plural) compiles as long as the name exists; the tests call a part of the roughly 180 methods on a few tags",
  ["proc/src/lib.rs: base_values, single_string_value_accessor, multiple_string_values_accessor, flag_value_accessor, u16_value_accessor, u32_value_accessor", "src/tag/mod.rs: 128-165", "src/atom/ident.rs: constants"])

p("C78", "Reading and scanning are endless exactly when they return to a place",
  "For every file of less than 2^62 bytes and both build profiles: the reader never ends if and only if it arrives twice at the same position within the same containers, with the same lengths and sums of sizes, or does so within one item; the scan of the writer never ends if and only if it comes twice to such a place, whatever boxes it has noted in between. So it is decided for every file, without appeal to excluded middle, whether reading gets to the end of the movie, is stopped or goes round, and whether writing has an outcome or its scan goes round. There is one number of steps that is enough for all files: what has not ended with it does not end, and more steps change neither the result of reading nor that of writing.",
  "all byte strings below 2^62 bytes, both build profiles, all lists of items, all buffer capacities above 8, any fuel",
  "that something never ends cannot be observed, and that a bound holds for every file needs all of the more than 2^(2^62) files",
  ["src/atom/mod.rs: read_tag, write_tag_to", "src/atom/head.rs", "src/atom/ilst.rs", "src/atom/moov.rs"])

p("C79", "What calls leave in the file, byte for byte",
  "Take any well-formed file, a new tag or one read from a file, and any sequence of method calls that take no function (setting, adding, taking and removing values, artwork, media type, rating, track, disc and genres, under any identifier). Writing the tag leaves exactly one item list in the file, and its bytes are determined by the calls: every item is a size, a four-character code (covr, stik, rtng, trkn, disk, gnre, the copyright sign and gen, or the given one; or mean and name under ----) and its values, every value a size, data, a type code of three bytes, no locale and the bytes; text is stored as UTF-8 under code 1, flags and integers big-endian under 21, pictures under 13, 14 and 27, numbers of tracks, discs, genres, ratings and media types under 0 in the stated layout; items keep their place, new ones go to the end, items not named stay as they are. In the other direction the getters are the stated functions of type codes and bytes.",
  "all well-formed editable files below 4 GiB with the new items, all tags new or read, all finite sequences of the listed methods, both build profiles, all buffer capacities",
  "tests compare what the library wrote with what the library reads back, so a wrong code or layout used on both sides is not seen, and there are infinitely many sequences of calls",
  ["src/tag/mod.rs", "src/tag/tuple.rs", "src/tag/genre.rs", "src/atom/ident.rs", "src/atom/data.rs: write_typed, Data::len", "src/atom/ilst.rs: WriteAtom for Ilst"])

p("C80", "Power failures: calls may reach the disk in any order",
  "Suppose the power fails during write_to and that of the write and truncate calls made, any parts have reached the disk, in any order and some of them repeatedly, and space new to the file contains anything. Whatever the file was: all bytes in front of the movie atom are unchanged; in front of the place of the new boxes only the size fields of the boxes around it can have changed, and the entries of the chunk offset tables if media data follows the movie; and if the new item list is as long as the old one the file has its old length, every byte outside of the list is unchanged, and every byte in the list is the old or the new one. Even then the list itself can be a mixture that cannot be read or that has a value nobody wrote.",
  "all files below 2^62 bytes, all items, both build profiles (the first part: with overflow checks), all buffer capacities above 8, all sets of calls and parts of calls in all orders",
  "the order in which an operating system writes pages back is not under the control of a test, and the subsets and orders cannot be enumerated",
  ["src/atom/mod.rs: write_tag_to lines 449-523 (order of BufWriter flushes and File::set_len; nothing is synchronised)"])

p("C81", "What writing costs",
  "Unless the boxes are found and the place is known, write_to makes no call that changes the file. Otherwise the bytes it hands to the file are at most the entries of the chunk offset tables (if media data follows the movie), the size fields of the boxes around the place, the new boxes, and everything behind the place, and exactly these if it succeeds; each two calls hand over a full buffer, apart from two calls for each of these tables and boxes and five more. Everything behind the place is loaded into memory and written again, even if nothing is moved: to write the same tag again, which leaves the file as it is, all media data behind the movie is written.",
  "all files below 2^62 bytes, all items, both build profiles, all buffer capacities above 8; the last sentence for all well-formed files",
  "a test can count the calls for a few files, but not bound them for all files, items and capacities",
  ["src/atom/mod.rs: write_tag_to lines 449-523 (moved_data, chunk offset tables, sizes, BufWriter seeks and flushes)"])

p("C82", "Readers other than files",
  "Tag::read_from takes any reader, and readers differ in which places behind their end can be seeked to. Whatever a reader accepts: compared with one that accepts more it gives the same result or fails to seek, and nothing else. A well-formed file is read from every reader that accepts the places up to the end of the movie atom. Bytes in memory give what a file with these bytes gives, error or panic included, if no atom is of 2^62 bytes or more. Wanted but false: the same bytes give the same result from memory and from a file, and from a reader that refuses places behind its end.",
  "all byte strings below 2^62 bytes, all readers, both build profiles",
  "readers are implemented by callers; a test can try one or two of them on a few files",
  ["src/tag/mod.rs: read_from lines 93-95 (impl Read + Seek)", "src/atom/mod.rs: read_tag_from lines 299-353", "src/atom/head.rs: seek_to_end lines 220-225"])

p("C83", "Fragments and other positions outside the movie",
  "Writing a tag leaves every top-level atom except the movie as it is, and moves those behind the movie by the change of length. A movie fragment therefore finds its data again by a distance from its own beginning whenever both are on the same side of the movie, and then the bytes are the same. A position in the file stored in a fragment (base data offset of tfhd) is not adjusted: it addresses the same data if and only if the data is not behind the movie or the length does not change. Wanted but false: the data of every fragment is found again where its header says.",
  "all well-formed files that can be updated, all items, both build profiles, all buffer capacities; all fragments and places",
  "a test compares the tags or the chunk offsets of a few unfragmented files",
  ["src/atom/mod.rs: write_tag_to lines 356-526 (only stco and co64 inside the movie are adjusted)", "src/atom/mod.rs: read_tag_from lines 299-353 (other atoms are skipped)"])

p("C84", "Which bytes reading looks at",
  "The result of reading, error or panic included, depends only on the length of the file and the bytes that are read: another file with these bytes gives the same. Reading is one pass over the file: every byte up to the end of the movie atom is read once, or passed by a seek once and not read. In a well-formed file only the file type, the movie and the heads of the atoms between them are read, so that the media data can be anything. The same holds for the scan before writing. Wanted but false without the assumption that no atom is of 2^63 bytes or more: no byte is read twice.",
  "the first sentence for all byte strings in both build profiles; one pass for all byte strings below 2^62 bytes without atoms of 2^63 bytes or more with overflow checks, and for all well-formed files, followed by anything, in both profiles",
  "a test sees the result and not the bytes it was made from, and cannot vary all the others",
  ["src/atom/mod.rs: read_tag_from lines 299-353, write_tag_to lines 357-387", "src/atom/head.rs: parse_head lines 101-135, seek_to_end lines 220-225"])

p("C85", "Which items can be the result of reading",
  "Whatever the bytes of a file are, the items read from it have different identifiers, none is called `free`, none has no values and all strings are sequences of Unicode scalar values. Nothing else holds for all files: every list of items with these properties is read from some file.",
  "the first sentence for all byte strings, starting positions and both build profiles; the second for all lists of items whose sizes fit their headers",
  "tests cannot read all files, nor show that a property of the result always holds",
  ["src/atom/mod.rs: AtomData::parse lines 189-258", "src/atom/ilst.rs: Ilst::parse_atom lines 25-51"])

p("C86", "Sums of lengths in 64 bits",
  "The length of an item and the sizes of the item list, the metadata, the user data and the movie, computed by additions of 64-bit numbers in the order of the code, are the sums themselves as long as these are below 2^64; from there on they are a panic with overflow checks, and the length of an item is reduced modulo 2^64 without.",
  "all items in which no single value or name is of 2^63 bytes or more, all lists of them, both build profiles",
  "no test can hold 2^64 bytes, nor try all smaller sizes",
  ["src/atom/mod.rs: AtomData::len lines 169-182, len_or_zero lines 147-151", "src/atom/head.rs: Size::from lines 20-27", "src/atom/ilst.rs: size lines 63-66", "src/atom/meta.rs: size lines 57-60", "src/atom/udta.rs: size lines 43-45", "src/atom/moov.rs: size lines 47-49", "src/atom/hdlr.rs: size lines 37-39"])

p("C87", "Writing mends a file whose item list cannot be read",
  "Writing looks neither into the item list nor at the movie header and the audio descriptions: in a file with sound outlines it succeeds whatever they contain and changes only what it always changes. If the movie header and the tracks can be read, the written file is read as the old file type and audio information with exactly the new items, also when nothing could be read before. Of the old list only the size matters: files that differ in a list of the same size become the same file.",
  "all files whose containers are laid out properly, all contents of the old item list, all storable items, any buffer capacity, both build profiles",
  "the damaged contents are arbitrary bytes",
  ["src/atom/mod.rs: write_tag_to lines 356-526", "src/atom/ilst.rs: FindAtom for Ilst lines 90-98", "src/atom/meta.rs: FindAtom for Meta lines 91-125", "src/atom/moov.rs: FindAtom for Moov lines 66-91"])

p("C88", "Of repeated containers the last one is changed",
  "In a file that has several movies, user data, metadata or item lists, or tracks with several media, media information, sample tables or chunk offset tables, writing succeeds and changes only the last of each; the others stay as they are, whatever they contain. If the file could be read, the written items are read back with the old file type and audio information, as in files without repetitions, and the last of two writes decides. When nothing is repeated the result is that of the other properties. Offsets in the tables that are not the last are not adjusted (refuted: every chunk stays addressed).",
  "all files whose containers are laid out properly, with any number of repetitions at any level, all storable items, any buffer capacity, both build profiles",
  "any number of repetitions at nine levels",
  ["src/atom/mod.rs: write_tag_to lines 356-526", "src/atom/moov.rs: FindAtom for Moov lines 66-91", "src/atom/udta.rs: FindAtom for Udta lines 61-85", "src/atom/meta.rs: FindAtom for Meta lines 91-125", "src/atom/stbl.rs: FindAtom for Stbl lines 42-67"])

p("C89", "Metadata can be copied from one file to another",
  "The items of a tag read from any file, however odd its bytes are, can be written to any other well-formed file, repeated containers or not: writing succeeds, changes only the metadata and the chunk offsets, and the target is then read with its own file type and audio information and exactly the items of the source. Going through a third file or through a dump makes no difference. A tag can be written back to the file it was read from. Wanted for all items; false if there is UTF-16 text, which is copied wrongly (refuted).",
  "all byte strings as source, all well-formed targets with room below 4 GiB, any buffer capacity, both build profiles; items without UTF-16 text",
  "source and target are arbitrary and unrelated",
  ["src/tag/mod.rs: Tag::read_from line 93, Tag::write_to line 105, Tag::dump_to line 117", "src/atom/mod.rs: read_tag_from lines 299-353, write_tag_to lines 356-526"])

p("C90", "What UTF-16 text does to a file it is written to",
  "Of UTF-16 text half of the length is announced (see C12). Still, writing it to a file succeeds, and the damage is this: the item list gets the announced length and ends in the middle of the items; the bytes in excess are overwritten by what is behind the list, which stays as it is, and what of them reaches beyond that is left at the end of the file: half of the text less what is behind the list. Everything else is as after writing any items of the announced length: only the metadata and the chunk offsets change, and the chunks stay addressed. If what is left of the list can be read, then as other items. If nothing is left over the file can be written again, and is then the same as if the text had never been written. If fewer than eight bytes are left over no further write succeeds, whatever the items, and the file stays as it is.",
  "all files whose containers are laid out properly, all items, with UTF-16 text anywhere in them, any buffer capacity, both build profiles",
  "the place of the list, what is behind it and the texts are arbitrary",
  ["src/atom/data.rs: Data::len lines 132-142, Data::write_raw lines 387-413", "src/atom/mod.rs: write_tag_to lines 356-526", "src/atom/ilst.rs: WriteAtom for Ilst lines 54-67"])

p("C91", "Every properly laid out file that is read is one the guarantees hold for",
  "For a file whose parts have the lengths and the nesting their places ask for (nothing is said about versions, type codes, texts, time scales or which parts are there) reading succeeds exactly if the file is well-formed, and then returns what it means. So the well-formed files of the other properties are exactly the properly laid out files that are read, and metadata can be written to each of them (if its chunk offset tables are sound) and is read back with the file type and the audio information read before. Neither condition can be left out: UTF-16 text with half a unit at the end is read, and without overflow checks a duration that does not fit is.",
  "all properly laid out files, read or not, all storable items, any buffer capacity, both build profiles (without overflow checks: durations that fit)",
  "that there is no file that is read but not covered concerns all files",
  ["src/atom/mod.rs: read_tag_from lines 299-353, AtomData::parse lines 189-258", "src/atom/mvhd.rs: lines 17-64", "src/atom/mp4a.rs: lines 74-243", "src/atom/ilst.rs: lines 25-51"])

p("C92", "Files with repeated containers can be used again and again like others",
  "In files in which containers are repeated, only the last chunk offset tables of each track have to be sound. Reading a tag and writing it back keeps the tag; any number of sessions that read, change and write the tag succeed and end in the first tag changed by all the operations, in the file that one session with all the operations makes, byte by byte. The last tables of every track keep addressing the media bytes they addressed, stay sound, and nothing but the metadata and chunk offsets is changed. This holds for every properly laid out file that is read.",
  "all well-formed files whatever is repeated in them, all sequences of sessions of operations, any buffer capacities, both build profiles",
  "which of several containers counts has to stay the same over every sequence of writes and for every nesting of repetitions",
  ["src/atom/mod.rs: write_tag_to lines 356-493", "src/atom/moov.rs: find_atom lines 69-90", "src/atom/udta.rs: find_atom lines 64-83", "src/atom/stbl.rs: find_atom lines 45-66", "src/tag/mod.rs: Tag::read_from, Tag::write_to"])

p("C93", "Whether a file is well-formed can be computed",
  "There is a computable test of bytes that accepts exactly the well-formed files and returns what they mean: bytes are accepted if and only if they are the bytes of some well-formed file, whatever way they are taken apart. So bytes have at most one meaning, and the test of C52 rejects no file the guarantees hold for. Whether the chunk offset tables and the items allow writing can be computed exactly as well. A properly laid out file is read if and only if it is accepted; if all tests succeed, metadata is written and read back, also in files in which containers are repeated.",
  "all byte strings, all ways to take them apart, all items, any buffer capacity, both build profiles",
  "that no well-formed file is rejected is a statement about all files; a test can only try some",
  ["src/atom/mod.rs: read_tag_from lines 299-353", "src/atom/mod.rs: write_tag_to lines 356-493", "src/atom/head.rs: parse_head lines 101-135"])

p("C94", "Exactly which chunk offsets still point to the same media bytes when containers are repeated",
  "Every well-formed file is taken, whatever containers are repeated in it, whose tables that count (the last of each kind in the last container of each kind) are sound. Each offset of each table, also of those that do not count, that points into media data is found at the same table and position of the file that is written. An offset is adjusted if media data follows the movie, its table counts and its track precedes the last user data of the movie. An adjusted offset points to the same place of the same media data atom if and only if the chunk is behind the movie and the sum of offset and growth fits the entry, or the chunk is in front of the movie and the growth is a multiple of the range of the entry. An offset that is not adjusted does so if and only if the chunk is in front of the movie or the file does not grow. Then the bytes of the chunk are the same.",
  "for all files, items, tables, positions and chunks",
  "needs an equivalence over all files with any repetitions; a test shows single offsets of single files",
  ["src/atom/mod.rs:356-493", "src/atom/stco.rs:13-67", "src/atom/co64.rs:13-67", "src/atom/moov.rs"])
p("C95", "Writing while other programs change the file",
  "While a tag is written to a file, other programs may change the file between the calls of the operating system. Whatever they do behind the beginning of the last movie and whenever they do it, everything in front of it stays as it is. If they change the file after it has been read and before the first change, and not its last movie, the result is a success: what they did in front of the movie stays, and what they did behind it stays, too. If two programs write tags at the same time, the file has one of both tags afterwards and all chunks still are where it says. Without others the call does what it always does.",
  "for all files, items, changes by others and moments at which they happen",
  "needs all interleavings with arbitrary changes; a test produces hardly any of them, and never the same one twice",
  ["src/atom/mod.rs:355-526"])
p("C96", "Reading while other programs change the file",
  "While a tag is read from a file, other programs may change the file before each read and seek. If each operation sees in the bytes it reads what it would see in a well-formed file, the tag of this file is the result. So whatever the others do, and whenever, to anything but the file type atom, the movie and the heads of the atoms between them, appending and cutting behind the movie included, the tag that the file had is read; also through a buffer of any capacity, which keeps bytes that are old, and with calls that deliver fewer bytes than asked for. If another program writes a new tag at once before the first byte of the movie is looked at, the new tag is read, and if it writes the tag later, the result is the old or the new tag.",
  "for all well-formed files, changes by others and moments at which they happen",
  "needs all interleavings with arbitrary changes; a test produces hardly any of them, and never the same one twice",
  ["src/tag/mod.rs:93-101", "src/atom/mod.rs:298-353"])
p("C97", "Writing while other programs change the file, also while the writer reads it",
  "A tag is written to a file in a call during which other programs may change the file before each call of the operating system, also while the file is scanned and the data to be moved is read. If the others change neither the length nor a byte the scan looks at nor one that will be moved, reading does not notice them: the call behaves as if it began afterwards, on the file as it is then. So if the others edit what is in front of the last movie in place, except for what the scan looks at, at any moments, writing succeeds, all edits are there, and behind them is what writing alone leaves. The scan looks at most at the file type atom, the heads of the other atoms and the movies, so the contents of all other atoms in front of the last movie may be edited. If the scan fails, the call fails likewise, whatever the others do to bytes the scan did not look at, and leaves what they leave. Without others the call does what it always does, whatever the capacities of the buffers and however many bytes the calls ask for and deliver. If another program writes a tag meanwhile and both succeed, a tag can be read afterwards, and neither call panics.",
  "for all files, items, changes by others, moments at which they happen, and all capacities",
  "needs all interleavings with arbitrary changes; a test produces hardly any of them, and never the same one twice",
  ["src/atom/mod.rs:355-526"])
here = os.path.dirname(os.path.abspath(__file__))
with open(os.path.join(here, "..", "properties.jsonl"), "w") as f:
    for x in P:
        f.write(json.dumps(x, ensure_ascii=False) + "\n")
print(len(P))
