# Formal model of mp4ameta: design

Subject: `Saecki/rust-mp4ameta` (crate `mp4ameta` and the accessor macros in `proc/`), source in `/repo`.
Prover: Coq 8.16.1, standard library only. Sources: `rocq/theories`, about 220 files.

## 1. What is modelled

Every definition of the model cites the file and the lines it models.

| source | model |
|---|---|
| `src/atom/head.rs` | `Parse.v` (`size_from`, `content_len`, `parse_head`, `parse_full_head`, `find_bounds`, `seek_to_end`), `Write.v` (`write_head`, `write_full_head`) |
| `src/atom/data.rs` | `Types.v` (value type, classification, conversions), `Parse.v` (`data_parse`), `Stream.v` (`ReadData`), `Write.v` (`write_typed`, `write_raw`), `TagApi.v` (`be_int!`, `set_be_int!`), `Values.v` (predicates and accessors of single types) |
| `src/atom/ident.rs` | `Types.v` (all constants, comparisons, `idents_match`), `UserIdent.v` (the trait `Ident`), `Display.v` (the texts) |
| `src/atom/mod.rs` | `Parse.v` (`AtomData::parse`, `read_tag_from`), `Write.v` (`AtomData::write`, `AtomData::len`, `write_tag_to`, `dump_tag_to`) |
| `ftyp.rs moov.rs mvhd.rs trak.rs mdia.rs minf.rs stbl.rs stsd.rs mp4a.rs udta.rs meta.rs ilst.rs hdlr.rs mdat.rs stco.rs co64.rs` | `Parse.v` (`parse_atom`), `Find.v` (`find_atom`), `Write.v` (`write_atom`, `size`, chunk tables) |
| `src/tag/mod.rs tuple.rs genre.rs`, `proc/src/lib.rs` | `TagApi.v`, `Macro.v` (the macros as functions on text), and `TagOps.v` (all mutating methods as data, so that sequences of calls can be quantified over) |
| `src/types.rs` | `Types.v`, `Values.v`, `Display.v` (the texts), `ErrText.v` (errors of conversions) |
| `src/error.rs` | `Base.v` (kinds), `Described.v` (descriptions, conversions), `ErrText.v` (texts) |
| `Display for Tag` and the `format_*` functions in `src/tag/` and `proc/src/lib.rs`, `readonly.rs` | `Display.v` |

* **Bytes and files.** A file is a `list byte` (`Coq.Init.Byte.byte`). A reader is a file plus a position (`N`).
  `std::io` semantics modelled: `read_exact` (error at EOF, success for length 0 anywhere), `Seek::Current/Start/End`
  (error for targets that are negative or do not fit a signed 64-bit offset, as `lseek`/`BufReader`), writes past the end zero-fill,
  `File::set_len` truncates or zero-extends, `BufWriter` (buffer of arbitrary capacity `cap`, flush on seek, on overflow, on drop).
* **Integers.** `u64`/`i64`/`u32` arithmetic is modelled with both build profiles: `Checked` (debug: overflow panics) and
  `Wrapping` (release: wraps). Casts (`as u32`, `as i64`, `as u64`) always wrap.
* **Outcomes.** `Ok`, `Err kind` (the crate's `ErrorKind`; description strings are dropped, except in `Described.v` and `DescribedWrite.v`, which have reading and writing with them), `Panic why`, and `Fuel`
  (the loop counter ran out; theorems never accept `Fuel` as success, and C14 says that it is not reached).
* **Strings.** A `String` is a list of Unicode scalar values; UTF-8 and UTF-16BE encoders and decoders are defined and proved correct.
* **Crashes.** The writer records the system calls that change the file (write at an offset, set the length). A crash leaves the
  file after a prefix of these calls with the next write partially done.
* **Failing devices.** In `Fault.v` a list of events decides what happens to each system call: it succeeds, stores a part, is interrupted, or fails.
  The program is the text of `Write.v` over other operations; `program_is_execute` says that it is the same program.
* **Reader operations.** In `ReadIO.v` reading and scanning are programs that ask for operations of a reader (read exactly n bytes, seek, request a buffer).
  They are the text of `Parse.v` and `Find.v` over other operations; `read_is` and `scan_is` say that running them on a byte string is the model of `Parse.v` and `Find.v`.
  From a program one can also get the operations it asks for, and its outcome on a device that fails, reads short or is interrupted.
* **Other readers.** The seeks above are those of a file. In `Reader.v` a reader is its bytes and the places it accepts (a file: below 2^63; `Cursor`: below 2^64; others: up to their end), and the programs of `ReadIO.v` run on it.
* **Buffering readers.** `BufRead.v` models `std::io::BufReader` (capacity, `read` past an empty buffer, `read_exact`, `seek` discarding the buffer, `read_to_end`) and runs the programs of `ReadIO.v` on it.
* **Writing with every call.** In `FineWrite.v` the writer runs with a `BufReader` and a `BufWriter` on one file whose cursor both move; every system call takes an event. `fine_is_faulty` says that each run is one of `Fault.v` with other events.
* **Paths.** In `Paths.v` a file system is a map from paths to contents; opening is a call that can fail. Links are not modelled: different paths are different files.

## 2. What is not modelled, and simplifications

* `Debug` formatting other than that of values (which `Display` of a tag uses; there the `Debug` text of a string is a parameter), and the `Debug` texts of errors of the standard library, which are parameters (`ErrText.v`).
* Allocation failure (out of memory aborts; C54 is about the amounts requested), except the deterministic `capacity overflow` panic of `Vec` for lengths above `isize::MAX`.
  In `Size::from`, `AtomData::len` and `Data::len` sums of lengths of things held in memory are taken in `N` without overflow. `LenSum.v` has these functions with 64-bit additions; C86 says that they give the same below 2^64.
* Real time: C14 says that reading terminates, C55 how many operations it takes.
* I/O errors of the device other than end of file and impossible seeks are modelled for reading (`ReadIO.v`) and for `write_tag_to` (`Fault.v`).
  In `Fault.v` reading a table or scanning the file is one event that fails or not; `FineWrite.v` has every call.
  In `ReadIO.v` each `read_exact` and each seek reaches the device; `BufRead.v` has the calls that a `BufReader` makes instead.
  Calls take effect in program order, also when the process dies (C09, C50); C80 is about power failures, where they reach the disk in any order.
* Reader and writer of `write_tag_to` share the cursor of the `File`. `Write.v` gives each its own position (comment at `w_read`);
  `Fault.v` has one cursor that reading leaves anywhere, and C49 says that this makes no difference.
* Implementations of the `Ident` trait by users are functions without side effects that do not panic (`UserIdent.v`).
* Generated accessors are modelled once per macro, parametrised by the identifier; the tables of identifiers they are
  instantiated with are in `TagApi.v` (`single_string_idents` etc.). `Macro.v` models the macros themselves; what the
  compiler does with the text they return, the documentation comments and the upper case of characters that are not
  ASCII are left out.
* Threads (there are none in the crate). Other programs that change the file while it is written are in `Interfere.v`, where they have no turn while the writer scans and reads the file (mod.rs 356-453), and in `SharedScan.v`, where they have; in both they have none while a table of chunk offsets is read. In `SharedTables.v` they have a turn before each call of the operating system that reads, stores bytes or sets the length. Other programs that change the file while a tag is read from it are in `SharedRead.v`, for a reader without a buffer (`Tag::read_from` on a `File`), and in `SharedBuf.v` for `Tag::read_from_path`; each read sees one state of the file.

## 3. Trusted base

* Coq 8.16.1 kernel, including `vm_compute`.
* No axioms. `Print Assumptions` stands behind every property theorem in the `Props_*.v` files and prints
  `Closed under the global context` for each of them. A whole-library check (`coqchk`) additionally lists
  the opaque module fields `Coq.ssr.ssrunder.Under_rel.*` (`Under_rel`, `Under_rel_from_rel`, `Under_relE`, `under_rel_done`, ...) of the standard
  library, which `lia`/`zify` load; no theorem here depends on them.
* That the Gallina definitions say what the Rust source says.
* The semantics of `std` given in section 1.

## 4. Structure

| file | content |
|---|---|
| **Model** | |
| `Base.v` | bytes, big-endian codecs, outcomes, u64/i64/u32 arithmetic in both modes |
| `Utf.v` | UTF-8, UTF-16 |
| `Types.v` | fourcc, idents, data, enums, tag record |
| `Stream.v` | reader monad |
| `Parse.v` | `parse_atom` functions, `read_tag_from` |
| `Find.v` | `find_atom` functions |
| `Write.v` | `write_atom` functions, BufWriter, `write_tag_to`, `dump_tag_to` |
| `TagApi.v`, `TagOps.v` | tag operations |
| `Display.v` | the text of a tag |
| `Fault.v` | `write_tag_to` on a device that fails |
| `ReadIO.v` | reading and scanning as programs over reader operations |
| `BufRead.v` | `BufReader` |
| `FineWrite.v` | `write_tag_to` with every system call |
| `Paths.v` | dumping to a device that fails, the functions that take a path |
| **Specification** | does not use the model above, except its data types and byte codecs |
| `TagSpec.v`, `TagOpsSpec.v` | tags as ordered maps; the effect of every operation on the map, the genre names, which items an operation touches |
| `FileSpec.v` | atom trees, `render`, what a file means (`describes`), what changing the metadata means (`update_file`), which files and tags qualify (`updatable`) |
| `ForeignSpec.v` | files that differ only in atoms readers do not interpret |
| `ReadSpec.v` | atoms at a path, layouts of sample entries |
| `EditSpec.v` | what writing may change, as relations and byte ranges: `tiles`, `file_edit`, `chunks_kept`, crashes |
| `StoreSpec.v` | sequences of operations whose result can be stored |
| `DisplaySpec.v` | reading the text of a tag back: lines, labels, numbers, durations |
| `FailSpec.v` | boxes in arbitrary byte strings, what a write may replace there |
| `PanicSpec.v` | where in a byte string the reader looks for boxes and descriptors, the flaws that make it panic |
| `WhereSpec.v` | where in a byte string the parts of a tag are stored |
| **Proofs** | |
| `*Lemmas.v`, `*Proofs.v`, `TagAccess.v`, `TagRefine.v`, `Read*.v`, `Write*.v`, `Update*.v`, `NewMeans.v`, `Modes.v`, `ScanFwd.v`, `CallsAny.v`, `DisplayText.v`, `Io*.v`, `WhereRepeat.v`, `Extend.v` | |
| **Properties** | |
| `Props_Tag.v` | C18-C30, C40 |
| `Props_Read.v`, `Props_ReadErr.v` | C13-C17, C31-C36, C41 |
| `Props_Dump.v`, `Props_Ftyp.v` | C10-C12 |
| `Props_Write.v`, `Props_Write2.v`, `Props_Write3.v` | C01-C07, C09, C36-C39 |
| `Props_Fail.v` | C08 |
| `Props_Any.v` | C03, C09 for arbitrary byte strings |
| `Props_Term.v` | C42-C44 |
| `Props_Display.v` | C45-C48 |
| `Props_Fault.v` | C49, C50 |
| `Props_Session.v` | C51 |
| `Props_IO.v` | C53-C55 |
| `Props_Where.v` | C56, C57 |
| `Props_Buf.v` | C58 |
| `Props_Path.v` | C59-C61 |
| `Props_Fine.v` | C62 |
| `Props_Panic.v` | C13: all causes of panics in reading |
| `WPanicSpec.v`, `WPanicProofs.v`, `Props_WPanic.v` | where the writer looks for boxes and the six flaws (of boxes and of items) that make it panic (`wflaw`); C43: the list is complete for files below 2^62 bytes and items below 2^61 bytes, and each flaw does panic |
| `Described.v`, `DescribedIs.v` | reading with the descriptions of its errors (function by function as `Parse.v`); without the descriptions it is `read_tag` |
| `ErrSpec.v`, `ErrProofs.v`, `Props_Err.v` | the places of a file the reader visits, the causes of errors there and what is said about each (`cause`, `says`); C63: every error has a cause in the file and its description names it |
| `ErrExact.v`, `Props_Exact.v` | C64: a file with a cause is not read, so the causes are exactly the reasons for errors |
| `DescribedWrite.v` | writing with error descriptions, and that it is writing |
| `LayoutSpec.v` | the boxes of an arbitrary file as the writer finds them (`layout`), the causes of errors of writing (`wcause`), and the file that is written (`rewritten`, `given_up`) |
| `LayoutProofs.v`, `LayoutWrite.v`, `LayoutTables.v`, `LayoutRun.v`, `LayoutExact.v`, `Props_Layout.v` | the scan finds the layout, the plan follows from it, tables and sizes are rewritten as specified; C65 and C66 for arbitrary byte strings |
| `TreeSpec.v`, `TreeProofs.v`, `Props_Tree.v` | the tag an arbitrary file holds, as a relation between its boxes and the tag (`holds`), which has at most one tag for a file; C67: it is the tag that is read |
| `Values.v`, `Props_Values.v` | predicates and accessors of values; C68 |
| `UserIdent.v`, `Props_Ident.v` | identifiers that callers implement; C69 |
| `ErrText.v`, `Props_ErrText.v` | errors as text, conversions from numbers; C70 |
| `FirstSpec.v`, `FirstUnique.v`, `FirstProofs.v`, `Props_First.v` | the first flaw of an arbitrary file, which decides the outcome of reading; C71 |
| `OutSpec.v`, `OutUnique.v`, `OutBase.v`, `OutProofs.v`, `OutModes.v`, `Props_Out.v` | the outcome of reading an arbitrary file with and without overflow checks, panics and endless reading included; C72, C73 |
| `ChunkSpec.v`, `ChunkProofs.v`, `Props_Chunk.v` | which chunk offsets stay right; C74 |
| `WOutSpec.v`, `WOutUnique.v`, `WOutScan.v`, `WOutPlan.v`, `WOutRun.v`, `WOutModes.v`, `Props_WOut.v` | the outcome of writing to an arbitrary file with and without overflow checks: result, text, panic or endless scan, and the bytes that are left; C75 |
| `WireSpec.v`, `WireProofs.v`, `Props_Wire.v` | what every method that takes no function leaves in the file, in names, type codes and bytes with the codes spelt out, and what the getters make of them; C79 |
| `PowerSpec.v`, `PowerProofs.v`, `Props_Power.v` | power failures while a file is written: parts of the calls reach the disk in any order; C80 |
| `CostSpec.v`, `CostProofs.v`, `Props_Cost.v` | the bytes handed to the file and the number of calls; C81 |
| `Reader.v`, `ReaderProofs.v`, `Props_Reader.v` | reading from other readers than files: which places can be seeked to; C82 |
| `FragSpec.v`, `FragProofs.v`, `Props_Frag.v` | positions in the file stored outside the movie (movie fragments), and what writing does to them; C83 |
| `Utf16Proofs.v`, `Props_Utf16.v` | a text that is announced too short is never made up for by what is read behind it; C12, second part |
| `SurviveSpec.v`, `SurviveProofs.v`, `Props_Survive.v` | which lists of items can be the result of reading (C85), and which tags come back (C37, second part) |
| `Props_Length.v` | announced lengths for items of any size; C11, second part |
| `Props_WhenTrue.v` | exactly when the accessors for totals and genres, and the text of the genres, are as wanted; C24, C26, C48, second part |
| `LenSum.v`, `Props_LenSum.v` | the sums of lengths with the arithmetic of `u64`; C86 |
| `RepairSpec.v`, `RepairProofs.v`, `Props_Repair.v` | files of which only the outline is sound, and files that differ in their item list; C87 |
| `LastSpec.v`, `LastProofs.v`, `LastWrite.v`, `LastMeans.v`, `LastTwice.v`, `Props_Last.v` | files in which containers occur several times; C88 |
| `LastSize.v`, `Props_Copy.v` | sizes of such files; copying metadata between files; C89 |
| `SpillSpec.v`, `SpillProofs.v`, `SpillPlace.v`, `SpillMain.v`, `SpillChunks.v`, `SpillRead.v`, `SpillTail.v`, `Props_Spill.v` | UTF-16 text written to a file that is there: what is cut off, overwritten and left over; C90 |
| `TidySpec.v`, `TidyProofs.v`, `TidyRead.v`, `TidyMeans.v`, `Props_Tidy.v` | the converse of C15: a file whose parts are laid out properly and that is read is well-formed; C91 |
| `LiveSpec.v`, `LiveProofs.v`, `Props_Live.v` | files with repeated containers over several sessions: the tables that count stay sound and keep addressing their chunks; C92 |
| `LookSpec.v`, `LookProofs.v`, `LookScan.v`, `Props_Look.v` | which bytes of a file reading and the scan before writing look at, and how often; C84 |
| `CycleSpec.v`, `CycleProofs.v`, `Props_Cycle.v` | files that are read or scanned forever are those where the reader or the scan returns to a place; C78 |
| `UnicodeSpec.v`, `UnicodeProofs.v`, `Props_Unicode.v` | the encodings of text and numbers against the tables of the Unicode standard; C76 |
| `Macro.v`, `MacroSpec.v`, `MacroProofs.v`, `Props_Macro.v` | the accessor macros as functions from argument text to methods, and the methods of the thirty invocations called by name; C77 |
| `ReadCalm.v` | a test for files without flaws that make the reader panic, with proof that it is sound |
| `Accept.v` | a test for the hypotheses about files, with proof that it is sound |
| `AcceptAll.v`, `Props_Accept.v` | the test accepts every well-formed file; exact tests of chunk offset tables and items; C93 |
| `ChunkLive.v`, `Props_LiveChunk.v` | which chunk offsets stay right when containers are repeated; C94 |
| `Props_LiveFrag.v`, `Props_LiveWire.v`, `Props_LiveCrash.v` | C83, C79, C09 and C50 for files with repeated containers |
| `Utf16Last.v`, `Props_Utf16Last.v` | which tags come back from a file they have been written to as the last thing of the movie, and a file where UTF-16 text comes back by accident (more of C12, C37 and C89) |
| `Props_LiveMore.v` | which tags come back from files with repeated containers, also through paths (more of C37 and C61) |
| `Props_LiveCost.v` | what writing to files with repeated containers costs (more of C81) |
| `Interfere.v` (model), `InterfereProofs.v`, `InterfereFront.v`, `LateProofs.v`, `LateTwo.v`, `Props_Interfere.v`, `Props_TwoWriters.v` | writing while other programs change the file (C95) |
| `SharedRead.v` (model), `SharedReadProofs.v`, `Props_SharedRead.v` | reading while other programs change the file (C96) |
| `SharedBuf.v` (model), `SharedBufProofs.v`, `Props_SharedBuf.v` | the same through a buffer (C96) |
| `SharedScan.v` (model), `SharedScanProofs.v`, `SharedFront.v`, `ScanLooked.v`, `SharedTables.v` (model), `SharedTablesProofs.v`, `SharedTablesAlone.v`, `SharedFails.v`, `Props_SharedScan.v` | writing while other programs change the file, also while the writer reads it (C97) |
| `Samples.v` | the small files of /repo/files as data (generated by `tools/mksamples.py`) |
| `Props_Samples.v` | C52; the tests of tests/test.rs run in the model |

### The specification of files

An atom is a tree `Atom ext id pre kids`: width of the size field, name, leading bytes, child atoms. `render` gives its bytes
following ISO/IEC 14496-12, 4.2. `describes f t` is a relation between a list of atoms and the tag it encodes. It is a conjunction
of one small relation per atom kind (`data_means`, `item_means`, `ilst_means`, ..., `mvhd_means`, `esds_means`) that says how
the content encodes the meaning; unknown atoms are unconstrained at every level. `update_file items f` is the tree obtained by
replacing the item list and creating what is missing. The main theorems are two refinement statements

    describes f t -> good_sizes f -> read_tag  (render_all f)       = Ok t
    updatable f items             -> write_tag items (render_all f) = Ok (render_all (update_file items f))

in both arithmetic modes (`ReadProofs.v`, `WriteMain.v`). C01-C07, C15-C17, C36 and C38 follow from these, but are stated without
`update_file`: as what a later read returns, as byte equalities, and as relations (`file_edit`, `chunks_kept`) that do not
say how the update is computed.

The proof of the second statement runs the scan on a rendered tree (`ScanProofs.v`: the positions found are those of the tree),
views the buffered writer as a logical file with a cursor (`WriteState.v`), and follows the table adjustment
(`AdjustProofs.v`), the size updates on the path down to the insertion point (`FramesProofs.v`) and the final rewrite (`WriteProofs.v`).

That `describes` is not narrower than the code is C91: for files whose parts have the lengths their places ask for (`tidy`, which says nothing about
versions, types, texts or the presence of anything) the first statement is an equivalence. So the theorems about well-formed files hold for every tidy file the library reads.

Theorems about arbitrary byte strings (parts of C03, C08, C09, C13, C14, C33, C36, C42, C43) cannot use trees. They use invariants of the monads
(`FailProofs.v`: bounds found by the scan are boxes of the file; `ScanFwd.v`: the scan only moves forward; `ReadMore.v`, `ReadTerm.v`, `WriteTerm.v`: measures; `Modes.v`: a relation between the two modes).

### Conventions

* `blen (render_all f) < N.of_nat fuel` in theorem statements only gives the evaluator enough steps.
* `…_refuted`: the property is false for this code; the theorem exhibits or characterises counterexamples.
* `…_partial`: the property with the extra hypotheses under which it is true. The comment above the theorem says what is missing.
* Each theorem is followed by `Print Assumptions` and an `Example` with a concrete input satisfying its hypotheses.

## 5. Findings

Behaviour of the source that contradicts the properties. Each is a theorem about the model with a concrete witness.

| | finding | theorem |
|---|---|---|
| a | UTF-16 values are written with half their length: they come back cut in half, and no tag with one survives being dumped or written to the end of a movie | `C11_utf16_refuted`, `C12_utf16_refuted`, `C12_exactly`, `C37_last`, `C37_only_storable_refuted`, `C37_utf16_refuted`, `C37_dumped` |
| b | `set_artists([])` and similar calls create an item without values; the written file cannot be read any more | `C37_empty_values_refuted` |
| c | an item named `free` is written but skipped on reading | `C37_free_refuted` |
| d | chunk offsets are wrong after a write if a track follows `udta`, or if media data is on both sides of `moov` | `C04_track_behind_udta_refuted`, `C04_two_sided_refuted`, `C04_wrap_refuted` |
| e | a time scale of 0 or a `data` atom shorter than 8 bytes panics the reader | `C13_zero_timescale_refuted`, `C13_short_value_refuted` |
| f | with overflow checks off a 64-bit size of 0 makes the reader loop forever | `C14_release_refuted` |
| g | a bad chunk table makes `write_to` fail after tables of other tracks were already changed | `C08_tables_refuted` |
| h | `remove_track_number`/`remove_total_tracks` leave an all-zero `trkn` item behind (comparison with `Some(0)` that is never true) | `C25_last_half_refuted` |
| i | if the first standard genre code is unknown, `genre()` returns a custom genre although `genres()` starts with a later known standard genre; `take_genre` keeps the custom genres when a standard genre is known | `C26_genre_is_first_refuted`, `C26_take_genre_refuted` |
| j | a stored track value of three bytes has no number, but one (256) appears once the total is set or removed | `C24_track_disc_refuted` |
| k | a second operation on the same handle fails: the cursor is not rewound | `C39_same_handle_refuted` |
| l | a version 1 movie header whose duration times 10^9 exceeds 64 bits panics or gives a wrong duration | `C31_duration_overflow_refuted` |
| m | an odd last byte of a UTF-16 value is dropped silently | `C34_utf16_odd_refuted` |
| n | media data behind `moov` is not protected against crashes | `C09_behind_refuted` |
| o | atoms of 4 GiB or more: items and data atoms are written with a 32-bit size that wraps (or panics with overflow checks); ancestors whose size field is 32 bits wide wrap | `C11_large_refuted`, `C11_fails`, `C07_large_refuted` |
| p | two items with the same identifier (only possible by building a tag from raw items) come back merged | `C37_duplicates_refuted` |
| q | with overflow checks off a 64-bit size of 0 makes the writer loop forever, too | `C42_release_refuted` |
| r | a file that ends within its item list panics the writer | `C43_cut_list_refuted` |
| s | with two movie atoms the writer changes the last, the reader uses the first: a successful write has no visible effect | `C44_second_movie_refuted` |
| t | a single genre is missing from the text of a tag if the first standard genre code is unknown | `C48_genres_refuted` |
| u | line feeds in values are not escaped in the text: a title can fake a year | `C45_line_break_refuted` |
| v | a failing system call can leave a file that cannot be read | `C50_atomic_refuted` |
| w | a file of 16 bytes makes the reader request any amount of memory below 2^63 bytes | `C54_refuted` |
| x | a file of 48 bytes makes the reader seek back and forth for more than 2^63 operations | `C55_refuted` |
| y | from a file of 93 bytes a tag with any number of copies of one value is read | `C57_refuted` |
| z | `dump_to_path` over an existing file loses its content if writing fails | `C61_dump_keeps_refuted` |
| aa | different freeform identifiers can have the same text | `C70_freeform_text_refuted` |
| ab | an unknown sample rate index is reported as an unknown channel configuration | `C70_conversion_kind_refuted` |
| ac | with overflow checks an offset near 2^63 in a 64-bit table panics the writer after the offsets before it have been changed; the file is left like that | `C75_sound` with `C75_example` |
| ad | a power failure while a list is replaced by one of the same length can leave a list that cannot be read, or a value nobody wrote (nothing is synchronised, and the list is overwritten in place) | `C80_mixed_refuted` |
| ae | writing loads everything behind the metadata into memory and writes it again, even if its length is unchanged: saving an unchanged tag rewrites all media data behind the movie | `C81_behind`, `C81_nothing_new_refuted` |
| af | the same bytes can be read from memory (`Cursor`) and not from a file: a skipped atom that announces an end of 2^63 or more; and from a file but not from a reader that refuses places behind its end: a cut last atom | `C82_memory_refuted`, `C82_end_refuted` |
| ag | writing to a fragmented file whose fragments store positions in the file (base data offset of `tfhd`) breaks it: only `stco` and `co64` are adjusted, the fragments then address other bytes | `C83_absolute_refuted`, `C83_absolute` |
| ah | of several chunk offset tables (or sample tables, …) in a track only the last is adjusted; the chunks addressed by the others are lost | `C88_chunks_refuted` |
| ai | UTF-16 text written to a file with less behind the item list than half of the text leaves bytes at the end of the file; with fewer than eight of them no write succeeds any more | `C90_written`, `C90_left_over`, `C90_locked` |
| aj | the file is not locked while it is written: what another program appends after it has been read is lost without an error, and if two programs write tags at the same time both succeed and every chunk offset is wrong by what the first of them added | `C95_between`, `C95_appended_refuted`, `C95_two_writers`, `C95_two_writers_refuted` |
| ak | the file is not locked while it is read: if another program writes a tag meanwhile, the result can be a mixture of both tags without an error | `C96_torn_refuted`, `C96_path_torn_refuted`; harmless before the movie is reached: `C96_written_before` |
| al | the length of the file is asked for after the scan, and the rest is read after that (mod.rs 450-454): if another program makes the file shorter before the first, `old_file_len - moved_data_start` panics; if it does so between the two, the call succeeds and the file cannot be read any more | `C97_two_writers_refuted` |

Bitrates are shown in units of 1024 bit/s labelled `kbps` (C46).

## 6. Per property outcome

The status and the theorem names are in `MANIFEST.json` (generated by `tools/mkmanifest.py`, which checks that every listed theorem exists
and that every `Theorem Cdd_…` is listed). The properties are in `properties.jsonl` (generated by `tools/mkprops.py`). "partial" there means that the
English property is false for this code: the refutation and the strongest true part that was found are both proved.

## 7. Testing the theorems

The theorems are tested against wrong programs: one definition of the model is changed in a scratch copy, everything is rebuilt, lemmas whose
proofs fail are admitted, and `Print Assumptions` then tells which property theorems depend on an admitted lemma. `seeded/LOG.jsonl` has one line per attempt.

## 8. Testing the model

The model can be run. `Props_Samples.v` contains every test of `tests/test.rs` (except `collection`, which needs files of the user) as an
`Example` proved by computation: reading, writing and dumping `files/sample.m4a` and `files/sample-multi-data.m4a` in the model gives what
the crate's tests expect. Where a test writes, the example also checks that the file computed by the model is the one computed by the
specification `update_file`, and that the hypotheses of the theorems hold. These are tests of the model, not proofs about the crate.

The other two sample files are too large for the build. `tools/mksamples.py FILE OUT.v` writes a Coq file which runs the test
`sample_files` on them; `coqc` accepted it for `sample-64.mp4` (190 kB, 64-bit media data and tables, 2 min) and for
`sample-multi-track.3gp` (604 kB, four tracks, 10 min).
