# Design of the formal model of cpp-sas7bdat

All Coq sources are in `rocq/theories`, logical prefix `Verif`.  The code in
`/repo` is read as text only; it was neither built nor run.

## Approach

The reader is modelled function by function as total, computable Gallina.

* **Outcomes.**  `res A` has five constructors: `Ok`, `Exn e` (a C++ exception
  that the caller can catch), `Abort` (`std::terminate`: an exception leaving
  a `noexcept` function, or a failing `FMT_ASSERT` of a debug build), `Undef u`
  (undefined behaviour: out-of-bounds access, read of an indeterminate byte,
  overlapping `memcpy`, ...) and `Fuel` (a loop did not finish within the fuel
  of the model; theorems show when this cannot happen, and that it really is a
  non-terminating loop when it can).
* **Memory.**  A buffer is the list of cells of its *allocation* (a cell is
  `option byte`, `None` = indeterminate) plus the size it reports, because the
  code lets the reported size be smaller than the allocation.  Every access is
  checked against the allocation; a violation is `Undef`.
* **Arithmetic.**  `size_t` is `N` with explicit reduction modulo 2^64 where
  the code adds or subtracts; byte values are the standard `Byte.byte`;
  doubles are `spec_float` values of `Coq.Floats.SpecFloat`, the axiom free
  IEEE-754 specification of the standard library.
* **Build modes.**  `cfg` records whether `NDEBUG` is defined (`FMT_ASSERT` is a
  no-op, release build), how much memory an allocation may take and the fuel of
  the page loops.  The macro `DEBUG` of `src/debug.hpp` is never defined by the
  build files and is taken as undefined.
* **Sources.**  A data source is any state machine with `eof` and `read`
  operations (`Buffer.v`); the file source (`std::ifstream`) is one instance.
* **Sinks.**  A reader's sink is the trace of callbacks it receives (`Reader.v`); the
  CSV, print, null, Python and R sinks are separate state machines consuming such
  events (`Sinks.v`).  For sinks which fail, the reader and the sink run as one
  machine (`Drive.v`); C77 relates the two.

Specifications (`Spec*.v`) are written on raw bytes, lists and integers.  They
use the datatypes of the model (outcomes, formats, columns, events) and none of
its functions, except for the notions the statements are about: the history of
calls (`trace`), opening (`open_reader`), the getters of a column, looking at
the bytes of a delivered row (`read_cells`) and at the year, month and day of a
Boost date (`date_ymd`).

## Files

| File | Models |
| --- | --- |
| `Base.v` | outcomes, bytes, 64 bit arithmetic |
| `Types.v` | `src/types.hpp` integer and string decoding |
| `Float.v`, `DateTime.v` | `src/types.hpp` floating point and date/time decoding, `src/types.cpp` rendering, the parts of Boost.Date_Time used |
| `Buffer.v` | `src/buffer.hpp`, `src/memory.hpp`, `include/cppsas7bdat/source/ifstream.hpp` |
| `Encodings.v` | `src/encodings.cpp` |
| `Header.v` | `src/header.hpp` |
| `Page.v` | `src/page.hpp`, `src/subheaders.hpp` |
| `Column.v` | `src/formatters.hpp`, `src/column.cpp`, `include/cppsas7bdat/filter/column.hpp` |
| `Metadata.v` | `src/metadata.hpp` |
| `Decomp.v` | `src/decompressors.hpp` |
| `Data.v` | `src/data.hpp` |
| `Reader.v` | `src/reader.cpp`, `src/reader-impl.hpp`, `src/sas7bdat-impl.hpp` |
| `Sinks.v`, `Print.v`, `Cli.v`, `Main.v` | `include/cppsas7bdat/sink/*.hpp`, Python and R sinks, `apps/cppsas7bdat-ci.cpp` |
| `Drive.v` | `src/reader-impl.hpp` with a sink which may throw |
| `Objects.v` | `include/cppsas7bdat/reader.hpp`, `src/reader.cpp`: Reader variables, moves, destruction, named sinks, references to the properties |
| `Utf8.v` | when bytes become a Python text |
| `Named.v` | `include/cppsas7bdat/reader.hpp:29-42, 95-98`: sources given by name, kept as references |
| `ColObjects.v` | `include/cppsas7bdat/column.hpp:41-110`: Column objects, copies, moves and the shared formatter |
| `Disk.v` | `include/cppsas7bdat/source/ifstream.hpp:17-29` on a device which fails to read (badbit) |
| `Change.v` | `include/cppsas7bdat/source/ifstream.hpp:17-29` on a file which changes while it is read |
| `Device.v` | the same on a device whose faults come and go (badbit) |
| `Kept.v` | `src/data.hpp:188-199`, `src/reader-impl.hpp:85-88`: the pointers of read_row_no_sink which a client keeps |
| `PyObjects.v`, `PyFrom.v` | `python/pycppsas7bdat/cpp/import_datetime.cpp`, to and from Python |
| `PyProps.v` | `python/pycppsas7bdat/cpp/pycppsas7bdat.cpp`, `properties` of the Reader and of the sinks |
| `PyArgs.v`, `RArgs.v` | the arguments of `read_sas`: Python `cpp/reader.cpp`, `read_sas.py`; R `src/filter.cpp`, `src/reader.cpp`, `read_sas.R` |
| `Numbers.v` | the methods of the Python and R Readers with the numbers they are given (Boost.Python and Rcpp conversions of `size_t`) |
| `Callbacks.v` | the Python, R and print sinks when a callback or a text fails |
| `Python.v` | `python/pycppsas7bdat/cpp/reader.cpp`, `python/pycppsas7bdat/sink.py`, `read_sas.py`, and the parts of pandas used |
| `PyAgain.v` | the same, with a sink object which was used before |
| `RAgain.v` | `R/CPPSAS7BDAT`: a sink object which was used before |
| `Shared.v` | `include/cppsas7bdat/sink/csv.hpp`, `print.hpp`: one sink for several Readers |
| `RPackage.v` | `R/CPPSAS7BDAT/R/sink.R`, `read_sas.R`, `R/CPPSAS7BDAT/src/reader.cpp`, `filter.cpp`, and the operators of R used |
| `Spec*.v` | independent specifications |
| `Samples.v` | small files written with `SpecFile.v`, for the examples |
| `Proof*.v`, `Lemmas.v` | lemmas |
| `Prop*.v` | the theorems, each closed by `exact`, with `Print Assumptions` and a concrete example |

## Trusted base

* The Coq 8.16.1 kernel, including its virtual machine (`vm_compute` is used for
  examples, witnesses of refutations and small finite checks).
* `Print Assumptions` answers "Closed under the global context" for every
  theorem of the `Prop*.v` files: no axiom is used, neither of the standard
  library nor of this project.  (The checker lists seven constants of
  `Coq.ssr.ssrunder`; they come with the standard library files which are
  loaded, and no theorem depends on them.)
* The reading of the C++ code: the comment above each definition names the lines
  and the simplifications.

Modelled: everything in the table above, that is the whole path from the bytes
of a source to the callbacks of the sinks, and the two commands of the
application.

Not modelled:

* logging (`spdlog`) and the `DEBUG` checks, which the build never enables;
* failures of small allocations (strings, vectors of names, texts); the large
  ones (buffers, decompression buffer, column array) can fail;
* big-endian hosts;
* the text which `fmt` produces for a double, and Boost's stream output of dates
  in the CSV sink and in the report of the print sink: parameters of the model (the theorems hold for any of them);
* the benchmark and the build files;
* in R: the names `make.names` gives (a parameter of the model), `rbind` of frames
  whose columns differ;
* R conditions other than exceptions (`longjmp`);
* parsing of the command line (docopt).

## Validation of the model

The model was extracted to OCaml in a scratch directory and run on the SAS
files found in `/repo/test` against the reference CSV and JSON results stored
beside them (these references were produced by other programs).  Of 137 files of
at most 150 KB, 126 agree exactly and 11 differ only by conventions of the
reference (rounding of printed numbers, notation of missing values); of 32 files
between 150 KB and 2 MB, 20 agree exactly and 12 differ only by these
conventions.

The hypotheses were tried in the same way: the checkers proved sound in
`ProofCheck.v` and `ProofConformCheck.v` were extracted and run on the files.  All 142
files of at most 150 KB hold a table of which nothing is lost (`conforms`, C90).
Of 35 files between 150 KB and 3 MB all but two hold a table (`file_with row_meant`);
the two (test14 and test15 of data_pandas) carry a subheader signature which the reader
does not know.  Of the others, six RDC files lose cells (C29), four RLE files lose blanks
of text cells only (`nearly_conforms`), and nothing is lost of the rest.

## Per property

"partial" with refuted theorems means: the property as stated is false of the
code; the refuted theorem gives the witness, the other theorems say what holds.

| Id | Property | How it is modelled and proved | Status |
| --- | --- | --- | --- |
| C01 | Short source is rejected with header_too_short | `open_reader` over the file source and over any source; case analysis on the first read of 288 bytes | proved |
| C02 | Only files carrying the magic number are opened | the first 32 bytes of an opened source are the magic number, a source without it is refused with its own error | proved |
| C03 | Header fields are the documented bytes | `SpecHeader.v` is an independent table (offset, width, shift) over the raw bytes of the file; equality of every field, both formats and byte orders, and acceptance of every header which the table describes | proved |
| C04 | Page reading starts right after the header | position of the source after the header; a header cut short and a header length under 288 are separate theorems | proved |
| C05 | Header parsing stays inside the header buffer | release and debug builds apart; case analysis on the announced header length | partial: Proved in debug builds for every file, and in release builds for every file whose header length is not between 288 and 288 plus the alignment shift. In that range, and for a custom source with header lengths under 288, the claim is false of the code; two refuted theorems give the headers. |
| C06 | Integer decoding is exact for both byte orders | encoder in the specification (`write_int`), induction on the width | proved |
| C07 | Buffer growth keeps the bytes already read | induction over histories of resizes and reads, against a list of bytes | proved |
| C08 | Range checks guard every checked access | exact meaning of `check`, with and without wrap-around | partial: Proved for offset + length below 2^64 and for the getters which check; the sum wraps around above (refuted), the exception leaves a noexcept function (refuted), and the getters called without assertion do not check at all in release (refuted). |
| C09 | Opening and reading always terminate | measure: bytes left in the source; for page length 0 the loop is shown to come back to its own state (no fuel is enough) | partial: False of the code for a file whose header announces pages of length 0: the constructor never ends (refuted). Proved for every file and every finite source with a page length above 0, for the header alone whatever the page length, and it is proved that more turns than the model needs change nothing. |
| C10 | A truncated last page ends the data quietly | file cut anywhere: opening and every history of calls are those of the file without its last, incomplete, page | proved |
| C100 | Python: the properties object has what is known of the file | `PyProps.v` (the attributes, the two kinds of Properties objects), `Python.v`; evaluation for all headers and descriptions, invariant over what a program does, induction for the references (`ProofPyProps.v`) | partial: Proved: each attribute, that there is no other, that sink.properties has them after any history, also without a Reader, and reader.properties() while there is the Reader. Refuted: after that it dangles; a text which is not UTF-8 raises although the file is read; asking for a missing date loses a reference to None each time. |
| C101 | What a data source is asked | `Header.v`, `Page.v`, `Metadata.v`, `Data.v`, `Reader.v` with any source; conversations with the source (`SpecAsk.v`), followed through every operation and composed (`ProofAsk.v`); for files the pieces read are the file (`C101_once`) | proved |
| C102 | What was delivered depends only on the answers of the source | the same conversations, given again to another source (`ProofAsk.v`) | proved |
| C103 | Python: the arguments of read_sas choose the file and the columns | `PyArgs.v`: arguments as Python objects (None, lists, str as code points, bytes, others), the CPython encoder, `extract<std::string>`; their meaning in `SpecPyArgs.v`, composed with C79. The table statement has the conditions of C79 (rows, names in UTF-8); a file name ends at a zero character | partial: Refuted for a column name which is not UTF-8 (it cannot be excluded as text) and for file names with a zero character; the table theorem has the conditions of C79. |
| C104 | R: the arguments of read_sas choose the file and the columns | `RArgs.v`: arguments as R values (NULL, character vectors with NA, others); composed with C87, whose conditions on the rows it has; NA is the text "NA" | partial: Refuted for NA, which is taken as the name "NA"; the table theorem has the conditions of C87. |
| C105 | The command line program treats its files one after the other | `Main.v`: the loops of `main` over a file system and the text given to `std::cout`, with the print and null sinks of `Callbacks.v` driven by the reader; `SpecMain.v` says what is shown by the contents of the tables (C73, C75), up to the first file or cell which fails; csv from C64 | partial: Refuted: a file or cell which fails ends the process, nothing is done for the files behind it (proved for every command); csv never succeeds, it empties its first file (proved for every list). print is proved for lists of tables without braces in the names and of files which cannot be opened. |
| C106 | Python: dates and times given to the library are what they say | `PyFrom.v`: the three converters from Python objects with the checks of boost dates and 64-bit overflow; inverse of `PyObjects.v` (C94) through the calendar of C50; the converters are registered, but no function of the module takes such an argument | partial: Refuted for years before 1400 (raises, proved for all), for times of day (given as time, not taken back) and for negative timedelta objects which are not whole days; proved for all others up to 106751990 days, undefined from 106751992 days on (proved). |
| C107 | Debug and release builds show the same | The whole reader under two configurations (`SpecBuilds.v`: `stricter`, `agree`); a relation between the outcomes, carried through every function (`ProofBuilds.v`) | partial: Refuted: on a page which announces a row it does not hold the debug build is terminated, the release build delivers it. Proved: up to the termination both show the same, for every source and sequence of calls. |
| C108 | The memory a Reader needs is in proportion to its file | As C107, for two limits of memory: equality of all operations when the limit lets the largest piece through (`ProofBuilds.v`, `enough_memory`) | partial: Refuted: the announced lengths are believed (a file of 320 bytes needs 8000 to be found empty, one of 288 asks for 4 GiB). Proved: the largest piece is the header, a page, the columns or a compressed row, and with it everything is as with more. |
| C109 | A Reader is the same wherever it is moved, and can be used as long as it exists | `Objects.v`: the objects of a program (impls, Reader variables, references, named sinks) and its statements; simulation with a table of histories (`SpecObjects.v`, `ProofObjects.v`), pairing with the same program with named sinks | partial: Refuted for a sink given by name: the Reader only refers to it and cannot be used when it is gone. Proved for Readers which own their sinks, and for named sinks which live to the end. |
| C11 | A read error is reported once as an exception and then the reader is at its end | a source which fails at any read; bisimulation with the source which does not fail, up to that read | proved |
| C110 | A reference to the properties is good exactly as long as its Reader | from the simulation of C109: an impl exists exactly as long as a variable has it | proved |
| C111 | In Python every number of rows is taken as it is or refused | `Numbers.v` (`py_method`); each call has one meaning (`SpecNumbers.v`), induction over the calls | proved |
| C112 | In R every number is taken as its whole part or refused | `Numbers.v` (`r_size`, `r_method`); the cast as a quotient in units of 2^-1200 (`to_size_quot`), integers as doubles (`int_value`), induction over the calls, the state by `drive` | partial: proved for the numbers above -1 and below 2^64, for vectors of another length and other types; refuted for -1, NA and NaN (undefined behaviour of the cast), and a chunk_size of 0.5 is 0 |
| C113 | The pointer to a row stays valid and shows the row | `Kept.v` (programs which keep rows); room for a page as an invariant, so `resize` never allocates (`kexec_all_kept`); written memory stays written (`grows`, `later`); a source which counts its reads (`counts`) | partial: Proved: no memory is asked for after opening, a kept pointer can always be read, a row in the page stays until the next page is asked for, a decompressed row until the next row is extracted. Refuted: that it goes on showing its row (the next page, or the next compressed row, shows in its place). |
| C114 | An I/O error of the device is reported, and no row is missing without it | `Disk.v` (a stream with badbit); simulation of the Reader on the failing device by the Reader on the whole file, function by function (`beside`, `alike3`), and the conversation with the source (C102) | partial: Proved for every content and continuation: the session is the one with the whole file, or an exception reports the fault after the same calls; no exception before the fault is reached. Refuted: that later calls report it too (they say that the data has ended) and, inside the header, that it is told from a short file. |
| C115 | Columns can be copied and moved like values, and read as long as they live | `ColObjects.v` (shared pointers with their counts); refinement to columns as plain values (`SpecColObjects.v`), with the invariant that each formatter counts its owners (`exec_plain`) | partial: Proved for every program: columns behave as plain values, each formatter lives exactly as long as it has owners, a copy is independent of the others, the texts never change, the metadata has the accepted columns. Refuted: a column which was moved from cannot be read (null pointer), a column built on a named formatter keeps a reference to it, and == compares the names only. |
| C116 | A source given by name stands behind the pages which were read, and can be used further | `Named.v` (sources and Readers as objects); the source after a history is found by counting the bytes asked for (`ProofAsk.v`) and the pages passed (invariant `kept`), bytes behind those asked for do not matter (`read_behind`), and programs by induction over their statements (`private_source`, `tables`) | partial: Proved: where the source stands, that a source used by one Reader serves it like its own, and tables one behind the other. False, each shown by a witness: that a Reader notices another user of its source (it misses rows without an error), that a table without rows or with a page behind its last row can be followed by another table, that a source may end before its Reader. |
| C117 | SinkByRow of the R package keeps the rows it is given | `RPackage.v` (`r_methods`); by induction over the calls, with the invariant that each cell has the last element given for it (`has_rows`) | proved |
| C118 | The words in the header have no influence on the rows | `Header.v`, `Page.v`, `Data.v`; the first page is read over the whole header (`read_over`), then the two Readers are in a bisimulation (`over_rel`, `ProofBisim.v`) and the header is used for three fields only (`trace_header`) | partial: Proved for every two files whose header is not longer than a page. False otherwise, shown by a witness: the page does not cover the header in the buffer, and a row which reaches behind the page is completed with bytes of the header. |
| C119 | The layout of a file does not change the table which is read | `SpecLayout.v`: fields which are the same for a user, cells which cannot be told apart. C73 on both sides; a content and a type determine the value (calendar of C94), the value determines the text; then each sink is simulated by itself on the other columns | partial: Proved for every two files of C73 with at least one row. Without rows the type said of a column depends on its width (refuted). |
| C12 | Row-size information is read from the documented fields | field table of the row size subheader on raw page bytes | proved |
| C120 | What stands behind the last row of a file is not looked at | no model of its own: the end of the file is met only in a state from which no further row is delivered and in which rows are missing (`unended`, kept by every call); then C102 with nothing left unread; for the tables C90 excludes that state | partial: Proved for all files and histories which deliver all the announced rows, and for conforming files with a row over every history. Without rows, or with fewer rows than announced, the appended bytes are read (refuted). |
| C121 | No row which stands on a page is passed over | `SpecLost.v` lists all the rows of a page in either form; for files in which no page has both forms the list is that of C43 (induction over the pages) | partial: Proved when no mix page has rows in both forms and no amendment page behind the beginning of the data has rows. Otherwise rows are lost without an error: four witnesses. |
| C122 | A sink object of Python can be used again | `PyAgain.v` opens a file with the object of an earlier program; a simulation between the run with a new object and that with the old one (`ProofAgain.v`: the reader with two sinks which answer alike) gives the outcomes and what the object holds | partial: The outcomes, and the frame of SinkWholeData when the second file has rows, are those of a new object. Refuted for the frames of SinkByRow and SinkByChunk, and for a second file without rows. |
| C123 | A sink object of R can be used again | `RAgain.v` opens a file with the object of an earlier program; the simulation of C122, lifted to the sinks of R (`ProofRAgain.v`), gives the outcomes and the df of SinkWholeData; for SinkByChunk the run is also compared with one which starts from a frame without rows, where the chunks are never shared | partial: The outcomes (SinkByRow and SinkWholeData; SinkByChunk when it has no frame or one with the same columns) are those of a new object, and the frame of SinkWholeData when the second file has rows. Refuted for the frame of SinkByChunk and for a second file without rows. Not modelled: rbind of frames with other columns. |
| C124 | Several Readers can share a csv or print sink | `Shared.v` runs a program which makes and calls any number of Readers with one sink state, and the same program with one sink object for each Reader on the same stream; a simulation for any sink which writes behind what is there (`ProofShared.v`), met by the csv and the print sink | partial: Proved when the Readers are used one after the other, and in any order when the files have the same columns. Refuted otherwise. |
| C125 | A changed byte in the rows of a data page reaches one row | `SpecDamage.v` says where the byte is and what a caller gets; the two runs are followed step by step (`ProofDamage.v`): the byte has not been read, it is in the buffer, or the buffer has been overwritten | proved: Proved. C125_page_header_case shows that a byte of the header of a page reaches further. |
| C126 | A changed byte in a compressed row reaches one call | `SpecPacked.v` says where the byte is and compares the two histories; the two runs are followed step by step (`ProofPacked.v`): the byte has not been read, it is in the buffer with the piece to come or gone, or the buffer has been overwritten; the decompressors may then hold different rows, which has no effect (`equiv`) | proved: Proved. C126_all_case shows why calls for many rows are left out, C126_outside_case a changed byte which makes a read outside the row. |
| C127 | A file which changes while it is read is seen as one file | `Change.v` is the stream on a file whose content is any function of the number of reads; the conversation of the Reader with it (C101, C102) is also a conversation with a file made of the bytes found (`ProofChange.v`), and with the whole file when no read is too early (`asked_to`) | partial: C127_one_file, C127_appended and C127_ahead prove all but the last clause. The last clause is false: C127_appended_later_refuted. C127_some_moment_refuted: the one file need not have existed at any moment. |
| C128 | A device which fails and recovers | `Device.v` is the stream of C127 with a fault at any place of any read; its conversation with the Reader is one with the stream of C114, whose fault stays (`ProofDevice.v`), so what C114 says holds for it | partial: C128_reported_partial, C128_one_disk and C128_no_fault prove the first clause, also for a file which changes. The last clause is false: C128_recovered_refuted. |
| C129 | The pages behind the one where the data begin can be exchanged | the constructor has read no further than the page where the data begin (C116), so it does the same with other pages behind it (C102), and the rows are those of the pages then there (C43); `ProofOrder.v` | partial: C129_pages and C129_order prove all but the last clause, which is false: C129_description_refuted. |
| C13 | Subheader dispatch is decided by the signature only | table of signatures; the effect of a subheader depends on the signature and the bytes, dispatch tables are disjoint | proved |
| C130 | The header of a page is taken from the page itself | the bytes of the read are the beginning of the buffer, and the three fields lie in them; shorter pages leave the header of the file in the buffer, whose bytes there are not the type of any page (`short_pages`); `SpecTinyPage.v`, `ProofTinyPage.v` | partial: C130_own proves the first clause for every page which can hold the three fields.  It is false for shorter pages, C130_counts_refuted, and the second clause is false, C130_refused_refuted; C130_short_partial proves what happens instead if the page ends before the place of its type. |
| C131 | Pages of a type which is not known are passed over | the buffer after a page is that page whatever stood in front of it (`landed_after`), and the loop over the pages does nothing with the others (`loop_mixed`); where the loop stops by C116; `SpecForeign.v`, `ProofForeign.v` | partial: C131_passed_over proves the first clause; behind the page where the data begin such a page has no rows, which is C44.  The second is false: C131_metc_refuted. |
| C14 | Malformed subheader pointers are reported by a catchable exception | both directions of the range check of the pointer table | partial: False of the code (refuted: a 32 bit pointer outside the page terminates the program, because the check is in a noexcept function; a 64 bit pointer passes the check by wrap-around and the page is read outside). Proved instead: a page of a 32 bit file is only accepted when its table points inside the page. |
| C15 | Metadata parsing stays inside the page | invariant over the table of subheaders: every access is inside the page; a file whose description is well placed is read without undefined behaviour | proved |
| C16 | Text references never leave the text block and are trimmed | the text of a reference is the trimmed part of one block | proved |
| C17 | Printable text references are returned in full | same, for texts which are in the block in full | partial: False of the code for names, labels and formats which start or end with a character that is not printable ASCII (refuted: a name in UTF-8 is lost, another one cut). Proved when the first and the last character are printable ASCII, whatever is between them. |
| C18 | Column i is built from the i-th entries | induction over the loop which builds the columns, against `nth_error` of the six lists; lifted to the reader | proved |
| C19 | Missing column entries make construction fail | same induction: one list too short gives the exception, whichever list it is | proved |
| C20 | The column type follows the documented decision table | table of formats and lengths in the specification; the three lists of names are disjoint | proved |
| C21 | A filter selects an order preserving subset and changes nothing else | two readers of one source, with and without filter: simulation for every history | proved |
| C22 | Include / Exclude / IncludeExclude semantics | list membership | proved |
| C23 | Compression is detected from the first text block only | substring specification by concatenation; only the first block of the file counts | proved |
| C24 | A decompressed row is always exactly row_length initialised bytes | invariant of the row buffer, for every compressed row; rules for every row of bytes (`SpecDecode.v`), both directions by induction (`ProofDecode.v`) | proved |
| C25 | RLE decoding expands every command sequence | commands as a datatype with their bytes and their meaning; induction over the list of commands | proved |
| C26 | RLE decoding keeps a final one-byte command | same, the exact loss is described | partial: False of the code as stated (refuted: a final run of blanks written as one byte is dropped, because the loop needs two bytes). Proved instead: at most one one-byte command is lost, and the claim itself when the final command is a run of zeros. |
| C27 | Corrupt RLE rows raise cannot_decompress | same, the first command which does not fit | proved |
| C28 | RDC decoding expands every item sequence | items in groups of 16 with a control word; induction over the groups | proved |
| C29 | RDC decoding keeps trailing literals | same, the exact loss is described | partial: False of the code as stated (refuted: ABC as three literals decodes to A and two zeros, because the loop needs three bytes). Proved instead: the result is the expansion of all items but those of the last two bytes. |
| C30 | Decompressors never read outside the compressed row or the row buffer | exact conditions for reading past the compressed row; rules for every row of bytes (`SpecDecode.v`), both directions by induction (`ProofDecode.v`) | partial: False of the code as stated (four refuted theorems: RLE and RDC read past the compressed row, RDC back references read before the row or overlap their copy). Proved instead: exactly when RLE does so (C30_rle_exact: commands which leave room and then a command 0x40..0x4F with one byte behind it), and for both, for every row of bytes, all outcomes by rules said from the side of the encoder (C24_rle_exact, C24_rdc_exact). |
| C31 | Decompression depends only on the current row | histories of rows with one buffer | proved |
| C32 | Rows are delivered in file order with consecutive indices | invariant over histories of calls | proved |
| C33 | Never more rows than announced | same | proved |
| C34 | Any way of slicing the reads yields the same rows | induction over the number of rows; the reader is a cursor | proved |
| C35 | Skipping k rows is reading k rows and discarding them | simulation between skipping and reading | proved |
| C36 | read_row_no_sink returns the row read_row would push | same function, the events compared | proved |
| C37 | The end of the data is final | the state at the end is a fixed point | proved |
| C38 | Sink protocol | shape of the event sequence by induction over the calls | proved |
| C39 | end_of_data is delivered exactly once | same | partial: False of the code (refuted: read_all then read_row give end_of_data twice). Proved instead: the sink is told at most once up to and including the first call which reports the end, when end_of_data is not called explicitly. |
| C40 | An empty Reader is inert | case analysis on the call | proved |
| C41 | A failed row does not stop the reader | the cursor of the specification moves on over a failed row | proved |
| C42 | Row bytes come from the documented place of the page | `SpecPages.v`: where the rows of a page are, on raw bytes; equality with the places the reader visits; what is handed out by the rules of SpecDecode.v, both ways (ProofRules.v) | proved |
| C43 | Reading the whole file yields the concatenation of the page rows | the pages of the file as a list; the reader is a cursor over the concatenation of their rows (simulation invariant); the rows also by the decompression rules alone (SpecRules.v) | proved |
| C44 | A page announcing zero rows contributes no row | same cursor, with an empty page | partial: False of the code (refuted: an empty data page after a page of rows makes the reader push a row which is on no page). Proved instead: an empty page changes nothing when it is not a page of rows, or is the first page of rows, and in particular when it is in front of the data. |
| C45 | A row never extends outside its page | ranges of the rows of a page | partial: False of the code in release builds (refuted: the page announces more rows than it holds, reading the row is undefined behaviour) and in debug builds of 64 bit files (refuted: the checked sum wraps around). Proved instead for debug builds of 32 bit files for every source and history, and for both builds and formats when the pages of the file are good. |
| C46 | String values are the stored bytes without trailing blanks | trimming specification by prefix and blanks, shown unique | proved |
| C47 | Numbers keep every stored bit | bit patterns; integers through `write_int` | proved |
| C48 | A getter of the wrong kind returns the missing value | case analysis on the kind of column | proved |
| C49 | Getters read only the column's own bytes | two memories which agree on the bytes of the column give the same value | partial: Proved for every column except dates, times and datetimes stored on fewer than 8 bytes; for those the property is false of the code (the getter always reads 8 bytes), shown by the two refuted theorems. |
| C50 | Datetimes are exact to the microsecond | rational error bounds on the axiom free IEEE arithmetic of the standard library (`SpecFloat`) | partial: The full claim (nearest microsecond) is refuted for the faithful arithmetic: the product by 10^6 is rounded before the final rounding. Proved for |s| < 2^42: error at most 1/2 + 2^-35 microsecond, exact for whole seconds, NaN is missing, date and time of day agree with the datetime. |
| C51 | Dates are exact and follow the Gregorian calendar | calendar by "the day after" in the specification; the Boost formulas are proved to follow it | proved |
| C52 | Times are the stored number of seconds | same error bounds, remainder by a day | partial: Refuted for durations of 24 hours and more and for negative ones: they are returned modulo one day (C52_modulo_partial says exactly what is returned). Proved from 0 to 24 hours. |
| C53 | Out of range dates are reported without killing the process | range of the calendar | partial: Refuted: a date of the years 0-1399 and 10000-20000 kills the process (C53_unsupported_years, for all of them), and a year above 65535 can be returned as a wrong date. Proved: missing values and all supported dates give a value. |
| C54 | Text rendering of dates and times is faithful and fits its buffer | digits specification; the text determines the value | proved |
| C55 | Printing a missing date, datetime or time is safe | length of the text of the missing value | partial: Refuted for TIME: printing a missing time always reads past its 16 byte buffer (C55_missing_time). Dates and datetimes throw a catchable exception. |
| C56 | Grouping columns by type is a partition | permutation and filter | proved |
| C57 | Every encoding byte has an encoding name | the 256 values are enumerated | proved |
| C58 | Every CSV line has one field per column | lines as joined fields | proved |
| C59 | CSV text determines the data | reading back the text (parser in the specification) | partial: False of the code as stated (refuted: quotes in a text are not doubled, two rows give one line). Proved when the texts have no quote and no line break. |
| C60 | The print sink prints any column name | escapes of the format string | partial: False of the code as stated (refuted: the name is used as a format string). Proved: the names are printed verbatim exactly when no name has a brace. |
| C61 | Python chunks partition the rows | chunks as a partition of the row list, by induction over the rows | partial: Proved for columns with different names, for every chunk size, row sequence and history which ends with end_of_data (which may come more than once), in chunks or all at once; the row sink tells every row once, also when push_row raises; with two columns of one name a column is lost (refuted). |
| C62 | Python chunk bounds are the indices of its rows | same, with the indices | partial: False of the code as stated (refuted: the start is wrong after a skip). Proved without skips; the end is proved right always. |
| C63 | R chunks partition the rows and stay inside their vectors | heap of vectors, invariant over the rows | partial: Proved for every row sequence a reader can push when end_of_data comes at the end; false when end_of_data comes before further rows (refuted: write past the index vector) and the data sink delivers the rows at each end_of_data (refuted). |
| C64 | The csv command keeps its input file | file system as a finite map, both orders of evaluation | partial: False of the code for every existing file: the file is truncated before it is read and no other file is written (refuted, and proved for all files). |
| C65 | print --nlines=n prints at most n rows | events of the loop against the cursor of C43 | proved |
| C66 | Whole-file round trip | a writer of files in `SpecFile.v` and `SpecRoundtrip.v`; the bytes at each place of the written file, each subheader, then the cursor of C43 | partial: Proved for every table with clean column texts (empty, or starting and ending with visible ASCII), without empty pages of rows, in every format, byte order and page split, for every history of calls. False of the code beyond that (refuted: a label which starts with a non-ASCII letter comes back empty; a label which is the name of a compression makes the file reported as compressed; empty pages: C44). |
| C67 | Data rows are never mistaken for metadata | rows of the page of a compressed file where the data begin: what the constructor takes for a description | partial: False of the code (refuted: a row on the first page of a compressed file whose bytes start like a subheader is dropped). Proved when no row of the first page with rows starts like a subheader. |
| C68 | The csv sink made from a file name writes the file | objects with a lifetime | partial: False of the code: the file is never written, with at least one row the stream is used after its object is gone (refuted, and proved for all datasets). |
| C69 | Chunks given to R keep their content | heap of vectors, aliasing | partial: False of the code: a full chunk is passed by reference and overwritten by the next rows (refuted). |
| C70 | Whole-file round trip of compressed files | the writer of compressed files, the decompression theorems C25 and C28, the cursor of C43 | partial: Proved for every table with clean column texts and every encoding of its rows which does not end with the commands that the decompressors lose (C26, C29) and does not look like a subheader (C67), for every history of calls. False of the code beyond that (refuted: a row which ends with a one byte blank command comes back with zeros). |
| C71 | Texts of integers and numbers | rounding of rationals with ties in the specification, digits of the standard text; value of a double as a rational | proved |
| C72 | Different numbers have different texts | texts read back: six decimals determine the millionths | partial: False of the code as stated (refuted: 2^-24 is printed as 0.000000). Proved: numbers with the same text are at most 10^-6 apart. |
| C73 | The cells of a written table come back | contents and their storage in `SpecCells.v`, files in `SpecTable.v`; C66, C70 and C90 for the rows, then each getter on the stored bytes | partial: Proved for every file which holds a table: those of C66 and C70, and every file of C90 of which at most blanks outside the numbers are lost; with dates, datetimes and times on 8 bytes (see C49 for shorter ones), days in the years 1400-9999 and datetimes stored as a double less than half a microsecond away; texts of missing dates, datetimes and times excepted (C55). C73_missing_refuted: in a file with a missing date to_string throws. |
| C74 | The csv text of a written table | C73, then the lines of C58 | partial: Proved for the files of C73 whose names and texts have no quote and no line break (C59 says what happens otherwise). C74_quotes_refuted: two files with different tables have the same csv file. |
| C75 | The printed text of a written table | C73, then the lines of the print sink | partial: Proved for the files of C73 whose names have no brace (C60) and which have no missing date, datetime or time (C55). C75_missing_refuted: the print sink throws in a file with a missing date. |
| C76 | The report of the print sink determines the properties | lines read back one by one | partial: Proved when no text has a line break and the datetimes have different texts; refuted otherwise. |
| C77 | A failing sink stops the call and loses at most the refused row | `Drive.v`: the reader and an arbitrary sink as one machine; each call is compared with the call of `Reader.v` (simulation), then induction over histories | proved |
| C78 | The constructor calls set_properties once, last | same machine, case analysis | proved |
| C79 | read_sas(...).df is the table | `Python.v`: the interpreter side as a state machine; C73 and the chunks of C61, then the frame cell by cell | partial: Proved for every file of C73 with at least one row and columns of different names, and for any source in terms of the rows it gives, when their dates are within the calendar of C94. False of the code otherwise (refuted: a file without rows gives ValueError or None depending on the class; columns of the same name show the values of the last one). It is also false of SinkByRow when a column has no known type. |
| C80 | The end can be told again to a Python sink | invariant over the reads (`_cpp` is there), then the pending error of the second end | partial: False of the code as stated (refuted); proved: the second time always raises SystemError, whatever was read before. |
| C81 | df does not depend on the life of the Reader | same invariant | partial: False of the code as stated (refuted); proved: df after the Reader is gone always uses the destroyed C++ sink. |
| C82 | df asked for in the middle does not disturb the reading | same invariant | partial: False of the code as stated (refuted for SinkByRow and SinkWholeData); proved: the frame stays what it was (SinkByRow, SinkByChunk), and read_all is undefined when rows are left (SinkWholeData). |
| C83 | Python chunks are conserved when push_rows raises | arbitrary object with a log of its calls; invariant over the rows | partial: Proved: conservation of the rows for every object. False of the code beyond that (refuted: a chunk after an exception is larger than the chunk size; end_of_data after an exception is undefined). |
| C84 | R chunks: reading on after push_rows failed is safe | invariant of the heap of vectors of C63 | partial: False of the code as stated (refuted); proved: the next row is always written behind the vectors. |
| C85 | The print sink writes whole lines | induction over the columns | partial: False of the code as stated (refuted: the start of the line stays and the next row follows on it); proved: exactly what is written in both cases. |
| C86 | R: a readable file opens with each sink class of the package | `RPackage.v`: the R side as a state machine; evaluation of set_properties on every list of properties | partial: False of the code as stated (refuted: SinkByRow opens no file; a header date without text stops every class); proved: SinkByRow never opens, for any source. |
| C87 | R: read_sas returns the table | C73 and the vectors of C63, then the frame column by column (order up to a permutation) | partial: Proved for every file of C73 with 1 to r_rows_limit rows, the columns in some order, names and texts up to a zero byte, and for any source in terms of the rows it gives. False of the code otherwise (refuted: the columns are grouped by type, not in the order of the file; a file without rows gives NULL; a text with a zero byte inside ends there). |
| C88 | R: SinkByChunk holds the table | heap of vectors; invariant of the frame over full chunks (which vectors are shared and which were copied by rbind) | partial: False of the code as stated (refuted); proved: exactly which rows the frame has, for every chunk size and source, and its contents for every file of C73. |
| C89 | R: the rows given to push_row | invariant of the heap over the rows | partial: Proved: the cells at the time of the call, and that every kept list shows the last row. So the last part is false of the code (refuted). |
| C90 | Every file which holds a table is read as that table | `SpecConform.v`: what the bytes of any file say, on top of `SpecPages.v` and `SpecMeta.v`; the reader is compared with it page by page, then the cursor of C43; a checker of the condition is proved sound | partial: Proved for every file whose compressed rows do not end with the commands which the decompressors lose (C26, C29), with a clear first page of data (C44, C67). Without that condition it is false (refuted: the last item of an RDC row is lost) and the loss is proved to be at most 18 bytes of each row, delivered as zeros. |
| C91 | A file which is cut off | `SpecConform.v` (files with a part of the announced rows); the pages of a beginning of the file are the first pages, so C90 applies to it; a description which is not complete only has fewer entries than the whole one, and no page before its end has rows (`ProofCutAny.v`) | partial: Proved: the rows of the complete pages are delivered, unchanged, when the description is complete; wherever the file is cut, opening throws, or the columns agree with those of the file and the rows are its first ones. Refuted: nothing tells that rows are missing, the end of the data is given as for a whole file; cut in the first page, the file is proved to be an empty table. |
| C92 | The size subheaders are recognised in every form | `SpecConform.v` (files without sizes); C13 for the handlers, C90 for the empty table | partial: Proved for the forms with zeros. Refuted for the form F7F7F7F7FFFFFBFE / F6F6F6F6FFFFFBFE, which is ignored (proved): a file without recognised sizes is proved to be read, without any notice, as a table without columns and rows. |
| C93 | Python: the column names are given as text whatever the encoding of the file | `Utf8.v` (when the interpreter accepts bytes as text), `SpecUtf8.v` (RFC 3629: the bytes of a list of characters) and `ProofUtf8.v`; `Callbacks.v`, `Python.v`: the names raise; the chunk sink by induction over the rows | partial: Proved: when a reader opens, and what is raised otherwise; that no chunk reaches an object. Refuted: the encoding of the file is not used, so a name in Latin-1 raises UnicodeDecodeError and nothing of the table can be read unless the column is left out by including others. |
| C94 | Python: dates, datetimes and times are the Python objects with the same date and time | `PyObjects.v` (the converters and the checks of CPython), `SpecPyObjects.v` (year, month, day and parts of the day); the calendar of C51; invariant over the calls which returned for the chunk sink | partial: Proved for every value within the calendar (years 1400 to 9999, a day) and for every file of C79; every date a reader gives is within it. Refuted: a datetime in another year, which the reader gives to a C++ sink, makes read_sas raise and the whole table is lost; with any chunk sink the chunk of such a row and all later ones are never given (proved). |
| C95 | Python: missing dates leave the reference count of None alone | `PyObjects.v`: the references taken and given up for each value; induction over the lists | partial: Proved: what the count is afterwards, and when the interpreter stops. Refuted: convert returns Py_None without a reference of its own, so each missing date, datetime or time takes one away when the list is freed (before CPython 3.12 the interpreter stops when none is left). |
| C96 | Pages are recognised by their kind whatever their marks | `SpecConform.v`: the pages of the file with the page replaced; the description has ended before it and it has no places of rows, so C90 applies to the rest (`ProofKinds.v`) | partial: Proved: a marked page with a description and rows (640) is handled as one without the mark (512); for every file which holds a table, a page behind the start of the data whose type is replaced by one not in 0, 256, 512, 640 loses all its rows, the later rows take their place and the row count is announced as before. Refuted: a marked page of rows (384) is passed over without notice. Not stated: the rows marked as deleted are delivered (their map is not modelled). |
| C97 | The texts of the columns are found wherever their blocks are | `SpecTexts.v`: the text blocks of all the pages and the references, each with the number of blocks before it; induction over the subheaders and pages, then C15 for the reader; the inserted page as in C96 | partial: Proved: for every file whose description can be read, each name, format and label is the text of its reference when the text block is before the reference in the file, and empty otherwise; a page of another type behind the start of the data changes nothing, whatever it says. Refuted: labels in a text block behind the rows are empty, without notice. homimp, omov, owner, ratiov and rmov of data_AHS2013 and xpttest of data_reikoch have such labels (the comparison of the labels is commented out in the tests). |
| C98 | Dates, datetimes and times stored on 3 to 7 bytes come back | `SpecShort.v`: the double whose first bytes are stored; the 8 bytes which are read are compared with it in units of 2^-1200, then C50, C51 and C52 | partial: Proved: in a big-endian file, dates within 2^(8k-12) days of 1960 in k bytes (1948-1971 for 3 bytes, all supported years up to 4830 for 4). Proved as well, for all stored values: in a little-endian file the date is 1960-01-01, the datetime its midnight and the time midnight when the 8th byte is a blank, a digit or zero. Refuted: a whole file with such a date; a three byte date in a big-endian file. |
| C99 | R: a sink object is told what is known of the file | `Callbacks.v` (`wrap_properties`), `RPackage.v` (`$`, the classes); evaluation for all headers and descriptions, `int_bits` for the numbers, invariant over the events (`ProofRProps.v`) | partial: Proved, numbers below 2^53 and texts up to a zero byte, for any sink object, and that the classes keep it whatever is read. Refuted: larger numbers are rounded; sink$columns is always empty; the format of the file (32 or 64 bits) is not given. |

## Findings

Behaviour of the code which the theorems establish and a user would not expect.
R = witness in a refuted theorem, P = proved for all inputs.

Memory safety and termination

* RLE: the loop asks for 2 bytes, the command 0x4n takes 3: read past the
  compressed row (R, C30).  A final command of one byte is dropped (R, C26).
* RDC: the loop asks for 3 bytes and pops up to 5: read past the row (R, C30).
  One or two trailing bytes are dropped (R, C29, C90); this happens on files of
  `/repo/test/data_pandas` and `/repo/test/data_reikoch`: the text of the last column of
  a row of test3.sas7bdat is empty, while it is "crocodile" in the uncompressed
  test1.sas7bdat.  A back reference may start
  before the row buffer, or overlap its copy (`memcpy`, undefined) (R, C30).
* `assert_check` is `noexcept` and throws: every failed check terminates the
  process (R, C08, C14).  Its sum wraps modulo 2^64, so that an entry with offset
  2^64-8 and length 16 passes (R, C08, C14).  The `ASSERT` template argument is
  not used: the getters never check (R, C08).
* Header length between 288 and 288 plus the shift: the header is read out of
  bounds in release builds (R, C05); under 288 a custom source writes out of
  bounds (R, C05), a file is refused.
* Page length 0: the constructor loops forever (R, C09).
* A sink (or source) given to a Reader as a named object is kept as a reference; a Reader
  returned by the function which declares the sink refers to nothing (R, C109).
* In R `skip(-1)`, `skip(NA)`, `read_rows(NaN)` and a negative `chunk_size` are cast to
  `size_t` without a check, which is undefined; Python refuses them.  A `chunk_size` of 0.5
  is 0 (R, C112).
* The pointer returned by `read_row_no_sink` points into the page or into the buffer of the
  decompressor. It can be read as long as the Reader lives, but shows other bytes once the next
  page is read, and the next row at once when that is decompressed (R, C113).  Nothing in
  `include/cppsas7bdat/reader.hpp` says so.
* Lengths announced in the file are believed before anything is read: 288 bytes can make
  the library ask for 4 GiB (R, C108).
* A page of rows which announces more rows than it holds is read out of bounds in
  release builds (R, C45); in debug builds the check wraps for 64 bit files (R,
  C45).
* Date, time and datetime columns of 3 to 7 bytes: 8 bytes are read (R, C49).
* Printing a missing TIME reads past a 16 byte buffer (P, C55).
* R chunk sink: rows after an early `end_of_data` are written past the index
  vector (R, C63).
* R chunk sink: the row after a failing `push_rows` is written behind the vectors (P,
  C84).
* Python: `df` of a sink whose Reader is gone uses freed memory (P, C81); reading on
  after `df` of SinkWholeData enters the interpreter with an error pending (P, C82), and
  so does a second `end_of_data` after a failing one (P, C83).
* `csv(filename)`: the stream is used after its object is gone (P, C68).

Wrong or lost data

* A file which is cut off is read without any notice: fewer rows than announced, then
  the end of the data (R, C91); cut in its first page it is a table without columns and
  rows (P, C91).
* The size subheaders of newer 64 bit big endian files (signature F7F7F7F7FFFFFBFE) are
  not recognised: the file is a table without columns and rows, without any notice (R, P,
  C92).  test13, test14 and test15 of `/repo/test/data_pandas` are such files.
* The encoding which the header names is shown in the properties but not used: text
  cells are given to Python as `bytes`, and column names as `str` made of UTF-8.  A name in
  another encoding raises `UnicodeDecodeError` in `set_properties` of the package's sinks,
  and in the first chunk of any other chunk sink; the column can be left out only by
  listing all others in `include` (C93) or by excluding its bytes (C103).
* Python: a datetime out of the years 1400-9999 makes read_sas raise and nothing of the
  table is given; a chunk sink never gives its chunk nor any later row (R, P, C94).  The
  branch which makes a `timedelta` is never taken (P, C94).
* Python: None is returned without a new reference for a missing date, datetime or time;
  each takes a reference to None away (R, P, C95).  The same holds for each access to the
  properties `date_created` and `date_modified` when they are missing (`pycppsas7bdat.cpp:66-81`,
  not stated).
* An empty page of rows after a page of rows makes the reader push a row which is
  on no page (R, C44).
* A page of rows marked as having deleted rows (type 384) is passed over with all its
  rows, without any notice (R, P, C96).
* Dates, datetimes and times on 3 to 7 bytes in a little-endian file are 1960-01-01, its
  midnight and midnight, whatever is stored, when the eighth byte is a blank, a digit or
  zero (R, P, C98); other bytes give other dates.  In a big-endian file, dates on 3 bytes
  may be days off (R, C98).
* Labels (and any other column text) whose text block is behind the reference, in practice
  on the page of amendments (type 1024) at the end of the file, are empty, without any
  notice (R, P, C97).  Six files of `/repo/test` lose labels in this way: homimp, omov,
  owner, ratiov, rmov of data_AHS2013 and xpttest of data_reikoch; the comparison of the
  labels is commented out in `tests_interface.cpp:219` and `tests_internal.cpp:180`.
* A row of the first page of a compressed file which starts like a subheader is
  dropped (R, C67).
* Names, labels and formats which start with a byte above 127 are empty, those
  which end with one are cut (R, C17, C66).
* A label which contains the name of a compression makes the file reported as
  compressed (R, C66); its rows are still right (P, C66).
* TIME of 24 hours and more, or negative, is returned modulo a day (P, C52).
* Years out of 1400-9999 terminate the process or come back as another year (R, P,
  C53).
* Microseconds are rounded twice (R, C50); the error is at most 1/2 + 2^-35 (P).
* `to_string` of a number keeps six decimals: small numbers are printed as 0 (R,
  C72).
* CSV: quotes are not doubled (R, C59).  Print: the column name is a format string
  (R, C60).
* Python: columns of the same name collapse in the dict (R, C61); the start index
  of a chunk is wrong after a skip (R, C62).
* R: vectors given to the callback are overwritten by the next rows (R, C69);
  `SinkData` delivers the rows again at each `end_of_data` (R, C63); row 2^31 has the
  index NA, and a datetime without text makes the sink throw (R, C63).
* R: `SinkByRow` opens no file (P, C86); a file whose created or modified date has no text
  cannot be opened (R, C86); the columns of the data frame are grouped by type (R, C87); a
  file without rows gives NULL (R, C87); with two or more full chunks `SinkByChunk` loses
  the first chunk and has the second twice (P, C88); rows kept by the program all become
  the last row (P, C89); a text with a zero byte inside ends there (R, C87); `columns` of
  the sink objects is always empty (P, C99), numbers from 2^53 on are rounded and the
  format of the file is not given (R, C99).
* Python: `df` of a file without rows raises ValueError (SinkByChunk) or is None
  (SinkWholeData) (R, C79); with a column of unknown type SinkByRow raises (R, C79); telling the end twice raises SystemError (P, C80); `df` asked
  for in the middle stays as it is (P, C82); a chunk after a failing `push_rows` is larger
  than the chunk size (R, C83).
* Python: what `reader.properties()` gives dangles once the Reader is gone (P, C100); a
  data set name, label or other text which is not UTF-8 cannot be asked for (R, C100);
  each time a missing creation date is asked for a reference to None is lost (P, C100).
* Python: a column whose name is not in UTF-8 cannot be excluded by the text of its name,
  only by its bytes (R, C103); a file name with a zero character opens another file (R,
  C103).  R: NA in `include` or `exclude` is the column called "NA" (R, C104).
* The command line program: nothing catches the exception of a file which cannot be read
  or of a cell without a text, so the process is terminated and the files behind it are
  not treated (R, C105); `csv` empties its first file and is terminated, for every list
  of files (C105).
* Python: a negative timedelta which is not a whole number of days is converted wrongly
  (R, C106), one of more than 106751991 days overflows (P, C106), dates before the year
  1400 raise (P, C106); a time of day given to Python is not taken back (R, C106).
* Print: a row which cannot be printed leaves the start of its line, and the next row
  follows on it (R, C85).
* The csv command truncates its own input and writes nothing else (P, C64).
* A read error of the device is thrown once (`cannot read page`); a program which catches it
  and reads on is told that the data has ended, and so is its sink; in the header it is
  called `header too short` (R, C114).
* Column: one which was moved from keeps its name and type but its accessors follow a null
  pointer; one built on a named formatter keeps a reference to it; `==` compares the names
  only (R, C115).
* A source given by name: when another part of the program reads from it, the Reader
  misses rows without an error; a table without rows takes the bytes of the table behind
  it; a source which ends before its Reader is undefined behaviour at the next page (R, C116).
* A header longer than a page: a row which reaches behind its page is completed with bytes of
  the header (R, C118).
* A file without rows (meta pages only): a page appended to it is taken as a part of the description (a table of two columns becomes one of one column); a file with fewer rows than announced: an appended page of data becomes rows, since the number of pages in the header is not consulted (R, C120).
* Rows lost without an error (R, C121): those behind the table of a mix page which has also
  rows in its table, when the data begin on it; those in the table of a later mix page or
  of a later amendment page; those which come before the text block in the table of the
  first page.
* A Python sink object used for a second file (R, C122): SinkByRow and SinkByChunk give the
  frame of the first file for ever once df was asked; when it was not, the rows of
  both files stand in one frame under the names of the second, or df raises ValueError.
  SinkWholeData keeps the frame of the first file when the second has no rows.
* An R sink object used for a second file (R, C123): SinkByChunk puts the rows of the second
  file below those of the first, and these rows are all right, where a new object loses the
  first chunk (C88).  SinkWholeData keeps the frame of the first file when the second has no rows.
* A csv or print sink given by name to two Readers whose calls alternate (R, C124): set_properties
  replaces the columns, so rows of the first file are written with the columns of the second; when
  these lie further behind, the sink reads outside the page.  It is so even if the second file could
  not be opened because fmt refused a name.
* Rows which are appended to a file after the Reader has met its end are never delivered, also when the
  client asks again and the header has announced them (R, C127).
* A file which is rewritten while it is read can be seen as a mixture which has not existed at any
  moment, with no error (R, C127).
* After a fault of the device nothing more can be read although the device works again: the stream
  keeps badbit, the source does not clear it, and the calls report the end of the data (R, C128).
* A file whose description stands behind a page of rows is opened without an error as one without columns
  and without rows (R, C129).
* A file whose page length is smaller than a page header is not refused: the header of each page is taken from
  the header of the file, which is still in the buffer, and the file is opened as one without columns and
  without rows (R, C130).
* Pages of type METC (16384) are ignored although page.hpp names the type: a file with its description on such a page
  is opened as one without columns and without rows (R, C131).
* `end_of_data` is delivered again by each call after the end (R, C39).

Seen in the code while modelling, not stated as theorems: `std::isprint` is called with negative values (undefined by the C
standard, the model follows glibc).

## Mutation tests

`seeded/LOG.jsonl` has one line per wrong program tried in a scratch copy: the
definition edited, the edit, the claim it breaks, the theorems which failed and
the ones which were tightened because of it.
