{"id": "C01", "title": "Short source is rejected with header_too_short", "statement": "Constructing a Reader over a source holding fewer than 288 bytes throws the 'header too short' exception; no sink callback is made and nothing else (abort, hang, undefined behaviour) can happen.", "quantifier": "every byte sequence shorter than 288 bytes, every sink and filter", "why_tests_cant": "2^2296 possible inputs; the unit test uses one truncated file", "anchors": ["src/header.hpp:CHECK_HEADER::CHECK_HEADER", "src/buffer.hpp:MBUFFER::read_stream", "include/cppsas7bdat/source/ifstream.hpp:read_bytes"]}
{"id": "C02", "title": "Only files carrying the magic number are opened", "statement": "If at least 288 bytes are available and the first 32 bytes differ from the SAS7BDAT magic number, construction throws 'invalid magic number'; if construction succeeds the first 32 bytes are the magic number.", "quantifier": "every byte sequence of at least 288 bytes", "why_tests_cant": "a test checks one wrong prefix; the claim is about all 2^256 prefixes", "anchors": ["src/header.hpp:CHECK_HEADER::check_magic_number", "src/header.hpp:HEADER_CONSTANTS::MAGIC_NUMBER"]}
{"id": "C03", "title": "Header fields are the documented bytes", "statement": "After a successful construction every header property (format, endianness, platform, encoding, dataset name, file type, dates, header length, page length, page count, release, server type, OS type, OS name) equals the decoding of the documented byte range for the file's alignment and byte order; with the OS-name fallback when its first byte is zero.", "quantifier": "every file whose header is long enough, all four endianness/format pairs, both alignments", "why_tests_cant": "the test corpus covers 177 headers out of an unbounded set, and no big-endian 64 bit corner cases", "anchors": ["src/header.hpp:READ_HEADER::set_header", "src/header.hpp:CHECK_HEADER::set_aligns_endianness"]}
{"id": "C04", "title": "Page reading starts right after the header", "statement": "When the header has been read the source has been consumed up to exactly header_length bytes, and a source that ends before header_length bytes makes construction throw 'header too short'.", "quantifier": "every file and every header_length field value of at least 288", "why_tests_cant": "needs every relation between file length and header_length", "anchors": ["src/header.hpp:READ_HEADER::set_header_length_and_read"]}
{"id": "C05", "title": "Header parsing stays inside the header buffer", "statement": "Parsing the header never reads outside the memory it allocated.", "quantifier": "every file, release and debug builds", "why_tests_cant": "requires adversarial header lengths (288..295) combined with alignments; out of bounds reads do not show up in assertions", "anchors": ["src/header.hpp:READ_HEADER::set_header", "src/buffer.hpp:MBUFFER::data"]}
{"id": "C06", "title": "Integer decoding is exact for both byte orders", "statement": "Decoding an unsigned 16, 32 or 64 bit integer written in the file's byte order returns the integer written; big-endian decoding of bytes equals little-endian decoding of the reversed bytes; signed 16 bit decoding is two's complement.", "quantifier": "every integer value, every width, both byte orders", "why_tests_cant": "2^64 values per width and order", "anchors": ["src/types.hpp:get_val", "src/buffer.hpp:EBUFFER", "src/buffer.hpp:BUFFER::get_uinteger"]}
{"id": "C07", "title": "Buffer growth keeps the bytes already read", "statement": "Enlarging or shrinking the reading buffer preserves the first min(old,new) bytes, reports the requested size and never leaves a size larger than the allocation, over any history of resizes and reads.", "quantifier": "every sequence of resize/read operations of any sizes", "why_tests_cant": "histories are unbounded; the interesting ones shrink then grow", "anchors": ["src/buffer.hpp:MBUFFER::resize", "src/buffer.hpp:MBUFFER::read_stream"]}
{"id": "C08", "title": "Range checks guard every checked access", "statement": "A checked access succeeds only if offset+length lies inside the buffer, and a failing check is reported to the caller as the 'invalid buffer access' exception.", "quantifier": "every 64 bit offset and length and every buffer size", "why_tests_cant": "needs offsets near 2^64 where the sum wraps", "anchors": ["src/buffer.hpp:MBUFFER::check", "src/buffer.hpp:MBUFFER::assert_check", "src/buffer.hpp:MBUFFER::data"]}
{"id": "C09", "title": "Opening and reading always terminate", "statement": "Constructing a Reader and every read or skip operation return (normally or by exception) after finitely many steps on every finite source.", "quantifier": "every finite file and every sequence of API calls", "why_tests_cant": "non-termination cannot be observed by a finite test; the failing inputs have a zero page length", "anchors": ["src/page.hpp:READ_PAGE::read_page", "src/metadata.hpp:READ_METADATA::set_metadata", "src/data.hpp:READ_DATA::read_next_page"]}
{"id": "C10", "title": "A truncated last page ends the data quietly", "statement": "If the source ends in the middle of a page, the incomplete page contributes no row and the reader reports a normal end of data, whatever the truncation point.", "quantifier": "every truncation point of every file", "why_tests_cant": "one crash/truncation point per byte of the file", "anchors": ["src/page.hpp:READ_PAGE::read_page", "src/data.hpp:READ_DATA::read_next_page"]}
{"id": "C11", "title": "A read error is reported once as an exception and then the reader is at its end", "statement": "If a source fails to deliver a page without being at end of file, the operation throws 'cannot read page', no row is pushed for it, and every later read reports the end of the data.", "quantifier": "every custom data source and every point at which it fails", "why_tests_cant": "fault points are unbounded and depend on source behaviour", "anchors": ["src/page.hpp:READ_PAGE::read_page", "src/data.hpp:READ_DATA::next"]}
{"id": "C12", "title": "Row-size information is read from the documented fields", "statement": "row_length, row_count, the two column counts, the mix page row count and the two creator lengths equal the integers stored at their documented positions of the row-size subheader, for both formats and byte orders.", "quantifier": "every page and every position of the subheader in it", "why_tests_cant": "positions and contents are unbounded", "anchors": ["src/metadata.hpp:READ_METADATA::process_ROW_SIZE_SUBHEADER"]}
{"id": "C13", "title": "Subheader dispatch is decided by the signature only", "statement": "Each subheader is handled by the handler of its signature, the eight signatures of a format are pairwise disjoint, and a subheader with an unknown signature that is not a data row changes nothing.", "quantifier": "every 4 or 8 byte signature", "why_tests_cant": "2^64 signatures", "anchors": ["src/metadata.hpp:READ_METADATA::process_subheader", "src/metadata.hpp:METADATA_CONSTANT"]}
{"id": "C14", "title": "Malformed subheader pointers are reported by a catchable exception", "statement": "A page whose subheader table points outside the page makes construction throw an exception that the caller can catch.", "quantifier": "every page content", "why_tests_cant": "needs a malformed file for every position and kind of pointer; a test process would be killed by the abort", "anchors": ["src/page.hpp:READ_PAGE::_get_page_subheader", "src/buffer.hpp:MBUFFER::assert_check"]}
{"id": "C15", "title": "Metadata parsing stays inside the page", "statement": "Processing a page whose subheaders are each long enough for their kind never reads outside the page and never aborts.", "quantifier": "every page and every well formed subheader table", "why_tests_cant": "out of bounds reads are invisible to assertions and depend on byte-level layouts", "anchors": ["src/metadata.hpp:READ_METADATA::process_subheader"]}
{"id": "C16", "title": "Text references never leave the text block and are trimmed", "statement": "The name, label or format obtained from a text reference (index, offset, length) is a contiguous part of the selected text block inside the referenced range, has no leading or trailing blank, and is empty for a missing block; no access outside the block occurs.", "quantifier": "every text block, index, offset and length", "why_tests_cant": "triples are unbounded, including offsets past the end", "anchors": ["src/metadata.hpp:READ_METADATA::get_column_text_substr"]}
{"id": "C17", "title": "Printable text references are returned in full", "statement": "A name, label or format whose referenced characters start and end with a non blank character is returned unchanged.", "quantifier": "every text block and reference, any encoding", "why_tests_cant": "needs labels in other encodings at every position", "anchors": ["src/metadata.hpp:READ_METADATA::get_column_text_substr"]}
{"id": "C18", "title": "Column i is built from the i-th entries", "statement": "After construction with no filter there are exactly column_count columns, and column i has the i-th name, label, format, offset, length and kind found in the metadata.", "quantifier": "every list of names/labels/formats/attributes", "why_tests_cant": "list lengths and contents are unbounded", "anchors": ["src/metadata.hpp:READ_METADATA::create_columns"]}
{"id": "C19", "title": "Missing column entries make construction fail", "statement": "If any of the name, label, format or attribute lists has fewer than column_count entries, construction throws an out_of_range exception and no Reader exists.", "quantifier": "every combination of list lengths", "why_tests_cant": "mismatches are combinatorial", "anchors": ["src/metadata.hpp:READ_METADATA::create_columns"]}
{"id": "C20", "title": "The column type follows the documented decision table", "statement": "The reported column type and value width are a function of the stored kind, length and format name: string; one and two byte integers; datetime, date and time by format name; 8 byte numbers; truncated 3..7 byte numbers; unknown otherwise.", "quantifier": "every kind, every length, every format name", "why_tests_cant": "format names and lengths are unbounded", "anchors": ["src/metadata.hpp:READ_METADATA::create_columns", "src/metadata.hpp:COLUMN_DATETIME_FORMAT", "src/formatters.hpp"]}
{"id": "C21", "title": "A filter selects an order preserving subset and changes nothing else", "statement": "With a column filter, the reported columns are exactly the accepted ones in file order, each identical to the unfiltered one; every other property, the rows and their indices are unchanged.", "quantifier": "every filter function and every file", "why_tests_cant": "filters are arbitrary functions", "anchors": ["src/metadata.hpp:READ_METADATA::create_columns", "include/cppsas7bdat/filter/column.hpp"]}
{"id": "C22", "title": "Include / Exclude / IncludeExclude semantics", "statement": "Include accepts exactly the listed names, Exclude exactly the others; IncludeExclude ignores the exclusions when inclusions are given, otherwise applies the exclusions, otherwise accepts everything.", "quantifier": "every name set and every column name", "why_tests_cant": "sets of names are unbounded", "anchors": ["include/cppsas7bdat/filter/column.hpp:Include", "include/cppsas7bdat/filter/column.hpp:Exclude", "include/cppsas7bdat/filter/column.hpp:IncludeExclude"]}
{"id": "C23", "title": "Compression is detected from the first text block only", "statement": "The file is treated as RLE compressed iff the first text block contains SASYZCRL, as RDC iff it does not but contains SASYZCR2, else as uncompressed; later text blocks have no influence.", "quantifier": "every sequence of text blocks", "why_tests_cant": "text blocks are unbounded", "anchors": ["src/metadata.hpp:READ_METADATA::process_COLUMN_TEXT_SUBHEADER"]}
{"id": "C24", "title": "A decompressed row is always exactly row_length initialised bytes", "statement": "Whenever RLE or RDC decompression returns, the row has exactly row_length bytes and each one was written by this decompression (no stale or uninitialised byte); no write ever falls outside the row buffer.", "quantifier": "every compressed byte sequence and every row_length, any previous buffer contents", "why_tests_cant": "2^(8n) inputs", "anchors": ["src/decompressors.hpp:RLE", "src/decompressors.hpp:RDC", "src/decompressors.hpp:DST_VALUES"]}
{"id": "C25", "title": "RLE decoding expands every command sequence", "statement": "Decompressing the encoding of a sequence of RLE commands (all thirteen kinds) gives the concatenation of their expansions, padded with zero bytes to row_length.", "quantifier": "every command sequence that fits the row", "why_tests_cant": "command sequences are unbounded", "anchors": ["src/decompressors.hpp:RLE"]}
{"id": "C26", "title": "RLE decoding keeps a final one-byte command", "statement": "The previous claim also holds when the last command is one byte long (a run of blanks, zeros or '@').", "quantifier": "every command sequence", "why_tests_cant": "depends on the last byte of each compressed row", "anchors": ["src/decompressors.hpp:RLE"]}
{"id": "C27", "title": "Corrupt RLE rows raise cannot_decompress", "statement": "An unknown RLE command, or a command that would overflow the row, throws the catchable 'cannot decompress' exception.", "quantifier": "every command byte 0x10..0x3F and every overflow length at every position", "why_tests_cant": "positions and prefixes are unbounded", "anchors": ["src/decompressors.hpp:RLE", "src/decompressors.hpp:DST_VALUES::assert_check"]}
{"id": "C28", "title": "RDC decoding expands every item sequence", "statement": "Decompressing the encoding of a sequence of RDC items (literals, short/long runs, short/long back references) gives their expansion padded with zeros to row_length.", "quantifier": "every item sequence that fits the row and whose back references are valid", "why_tests_cant": "item sequences are unbounded", "anchors": ["src/decompressors.hpp:RDC"]}
{"id": "C29", "title": "RDC decoding keeps trailing literals", "statement": "The previous claim also holds when fewer than three bytes of the compressed row remain.", "quantifier": "every item sequence", "why_tests_cant": "depends on the tail of each compressed row", "anchors": ["src/decompressors.hpp:RDC"]}
{"id": "C30", "title": "Decompressors never read outside the compressed row or the row buffer", "statement": "Decompression of any byte sequence reads only the compressed bytes and bytes of the row already produced, or throws.", "quantifier": "every compressed byte sequence", "why_tests_cant": "out of bounds reads by 1..3 bytes are invisible to tests", "anchors": ["src/decompressors.hpp:SRC_VALUES::pop", "src/decompressors.hpp:RDC::store_pattern", "src/buffer.hpp:MBUFFER::copy"]}
{"id": "C31", "title": "Decompression depends only on the current row", "statement": "The bytes of a decompressed row are a function of the compressed row and row_length, independent of the rows decompressed before (also after a failed one).", "quantifier": "every history of decompressions", "why_tests_cant": "histories are unbounded; the buffer is shared", "anchors": ["src/decompressors.hpp:DST_VALUES"]}
{"id": "C32", "title": "Rows are delivered in file order with consecutive indices", "statement": "The n-th row consumed (pushed, returned or skipped) has index n starting at 0, over any history of read, skip and no-sink calls.", "quantifier": "every sequence of API calls on every file", "why_tests_cant": "call histories are unbounded", "anchors": ["src/reader-impl.hpp:ReaderImpl", "src/data.hpp:READ_DATA::_read_line"]}
{"id": "C33", "title": "Never more rows than announced", "statement": "The number of rows consumed never exceeds the row_count property, over any history.", "quantifier": "every sequence of API calls on every file", "why_tests_cant": "call histories and corrupt files are unbounded", "anchors": ["src/data.hpp:READ_DATA::next"]}
{"id": "C34", "title": "Any way of slicing the reads yields the same rows", "statement": "read_rows(n) equals n calls of read_row stopping at the first failure and returns true iff n rows were pushed; read_rows(a) then read_rows(b) equals read_rows(a+b); read_all equals read_row until it fails; read_rows(0) does nothing.", "quantifier": "every a, b, n and every reader state", "why_tests_cant": "unbounded slicings", "anchors": ["src/reader-impl.hpp:impl::read_rows", "src/reader-impl.hpp:impl::read_all"]}
{"id": "C35", "title": "Skipping k rows is reading k rows and discarding them", "statement": "After skip(k) returns true the reader delivers exactly the rows it would deliver after k successful reads; skip returns true iff k rows were available and calls end_of_data otherwise.", "quantifier": "every k and every reader state", "why_tests_cant": "unbounded k and states, including page boundaries", "anchors": ["src/data.hpp:READ_DATA::skip", "src/reader-impl.hpp:ReaderImpl::skip"]}
{"id": "C36", "title": "read_row_no_sink returns the row read_row would push", "statement": "read_row_no_sink returns the same bytes and advances the reader exactly as read_row, makes no sink call, and returns null exactly when read_row would return false.", "quantifier": "every reader state", "why_tests_cant": "states are unbounded", "anchors": ["src/reader-impl.hpp:ReaderImpl::read_row_no_sink"]}
{"id": "C37", "title": "The end of the data is final", "statement": "Once a read or skip has reported the end, every later read or positive skip reports the end again, pushes nothing and leaves current_row_index unchanged.", "quantifier": "every history after the end", "why_tests_cant": "unbounded continuations", "anchors": ["src/data.hpp:READ_DATA::next"]}
{"id": "C38", "title": "Sink protocol", "statement": "set_properties is called exactly once, before anything else; push_row only during read_row/read_rows/read_all; end_of_data is called exactly once per operation that reports the end (and per explicit call) and never by a successful one.", "quantifier": "every history of API calls", "why_tests_cant": "call histories are unbounded", "anchors": ["src/reader-impl.hpp:impl", "src/reader-impl.hpp:ReaderImpl"]}
{"id": "C39", "title": "end_of_data is delivered exactly once", "statement": "A sink attached to a reader receives end_of_data exactly once, even if the caller keeps calling after the end.", "quantifier": "every history of API calls", "why_tests_cant": "histories after the end are unbounded", "anchors": ["src/reader-impl.hpp:ReaderImpl::read_row", "src/reader-impl.hpp:ReaderImpl::skip"]}
{"id": "C40", "title": "An empty Reader is inert", "statement": "A default constructed or moved-from Reader answers false, 0, null and empty properties to every call and never touches a sink.", "quantifier": "every history of API calls", "why_tests_cant": "call histories are unbounded", "anchors": ["src/reader.cpp"]}
{"id": "C41", "title": "A failed row does not stop the reader", "statement": "If decompressing a row throws, the row counts as consumed, nothing is pushed for it, and the next read delivers the following row as if the failed row had been skipped.", "quantifier": "every file and every failing row", "why_tests_cant": "failure points are unbounded", "anchors": ["src/data.hpp:READ_DATA::read_line", "src/decompressors.hpp"]}
{"id": "C42", "title": "Row bytes come from the documented place of the page", "statement": "For a data page the k-th row is the row_length bytes at 8+k*row_length after the page prefix; for a mix page it starts at the first multiple of 8 after the subheader table and there are min(row_count, mix count) of them; for a meta page of a compressed file the k-th row is the k-th data subheader, decompressed iff shorter than row_length.", "quantifier": "every page of every type, both formats", "why_tests_cant": "page contents are unbounded", "anchors": ["src/data.hpp:PAGE", "src/data.hpp:READ_DATA::build_page", "src/data.hpp:READ_DATA::extract_row_values"]}
{"id": "C43", "title": "Reading the whole file yields the concatenation of the page rows", "statement": "read_all pushes exactly the first row_count rows of the concatenation, in page order, of the rows stored on each page.", "quantifier": "every file whose pages after the first are non empty", "why_tests_cant": "numbers of pages and rows are unbounded", "anchors": ["src/data.hpp:READ_DATA", "src/reader-impl.hpp"]}
{"id": "C44", "title": "A page announcing zero rows contributes no row", "statement": "A data or mix page whose row number is zero is skipped wherever it appears.", "quantifier": "every page sequence", "why_tests_cant": "depends on the position of the empty page", "anchors": ["src/data.hpp:READ_DATA::next"]}
{"id": "C45", "title": "A row never extends outside its page", "statement": "Every row delivered lies inside the page it was read from, or the operation fails in a defined way.", "quantifier": "every file, release and debug builds", "why_tests_cant": "in release builds the check is compiled out and out of range rows look like data", "anchors": ["src/data.hpp:READ_DATA::extract_row_values"]}
{"id": "C46", "title": "String values are the stored bytes without trailing blanks", "statement": "get_string returns the longest prefix of the column's bytes that does not end in a NUL or white space byte; it is empty iff all bytes are such; interior and leading bytes are unchanged.", "quantifier": "every row content, offset and length", "why_tests_cant": "2^(8n) contents", "anchors": ["src/types.hpp:get_string_trim_0", "src/formatters.hpp:StringFormatter"]}
{"id": "C47", "title": "Numbers keep every stored bit", "statement": "An 8 byte number is returned bit for bit; a number stored on n<8 bytes is the double whose n most significant bytes are the stored ones and the others zero; one byte integers are unsigned, two byte integers two's complement.", "quantifier": "every bit pattern, n=3..7, both byte orders", "why_tests_cant": "2^64 patterns", "anchors": ["src/types.hpp:get_double", "src/types.hpp:get_incomplete_double", "src/formatters.hpp"]}
{"id": "C48", "title": "A getter of the wrong kind returns the missing value", "statement": "Calling a getter that does not match the column type returns the documented default (empty string, NaN, 0, not-a-date) and reads no memory.", "quantifier": "every column type and getter pair, every row", "why_tests_cant": "pairs times rows", "anchors": ["src/formatters.hpp:IFormatter"]}
{"id": "C49", "title": "Getters read only the column's own bytes", "statement": "The value returned by a getter depends only on the column's bytes [offset, offset+length) of the row.", "quantifier": "every column and every pair of rows agreeing on the column", "why_tests_cant": "a relational property over pairs of rows", "anchors": ["src/formatters.hpp:DateTimeFormatter", "src/formatters.hpp:DateFormatter", "src/formatters.hpp:TimeFormatter"]}
{"id": "C50", "title": "Datetimes are exact to the microsecond", "statement": "A datetime value of s seconds (finite, |s| below 2^37) is returned as 1960-01-01 plus s rounded to microseconds, exactly when s is an integer; NaN is returned as not-a-date-time.", "quantifier": "every double in the range", "why_tests_cant": "2^60 doubles, floating point rounding", "anchors": ["src/types.hpp:get_datetime_from_epoch"]}
{"id": "C51", "title": "Dates are exact and follow the Gregorian calendar", "statement": "A date value of d days (finite) is returned as the Gregorian date d days (rounded to nearest) after 1960-01-01, and advancing the value by one advances the date to the next calendar day including leap years.", "quantifier": "every day number in the supported years", "why_tests_cant": "3.1 million days and their neighbours; floats in between", "anchors": ["src/types.hpp:get_date_from_epoch_days"]}
{"id": "C52", "title": "Times are the stored number of seconds", "statement": "A time value of s seconds is returned as a duration of s seconds.", "quantifier": "every s, including durations above 24 hours and negative ones", "why_tests_cant": "unbounded values", "anchors": ["src/types.hpp:get_time_from_epoch"]}
{"id": "C53", "title": "Out of range dates are reported without killing the process", "statement": "A date outside the years representable by the date library gives a missing value or a catchable exception.", "quantifier": "every double", "why_tests_cant": "a test hitting it would kill the test process", "anchors": ["src/types.hpp:get_date_from_epoch_days", "src/formatters.hpp:DateTimeFormatter::get_date"]}
{"id": "C54", "title": "Text rendering of dates and times is faithful and fits its buffer", "statement": "to_string of a date, datetime or time of day produces the zero padded ISO text, distinct values give distinct texts, and the text fits the fixed buffers.", "quantifier": "every date of the supported years and every microsecond of the day", "why_tests_cant": "8.64e10 times of day times 3.1e6 dates", "anchors": ["src/types.cpp:to_string"]}
{"id": "C55", "title": "Printing a missing date, datetime or time is safe", "statement": "Column::to_string on a missing date, datetime or time value produces a text or throws; it never reads outside its buffer.", "quantifier": "the missing value of each type", "why_tests_cant": "over-read of a stack buffer is invisible to assertions", "anchors": ["src/types.cpp:to_string", "src/formatters.hpp:TimeFormatter::to_string"]}
{"id": "C56", "title": "Grouping columns by type is a partition", "statement": "Columns groups contain every column of a known type exactly once, in file order within each group, and nothing else.", "quantifier": "every column list", "why_tests_cant": "lists are unbounded", "anchors": ["src/column.cpp:Columns", "src/column.cpp:get_columns"]}
{"id": "C57", "title": "Every encoding byte has an encoding name", "statement": "The encoding property is the documented name for each of the known codes and WINDOWS-1252 for every other byte value; it is never empty.", "quantifier": "all 256 byte values", "why_tests_cant": "tests see the few encodings of the corpus", "anchors": ["src/encodings.cpp:get_encoding"]}
{"id": "C58", "title": "Every CSV line has one field per column", "statement": "The CSV sink writes one header line and one line per row, each with exactly (number of columns - 1) field separators outside quoted fields, provided no text contains a double quote or line break.", "quantifier": "every table", "why_tests_cant": "tables are unbounded", "anchors": ["include/cppsas7bdat/sink/csv.hpp"]}
{"id": "C59", "title": "CSV text determines the data", "statement": "Two different rows of text columns give different CSV lines.", "quantifier": "every pair of rows", "why_tests_cant": "a relational property over pairs of rows", "anchors": ["include/cppsas7bdat/sink/csv.hpp:print"]}
{"id": "C60", "title": "The print sink prints any column name", "statement": "The print sink writes the header line with every column name verbatim.", "quantifier": "every column name", "why_tests_cant": "names containing braces are never in the corpus", "anchors": ["include/cppsas7bdat/sink/print.hpp:set_properties"]}
{"id": "C61", "title": "Python chunks partition the rows", "statement": "A Python chunk sink of size n delivers the pushed rows in order, each exactly once, in chunks of exactly n rows except the last one which is delivered at the end of the data; a data sink delivers all of them at once.", "quantifier": "every row sequence and chunk size", "why_tests_cant": "unbounded sequences", "anchors": ["python/pycppsas7bdat/cpp/sink.hpp:SinkChunk", "python/pycppsas7bdat/cpp/sink.hpp:SinkData"]}
{"id": "C62", "title": "Python chunk bounds are the indices of its rows", "statement": "The start and end row numbers passed with a chunk are the indices of its first and last row, also when rows were skipped.", "quantifier": "every history of reads and skips", "why_tests_cant": "histories are unbounded", "anchors": ["python/pycppsas7bdat/cpp/sink.hpp:SinkChunk::clear_values"]}
{"id": "C63", "title": "R chunks partition the rows and stay inside their vectors", "statement": "The R chunk sink never writes outside its column vectors and delivers each pushed row exactly once, in order, with its index.", "quantifier": "every history of reads, skips and end_of_data calls", "why_tests_cant": "histories are unbounded; the overflow is silent", "anchors": ["R/CPPSAS7BDAT/src/sink_chunk.hpp", "R/CPPSAS7BDAT/src/sink_by_columns.hpp", "R/CPPSAS7BDAT/src/sink_data.hpp"]}
{"id": "C64", "title": "The csv command keeps its input file", "statement": "cppsas7bdat-ci csv F writes F's content as CSV to a separate file and leaves F unchanged.", "quantifier": "every file system state and every file name", "why_tests_cant": "unbounded file systems; a test would have to destroy its fixture", "anchors": ["apps/cppsas7bdat-ci.cpp:process_csv", "apps/cppsas7bdat-ci.cpp:get_csv_filename"]}
{"id": "C65", "title": "print --nlines=n prints at most n rows", "statement": "The print command reads exactly min(n, available) rows for n >= 0 and all rows when n is negative or absent.", "quantifier": "every n and every file", "why_tests_cant": "unbounded n", "anchors": ["apps/cppsas7bdat-ci.cpp:process_print"]}
{"id": "C66", "title": "Whole-file round trip", "statement": "For every table (columns with names, labels, formats, widths; rows of bytes) encoded as an uncompressed SAS7BDAT file in any of the four format/byte-order combinations, opening and reading the file gives back the table: same columns in order, same rows in order.", "quantifier": "every table that fits the layout, every page split", "why_tests_cant": "end-to-end statement over unbounded tables", "anchors": ["src/sas7bdat-impl.hpp", "src/metadata.hpp", "src/data.hpp", "src/header.hpp"]}
{"id": "C67", "title": "Data rows are never mistaken for metadata", "statement": "In a compressed file, every data subheader of the first data page is delivered as a row.", "quantifier": "every compressed row content", "why_tests_cant": "depends on the first bytes of a row colliding with a signature", "anchors": ["src/metadata.hpp:READ_METADATA::process_subheader"]}
{"id": "C68", "title": "The csv sink made from a file name writes the file", "statement": "Reader(source, csv(filename)) followed by read_all writes the CSV text of the dataset to the named file.", "quantifier": "every dataset and file name", "why_tests_cant": "the stream is used after its object is gone: what a test sees depends on the compiler and the stack", "anchors": ["include/cppsas7bdat/sink/csv.hpp:detail::csv_ofstream", "include/cppsas7bdat/reader.hpp:DatasetSinkModel"]}
{"id": "C69", "title": "Chunks given to R keep their content", "statement": "A vector passed to push_rows is not modified by the sink afterwards.", "quantifier": "every history", "why_tests_cant": "a test which only looks at a chunk during the call does not see it; the change happens at the next row", "anchors": ["R/CPPSAS7BDAT/src/sink_by_columns.hpp:set_values", "R/CPPSAS7BDAT/src/sink_chunk.hpp:push_row"]}
{"id": "C70", "title": "Whole-file round trip of compressed files", "statement": "For every table whose rows are stored as RLE or RDC compressed subheaders (or uncompressed when that is not longer), on any split into pages, in any of the four format/byte-order combinations, opening and reading the file reports that compression and gives back the table: same columns in order, same rows in order.", "quantifier": "every table that fits the layout, every encoder output, every page split", "why_tests_cant": "end-to-end statement over unbounded tables and over all the encodings of each row", "anchors": ["src/sas7bdat-impl.hpp", "src/metadata.hpp", "src/data.hpp", "src/decompressors.hpp"]}
{"id": "C71", "title": "Texts of integers and numbers", "statement": "to_string of an integer column gives the decimal text of the value without superfluous zeros; of a number column the value rounded to six decimals, to the even millionth when two are as near, with its sign; nan and inf for the values that are not finite.", "quantifier": "every stored integer and all 2^64 doubles", "why_tests_cant": "the rounding of large and tiny doubles and the ties cannot be covered by samples", "anchors": ["src/formatters.hpp:to_string", "src/column.cpp:Column::to_string"]}
{"id": "C72", "title": "Different numbers have different texts", "statement": "to_string of two different finite numbers gives two different texts.", "quantifier": "all pairs of doubles", "why_tests_cant": "a pair which collides must be guessed", "anchors": ["src/formatters.hpp:to_string", "include/cppsas7bdat/sink/print.hpp:push_row"]}
{"id": "C73", "title": "The cells of a written table come back", "statement": "For every table of texts, integers, numbers, days, datetimes with microseconds, times and missing values stored in a SAS7BDAT file (either byte order, 32 or 64 bits, uncompressed, RLE or RDC, any split into pages), read_all gives the sink the rows in order, each column getter returns the stored value, and to_string its text.", "quantifier": "every table, file layout and column filter", "why_tests_cant": "end-to-end from contents to values over unbounded tables", "anchors": ["src/reader-impl.hpp:read_all", "src/formatters.hpp", "src/metadata.hpp", "src/data.hpp", "include/cppsas7bdat/column.hpp"]}
{"id": "C74", "title": "The csv text of a written table", "statement": "For every such table the csv sink, driven by read_all, writes a line with the column names and then one line per row, whose fields are the texts of the contents of the row in column order.", "quantifier": "every table and file layout", "why_tests_cant": "end-to-end from contents to the output text", "anchors": ["include/cppsas7bdat/sink/csv.hpp", "src/reader-impl.hpp:read_all"]}
{"id": "C75", "title": "The printed text of a written table", "statement": "For every such table the print sink, driven by read_all, writes its report, the column names, and one line per row with its index and the texts of its contents in column order.", "quantifier": "every table and file layout", "why_tests_cant": "end-to-end from contents to the output text", "anchors": ["include/cppsas7bdat/sink/print.hpp", "src/reader-impl.hpp:read_all", "src/types.cpp"]}
{"id": "C76", "title": "The report of the print sink determines the properties", "statement": "Two files for which the print sink writes the same report have the same format, byte order, platform, dates, names, compression, creator, counts and columns (name, label, format, type).", "quantifier": "every pair of headers and metadata", "why_tests_cant": "a quantification over pairs of files", "anchors": ["include/cppsas7bdat/sink/print.hpp:print_properties", "src/types.cpp:to_string"]}
{"id": "C77", "title": "A failing sink stops the call and loses at most the refused row", "statement": "When a callback of the sink fails in read_row, read_rows, read_all, skip or end_of_data, the call ends at once with that failure and makes no further callback; the callbacks made are the first ones which the same call makes with a sink that never fails; the reader stands behind the refused row, so that over every history of calls (the client catching exceptions and going on) no row is given twice or after a later one. With a sink which never fails nothing changes.", "quantifier": "every source, every sink (any state, any pattern of failures), every history of calls", "why_tests_cant": "the sink is an arbitrary program; the histories mix failures of the sink and of the library", "anchors": ["src/reader-impl.hpp:read_row", "src/reader-impl.hpp:read_rows", "src/reader-impl.hpp:read_all", "src/reader-impl.hpp:skip"]}
{"id": "C78", "title": "The constructor calls set_properties once, last", "statement": "The constructor of Reader calls the sink exactly once, with the properties, after the header, the metadata and the first page have been read without failure, and not at all when one of these fails; a failure of set_properties is the failure of the constructor.", "quantifier": "every source, sink, filter", "why_tests_cant": "the sink and the source are arbitrary", "anchors": ["src/reader.cpp:build", "src/reader-impl.hpp:impl"]}
{"id": "C79", "title": "read_sas(...).df is the table", "statement": "For every file of known content, read_sas with any of the sinks SinkByRow, SinkByChunk (any chunk size) and SinkWholeData and any include and exclude lists gives a sink whose df has the wanted columns, in file order and with their names, and in cell (i, j) the content j of row i.", "quantifier": "every table, file layout, sink class, chunk size and filter lists", "why_tests_cant": "end-to-end from contents to the data frame", "anchors": ["python/pycppsas7bdat/read_sas.py:read_sas", "python/pycppsas7bdat/sink.py", "python/pycppsas7bdat/cpp/reader.cpp", "python/pycppsas7bdat/cpp/sink.hpp"]}
{"id": "C80", "title": "The end can be told again to a Python sink", "statement": "After the end of the data was told to a Python sink, reading again or calling end_of_data again returns the end answer, as it does for other sinks.", "quantifier": "every source, sink class, and sequence of reads before the end", "why_tests_cant": "needs a client which reads past the end after any sequence of reads", "anchors": ["python/pycppsas7bdat/cpp/sink.hpp:end_of_data", "python/pycppsas7bdat/cpp/sink.hpp:del_cpp_attr"]}
{"id": "C81", "title": "df does not depend on the life of the Reader", "statement": "Asking a Python sink for df is defined whether or not the Reader which filled it still exists.", "quantifier": "every source, sink class, and sequence of reads", "why_tests_cant": "a use of freed memory often shows no symptom", "anchors": ["python/pycppsas7bdat/cpp/sink.hpp:set_cpp_attr", "python/pycppsas7bdat/sink.py:_cpp_flush_sink"]}
{"id": "C82", "title": "df asked for in the middle does not disturb the reading", "statement": "After df was asked for in the middle of the file, reading on works and df then has all the rows read.", "quantifier": "every source, sink class, and sequence of reads before and after", "why_tests_cant": "depends on the order of calls", "anchors": ["python/pycppsas7bdat/sink.py:df", "python/pycppsas7bdat/cpp/sink.hpp:flush_sink"]}
{"id": "C83", "title": "Python chunks are conserved when push_rows raises", "statement": "When push_rows raises for some chunks and the program reads on, the chunks which were accepted are the rows pushed, in order, none lost and none twice, each chunk not larger than the chunk size; when end_of_data returns all rows were delivered, and when it raises it can be tried again.", "quantifier": "every Python object (any pattern of exceptions), chunk size, columns and rows", "why_tests_cant": "the object is an arbitrary program", "anchors": ["python/pycppsas7bdat/cpp/sink.hpp:SinkChunk"]}
{"id": "C84", "title": "R chunks: reading on after push_rows failed is safe", "statement": "When the R function push_rows fails for a chunk, the next push_row is defined.", "quantifier": "every R function, chunk size, columns and rows", "why_tests_cant": "a write behind a vector often shows no symptom", "anchors": ["R/CPPSAS7BDAT/src/sink_chunk.hpp:push_row", "R/CPPSAS7BDAT/src/sink_chunk.hpp:flush"]}
{"id": "C85", "title": "The print sink writes whole lines", "statement": "For every row the print sink writes one whole line (index, texts of the columns, end of line) or, when the text of a column cannot be made, nothing.", "quantifier": "every list of columns and row", "why_tests_cant": "needs a row with a value which cannot be printed, followed by another", "anchors": ["include/cppsas7bdat/sink/print.hpp:push_row"]}
{"id": "C86", "title": "R: a readable file opens with each sink class of the package", "statement": "A file which the C++ reader opens is opened in R with SinkByRow, SinkByChunk and SinkWholeData.", "quantifier": "every source and filter", "why_tests_cant": "a test of one class says nothing of the others; the dates of the header are arbitrary", "anchors": ["R/CPPSAS7BDAT/R/sink.R:SinkByRow", "R/CPPSAS7BDAT/src/wrap_properties.hpp:wrap_properties", "R/CPPSAS7BDAT/src/reader.cpp:_build"]}
{"id": "C87", "title": "R: read_sas returns the table", "statement": "read_sas(file, include, exclude) in R gives a data frame with the wanted columns, in the order of the file, whose cells are the contents of the rows in order.", "quantifier": "every table written to a file, every include and exclude list", "why_tests_cant": "unbounded number of tables and lists", "anchors": ["R/CPPSAS7BDAT/R/read_sas.R:read_sas", "R/CPPSAS7BDAT/R/sink.R:SinkWholeData", "R/CPPSAS7BDAT/src/sink_data.hpp:SinkData"]}
{"id": "C88", "title": "R: SinkByChunk holds the table", "statement": "After reading a file with SinkByChunk its df has the rows of the file, whatever the chunk size.", "quantifier": "every source, chunk size, columns and rows", "why_tests_cant": "depends on the number of full chunks and on which vectors are shared", "anchors": ["R/CPPSAS7BDAT/R/sink.R:SinkByChunk", "R/CPPSAS7BDAT/src/sink_chunk.hpp:flush", "R/CPPSAS7BDAT/src/sink_by_columns.hpp:push_row"]}
{"id": "C89", "title": "R: the rows given to push_row", "statement": "The row sink of the R binding gives each row as a list of its cells, NULL for a column of unknown type and for a missing date, datetime or time, NA for a number which is NaN; a list which the program keeps stays that row.", "quantifier": "every list of columns and rows, and every row of them", "why_tests_cant": "unbounded rows; the sharing of the list is only seen by a program which keeps it", "anchors": ["R/CPPSAS7BDAT/src/sink.hpp:push_row"]}
{"id": "C90", "title": "Every file which holds a table is read as that table", "statement": "Whoever wrote the file and however its description is spread over subheaders and pages: when its bytes say a table (header, columns, places and compressed forms of the rows), the reader gives the columns and the rows of that table, for every history of calls.", "quantifier": "every byte string which says a table, every filter, every history of calls", "why_tests_cant": "test files come from a few writers; the ways to spread the same table over pages and subheaders are unbounded", "anchors": ["src/reader.cpp:Reader", "src/metadata.hpp:process_subheader", "src/data.hpp:read_line", "src/decompressors.hpp:operator()"]}
{"id": "C91", "title": "A file which is cut off", "statement": "Of a file which is cut off behind its description, the reader delivers the rows of the complete pages, in order and unchanged, and it tells that rows are missing. Wherever a file is cut off, opening it throws or what is read are columns of the file and the first of its rows.", "quantifier": "every file which holds a table, every place to cut it, every history of calls", "why_tests_cant": "the places to cut a file are unbounded; a test would need the same file cut at each of them", "anchors": ["src/data.hpp:read_line", "src/data.hpp:read_next_page", "src/page.hpp:read_page", "src/reader.cpp:read_row"]}
{"id": "C92", "title": "The size subheaders are recognised in every form", "statement": "The row size and column size subheaders of a 64 bit file are recognised in each of the forms which SAS writes (the other half of the signature being zero or FFFFFBFE), so that two files which say the same table are read as the same table.", "quantifier": "every page buffer and subheader, every file without a recognised size subheader, every history of calls", "why_tests_cant": "the test files in the newer form (test13 to test15) are not compared with references; the content of the files is unbounded", "anchors": ["src/metadata.hpp:ROW_SIZE_SUBHEADER", "src/metadata.hpp:COLUMN_SIZE_SUBHEADER", "src/metadata.hpp:process_subheader"]}
{"id": "C93", "title": "Python: the column names are given as text whatever the encoding of the file", "statement": "Reading a file in Python gives the table with its column names as text, whatever the encoding of the file is: a name with letters outside ASCII is decoded, and the reading never fails for it.", "quantifier": "every source which opens, every choice of columns, every sink class of the package and every object used as a chunk sink, every list of rows; every byte string as a name", "why_tests_cant": "the names of the test files are ASCII; whether a byte string is UTF-8 is a property of infinitely many strings", "anchors": ["python/pycppsas7bdat/cpp/sink.hpp:set_dict_values", "python/pycppsas7bdat/cpp/pycppsas7bdat.cpp:Column::name", "python/pycppsas7bdat/sink.py:set_properties"]}
{"id": "C94", "title": "Python: dates, datetimes and times are the Python objects with the same date and time", "statement": "A date, datetime or time cell is given to Python as the date, datetime or time object with the same year, month, day, hour, minute, second and microsecond, None when it is missing; different values are different objects, and the reading never fails for a cell which the reader itself can read.", "quantifier": "every value, every cell of every column, every file which holds a table with at least one row, every choice of columns and sink class; every object used as a chunk sink and every list of rows", "why_tests_cant": "the dates and times are far too many to try; the test files have no datetime outside the supported years", "anchors": ["python/pycppsas7bdat/cpp/import_datetime.cpp:ptime_to_python_datetime", "python/pycppsas7bdat/cpp/import_datetime.cpp:tduration_to_python_delta", "python/pycppsas7bdat/cpp/import_datetime.cpp:gregorian_date_to_python_date", "python/pycppsas7bdat/cpp/sink.hpp:set_dict_values"]}
{"id": "C95", "title": "Python: missing dates leave the reference count of None alone", "statement": "Making a list of values and freeing it again leaves the number of references to None as it was, so that reading any number of missing dates, datetimes and times is harmless.", "quantifier": "every sequence of lists of values and every number of references before", "why_tests_cant": "a test process ends before the references to None are used up; the number of missing dates is unbounded", "anchors": ["python/pycppsas7bdat/cpp/import_datetime.cpp:convert", "python/pycppsas7bdat/cpp/sink.hpp:set_dict_values"]}
{"id": "C96", "title": "Pages are recognised by their kind whatever their marks", "statement": "The kind of a page is in bits 8 to 11 of its type, and bit 7 marks a page some of whose rows have been deleted: a marked page is read as the same page without the mark, and a page of rows is never passed over without notice.", "quantifier": "every page buffer; every file which holds a table, every page behind the start of its data, every history of calls", "why_tests_cant": "no test file has a marked page; the files which have one are unbounded", "anchors": ["src/page.hpp:is_page_mix", "src/page.hpp:is_page_data_mix", "src/page.hpp:is_page_meta_mix_amd", "src/data.hpp:read_next_page", "src/metadata.hpp:process_page"]}
{"id": "C97", "title": "The texts of the columns are found wherever their blocks are", "statement": "The name, the format and the label of a column are the texts to which the subheaders of the file refer, wherever in the file their text blocks are: a label which was added later, whose text block is on a page behind the rows, is given like any other.", "quantifier": "every file whose description can be read, every choice of columns; every file which holds a table and every page inserted behind the start of its data", "why_tests_cant": "the tests do not compare the labels (the check is commented out), and six of the test files have such labels; the ways to place text blocks are unbounded", "anchors": ["src/metadata.hpp:get_column_text_substr", "src/metadata.hpp:process_FORMAT_AND_LABEL_SUBHEADER", "src/metadata.hpp:process_COLUMN_NAME_SUBHEADER", "src/metadata.hpp:set_metadata", "src/metadata.hpp:process_page"]}
{"id": "C98", "title": "Dates, datetimes and times stored on 3 to 7 bytes come back", "statement": "A date, datetime or time column of 3 to 7 bytes (the first bytes of the double, as SAS stores shortened numbers) gives the date, datetime or time of the number which is stored, whatever the bytes of the next columns are.", "quantifier": "every column of 3 to 7 bytes in either byte order, every row, every stored number", "why_tests_cant": "no test file has a shortened date; the stored numbers and the bytes behind them are far too many to try", "anchors": ["src/formatters.hpp:DateFormatter", "src/formatters.hpp:DateTimeFormatter", "src/formatters.hpp:TimeFormatter", "src/metadata.hpp:create_columns", "src/types.hpp:get_date_from_epoch"]}
{"id": "C99", "title": "R: a sink object is told what is known of the file", "statement": "set_properties of an R sink object gets every fact of the file and of its columns, each under its name: the words for byte order, platform, compression and types, the texts, the dates, the numbers exactly; the classes of the package keep it, with the names of the columns in their attribute columns.", "quantifier": "every header and description, every sink object and kind of sink; for the classes every source, every choice of columns and every history of calls", "why_tests_cant": "the R tests never look at the properties; the facts are far too many to try", "anchors": ["R/CPPSAS7BDAT/src/wrap_properties.hpp:wrap_properties", "R/CPPSAS7BDAT/src/sink_base.hpp:set_properties", "R/CPPSAS7BDAT/R/sink.R:set_properties"]}
{"id": "C100", "title": "Python: the properties object has what is known of the file", "statement": "The Properties object given to a Python sink and by Reader.properties() has the facts of the file under their names: format, endianness, platform and compression as members of the enums, dates as datetime objects (None when missing), sizes and counts as exact ints, texts as str, the columns with name, format, label and type; no other attribute. It stays the same whatever is read and as long as the program keeps it, and asking for an attribute has no other effect.", "quantifier": "for every file which opens, every source and filter, every sink class, every sequence of reads, df, flushes and drops of the Reader, every attribute name", "why_tests_cant": "the Python tests look at a few attributes of small files while the Reader is alive; lifetimes and reference counts do not show in values", "anchors": ["python/pycppsas7bdat/cpp/pycppsas7bdat.cpp:BOOST_PYTHON_MODULE", "python/pycppsas7bdat/cpp/reader.cpp:bind_reader", "python/pycppsas7bdat/cpp/sink.hpp:set_properties", "python/pycppsas7bdat/sink.py:set_properties"]}
{"id": "C101", "title": "What a data source is asked", "statement": "A Reader asks its source first for 288 bytes, then for the rest of the header, then for pages of the announced length, one at a time, each after the source has said that it is not at its end, and only when the rows of the page are needed. Once the source has said that it is at its end, or a page was not delivered, or all announced rows were delivered, it is not asked again. A file is read once, from its start on.", "quantifier": "every source which answers within its buffer, every filter, every sequence of calls on a Reader which opened", "why_tests_cant": "a client may write any source, and the tests only use files; what is asked does not show in the rows", "anchors": ["src/header.hpp:CHECK_HEADER", "src/header.hpp:set_header_length_and_read", "src/page.hpp:read_page", "src/data.hpp:read_next_page", "src/data.hpp:next", "src/buffer.hpp:read_stream"]}
{"id": "C102", "title": "What was delivered depends only on the answers of the source", "statement": "The outcome of the constructor, the result of each call and all the calls of the sink are decided by the answers which the source has given up to then. For files: nothing delivered so far depends on the part of the file which was not read yet.", "quantifier": "every two sources which give the same answers, every filter, every sequence of calls; every two files with the same beginning", "why_tests_cant": "a statement about pairs of runs, over unboundedly many sources and continuations of a file", "anchors": ["src/reader.cpp:build", "src/sas7bdat-impl.hpp:READ", "src/header.hpp:read_header", "src/metadata.hpp:set_metadata", "src/data.hpp:READ_DATA", "src/page.hpp:read_page"]}
{"id": "C103", "title": "Python: the arguments of read_sas choose the file and the columns", "statement": "read_sas(filename, sink, include, exclude) reads the file of that name and delivers exactly the columns whose names are in include (a list, in any order, with repetitions), or without include those not in exclude; names may be given as str or as bytes. A wrong argument or a missing file raises, and then nothing is read and the sink object is told nothing.", "quantifier": "every file system, file name, include and exclude value (None, lists of any objects, other objects), every class of sink, both orders in which C++ may make the source and the filter", "why_tests_cant": "the space of argument values is unbounded; the order in which C++ evaluates the arguments of a constructor cannot be chosen by a test", "anchors": ["python/pycppsas7bdat/cpp/reader.cpp:filter", "python/pycppsas7bdat/cpp/reader.cpp:build", "python/pycppsas7bdat/cpp/reader.cpp:create_reader", "python/pycppsas7bdat/read_sas.py:read_sas"]}
{"id": "C104", "title": "R: the arguments of read_sas choose the file and the columns", "statement": "read_sas(filename, include, exclude) of the R package reads the file of that name and delivers exactly the columns whose names are in the character vector include, or without it those not in exclude; NA names nothing. Any other kind of argument is an error, and then nothing is read.", "quantifier": "every file system, file name, include and exclude value, both orders in which C++ may make the source and the filter", "why_tests_cant": "the space of argument values is unbounded; the order in which C++ evaluates the arguments of a constructor cannot be chosen by a test", "anchors": ["R/CPPSAS7BDAT/src/filter.cpp:filter", "R/CPPSAS7BDAT/src/reader.cpp:_build", "R/CPPSAS7BDAT/R/read_sas.R:read_sas"]}
{"id": "C105", "title": "The command line program treats its files one after the other", "statement": "cppsas7bdat-ci print f1 ... fn writes for each file in the order of the arguments the properties, the line of names and one line per row (the first n rows with --nlines=n), and returns 0; null reads the files and writes nothing; csv writes for each file name.ext a file name.csv. No input file is changed, and a file which cannot be read does not keep the others from being treated.", "quantifier": "every list of file names, every content of the files, every value of --nlines, every command", "why_tests_cant": "lists of files of any content cannot be enumerated, and a test does not start the program with a file it can lose", "anchors": ["apps/cppsas7bdat-ci.cpp:main", "apps/cppsas7bdat-ci.cpp:process_print", "apps/cppsas7bdat-ci.cpp:process_csv", "apps/cppsas7bdat-ci.cpp:process_null", "apps/cppsas7bdat-ci.cpp:get_csv_filename", "include/cppsas7bdat/sink/print.hpp:push_row", "include/cppsas7bdat/sink/null.hpp:push_row"]}
{"id": "C106", "title": "Python: dates and times given to the library are what they say", "statement": "A Python datetime, date or timedelta which is converted to a DATETIME, DATE or TIME of the library becomes the same date, time or duration, whatever its value; what the library gave to Python and gets back is what it was.", "quantifier": "every datetime, date and timedelta object of Python (years 1 to 9999, up to 999999999 days), every value within the calendar", "why_tests_cant": "no test calls these converters; the negative and the large timedelta objects are far too many to try", "anchors": ["python/pycppsas7bdat/cpp/import_datetime.cpp:ptime_from_python_datetime", "python/pycppsas7bdat/cpp/import_datetime.cpp:tduration_from_python_delta", "python/pycppsas7bdat/cpp/import_datetime.cpp:gregorian_date_from_python_date", "python/pycppsas7bdat/cpp/import_datetime.cpp:bind_datetime"]}
{"id": "C107", "title": "Debug and release builds show the same", "statement": "Whatever a client sees of a Reader (the outcome of the constructor, each answer, each call of the sink) is the same in a build with and in a build without the checks of FMT_ASSERT.", "quantifier": "every source, filter and sequence of calls, every two builds", "why_tests_cant": "a test runs in one build; that two builds agree on every source is a statement about pairs of runs", "anchors": ["src/header.hpp:set_header_length_and_read", "src/header.hpp:set_header", "src/data.hpp:extract_row_values", "src/reader-impl.hpp:read_row", "src/reader-impl.hpp:read_rows", "src/reader-impl.hpp:skip"]}
{"id": "C108", "title": "The memory a Reader needs is in proportion to its file", "statement": "A Reader never asks for a piece of memory larger than the header, a page, its columns or a row of a compressed file, so a limit which lets these through changes nothing of what a client sees; and a file needs no more than a fixed multiple of its own length.", "quantifier": "every source, filter, sequence of calls and limit of memory", "why_tests_cant": "a test does not run out of memory; announced lengths up to 2^64 cannot be tried", "anchors": ["src/buffer.hpp:resize", "src/buffer.hpp:read_stream", "src/header.hpp:set_header_length_and_read", "src/page.hpp:read_page", "src/metadata.hpp:create_columns", "src/decompressors.hpp:DST_VALUES"]}
{"id": "C109", "title": "A Reader is the same wherever it is moved, and can be used as long as it exists", "statement": "What a Reader answers and tells its sink depends only on what it was made of and on the calls which reached it, not on the variables it has been moved through nor on other Readers; an emptied Reader answers as a default constructed one; as long as a variable has a Reader it can be called.", "quantifier": "every program of constructions, moves, assignments, destructions and calls, over every source, sink and filter", "why_tests_cant": "tests move an empty Reader once; the claim is over all programs", "anchors": ["include/cppsas7bdat/reader.hpp:build_sink", "include/cppsas7bdat/reader.hpp:Reader", "src/reader.cpp:Reader", "src/reader.cpp:build", "src/reader-impl.hpp:ReaderImpl"]}
{"id": "C110", "title": "A reference to the properties is good exactly as long as its Reader", "statement": "The reference returned by properties() shows what the sink was told at the construction, as long as any variable has the Reader it was taken from, wherever that has been moved; afterwards it must not be used.", "quantifier": "every program of constructions, moves, assignments, destructions and calls", "why_tests_cant": "a dangling reference usually still shows the old values", "anchors": ["src/reader.cpp:properties", "src/reader-impl.hpp:properties", "src/reader-impl.hpp:ReaderImpl"]}
{"id": "C111", "title": "In Python every number of rows is taken as it is or refused", "statement": "read_rows(n) and skip(n) of the Python Reader act for exactly n rows when n is an int from 0 to 2^64-1; every other int raises OverflowError, everything else TypeError, and nothing has changed then; current_row_index is the exact index.", "quantifier": "every list of calls with arbitrary objects as numbers, on every Reader", "why_tests_cant": "tests use a few small numbers", "anchors": ["python/pycppsas7bdat/cpp/reader.cpp:create_reader", "python/pycppsas7bdat/cpp/reader.cpp:class_<Reader", "src/reader.cpp:read_rows", "src/reader.cpp:skip"]}
{"id": "C112", "title": "In R every number is taken as its whole part or refused", "statement": "read_rows(x), skip(x) and chunk_size = x in R act for the whole part of x; values which are no numbers of rows (negative, NA, NaN, infinite, too big, vectors, other types) are refused and nothing has changed then; current_row_index() is a number which stands for the index when it is given back.", "quantifier": "every list of calls with arbitrary R values as numbers, on every Reader", "why_tests_cant": "tests use a few small whole numbers", "anchors": ["R/CPPSAS7BDAT/src/reader.cpp:read_rows", "R/CPPSAS7BDAT/src/reader.cpp:skip", "R/CPPSAS7BDAT/src/reader.cpp:_build", "R/CPPSAS7BDAT/src/reader.cpp:current_row_index"]}
{"id": "C113", "title": "The pointer to a row stays valid and shows the row", "statement": "the pointer returned by read_row_no_sink can be read as long as the Reader lives, because an open Reader asks for no memory; it shows the same row whatever is called afterwards.", "quantifier": "every data source, every program of calls, kept rows and later looks at them, every amount of memory", "why_tests_cant": "tests use a row before they ask for the next one; stale bytes look like another row and no tool reports them", "anchors": ["src/data.hpp:extract_row_values", "src/data.hpp:read_line", "src/reader-impl.hpp:read_row_no_sink", "src/buffer.hpp:resize", "src/decompressors.hpp:DST_VALUES"]}
{"id": "C114", "title": "An I/O error of the device is reported, and no row is missing without it", "statement": "when the device fails somewhere in the file, the program sees what it sees of the whole file, or an exception from the constructor or from one call, up to which all was the same; every later call reports the failure too, and a failure is told from a short file.", "quantifier": "every content, every place of the fault, every continuation of the file behind it, every list of calls, every filter", "why_tests_cant": "tests read from disks which work; a read error sets badbit and not eofbit, a path no test file can take", "anchors": ["include/cppsas7bdat/source/ifstream.hpp:read_bytes", "include/cppsas7bdat/source/ifstream.hpp:eof", "src/page.hpp:read_page", "src/data.hpp:read_next_page", "src/header.hpp:set_header_length_and_read"]}
{"id": "C115", "title": "Columns can be copied and moved like values, and read as long as they live", "statement": "a Column behaves as a value although its copies share a formatter: a copy can be read whatever happens to the others, no formatter is destroyed too early, twice or never, the texts and the type never change, every living column can be read, and equal columns are alike; the columns of the metadata are the accepted ones in their order.", "quantifier": "every program of constructions, copies, moves, destructions and reads of columns, every accessor, every filter", "why_tests_cant": "tests copy columns while the originals live; a dangling or null formatter is undefined behaviour, which may look right", "anchors": ["include/cppsas7bdat/column.hpp:Column(const Column &_rhs)", "include/cppsas7bdat/column.hpp:Column(Column &&_rhs)", "include/cppsas7bdat/column.hpp:operator==", "include/cppsas7bdat/column.hpp:FormatterModel", "src/metadata.hpp:create_columns"]}
{"id": "C116", "title": "A source given by name stands behind the pages which were read, and can be used further", "statement": "a source given to a Reader as a named object stands, after any calls, behind the pages needed for the rows passed over; a source used by one Reader serves it like its own whatever the client does with other objects; tables one behind the other in a source can be read by one Reader after the other, each as it is read alone.", "quantifier": "every file content, every list of calls, every program with named sources and Readers, every number of conforming tables in a source", "why_tests_cant": "tests give a temporary source and read one file; where the source stands afterwards is never looked at", "anchors": ["include/cppsas7bdat/reader.hpp:build_source", "include/cppsas7bdat/reader.hpp:DataSourceModel", "src/data.hpp:read_line", "src/data.hpp:read_next_page", "src/metadata.hpp:read_metadata"]}
{"id": "C117", "title": "SinkByRow of the R package keeps the rows it is given", "statement": "called with properties of the shape it expects and then with rows in any order, SinkByRow has a data frame with the columns in their order, the announced number of rows, and in each cell the last element given for it, NA without one; the other classes keep the names of the columns.", "quantifier": "every properties list with metadata$columns, row_count and column_count, every list of push_row calls for announced rows", "why_tests_cant": "the class cannot be used with the package's own reader (C86), so that no test reaches push_row", "anchors": ["R/CPPSAS7BDAT/R/sink.R:SinkByRow", "R/CPPSAS7BDAT/R/sink.R:push_row", "R/CPPSAS7BDAT/R/sink.R:set_properties"]}
{"id": "C118", "title": "The words in the header have no influence on the rows", "statement": "two files which differ only in the name, the dates, the encoding, the release, the systems, the number of pages or the meaningless bytes of their headers are read in the same way: the same metadata, the same rows, the same outcome of every call.", "quantifier": "every two files with the same length of the header, format, byte order, page length and bytes behind the header, every filter, every list of calls, both builds", "why_tests_cant": "tests compare each file with its own expected content; that a byte of the header leaks into a row needs two files which differ in nothing else", "anchors": ["src/header.hpp:set_header", "src/page.hpp:read_page", "src/buffer.hpp:resize", "src/data.hpp:extract_row_values", "src/sas7bdat-impl.hpp:read_header"]}
{"id": "C119", "title": "The layout of a file does not change the table which is read", "statement": "Two files which hold the same table (same names, labels, formats and contents) but differ in byte order, 32 or 64 bits, page lengths, kind of pages, compression, place or width of the fields give the same rows: same indices, and in each cell the same type, value and text; the csv text, the lines of the print sink and what Python and R are given are the same.", "quantifier": "every two files of known content with the same fields and contents, every filter which looks at name, label, format and type, both builds, every csv format and chunk size", "why_tests_cant": "a relation between two runs over all pairs of layouts; tests have a fixed expected file for each sample", "anchors": ["src/data.hpp:extract_row_values", "src/formatters.hpp", "src/types.hpp:get_incomplete_double", "include/cppsas7bdat/sink/csv.hpp:push_row", "include/cppsas7bdat/sink/print.hpp:push_row", "python/pycppsas7bdat/cpp/sink.hpp", "R/CPPSAS7BDAT/src/sink_by_columns.hpp"]}
{"id": "C120", "title": "What stands behind the last row of a file is not looked at", "statement": "For a file which announces at least one row: if all the announced rows are delivered, bytes appended to the file (garbage, a part of a page, more rows) change nothing of what the constructor says, of the answers of any calls and of what the sink receives. For files which hold a table with a row this is so over every history.", "quantifier": "every file and every appended bytes, every filter, both builds, every sequence of calls", "why_tests_cant": "a relation between two runs over all suffixes; no test appends anything", "anchors": ["src/data.hpp:next", "src/data.hpp:read_next_page", "src/page.hpp:read_page", "src/metadata.hpp:set_metadata"]}
{"id": "C121", "title": "No row which stands on a page is passed over", "statement": "All the rows of a file are delivered in order, as many as announced: the rows behind the table of a mix page, the rows of a data page and the rows in the subheader tables, whatever forms are combined.", "quantifier": "every readable file, every filter, both builds, every sequence of calls", "why_tests_cant": "needs all combinations of page kinds and row forms over unbounded page lists; tests use the combinations of a few sample files", "anchors": ["src/data.hpp:build_page", "src/data.hpp:process_page_metadata", "src/metadata.hpp:process_page", "src/metadata.hpp:process_subheader", "src/page.hpp:is_page_meta_mix_amd"]}
{"id": "C122", "title": "A sink object of Python can be used again", "statement": "When one sink object of the Python package is given to a Reader after having been used for another file, each call has the same outcome as with a new object, and df is the frame which a new object would give.", "quantifier": "every two files, the three sink classes, every chunk size, include and exclude list, df asked between or not", "why_tests_cant": "the tests make a new sink object for every file; what an object kept from any earlier file is not among their inputs", "anchors": ["python/pycppsas7bdat/sink.py:SinkByRow", "python/pycppsas7bdat/sink.py:SinkByChunk", "python/pycppsas7bdat/sink.py:SinkWholeData", "python/pycppsas7bdat/cpp/reader.cpp:build", "python/pycppsas7bdat/read_sas.py:read_sas"]}
{"id": "C123", "title": "A sink object of R can be used again", "statement": "When one sink object of the R package is given to a Reader after having been used for another file, each call has the same outcome as with a new object, and df is the frame which a new object would give.", "quantifier": "every two files, the three sink classes, every chunk size, include and exclude list, every list of calls of the Reader", "why_tests_cant": "the tests make a new sink object for every file; what an object kept from any earlier file is not among their inputs", "anchors": ["R/CPPSAS7BDAT/R/sink.R:SinkByChunk", "R/CPPSAS7BDAT/R/sink.R:SinkWholeData", "R/CPPSAS7BDAT/R/sink.R:SinkByRow", "R/CPPSAS7BDAT/src/reader.cpp:_build", "R/CPPSAS7BDAT/R/read_sas.R:read_sas"]}
{"id": "C124", "title": "Several Readers can share a csv or print sink", "statement": "When one csv or print sink is given by name to several Readers, each row is written with the columns of the file it comes from, and each call answers as it does with a sink of its own.", "quantifier": "every list of files, filters and calls of the Readers, in any order; every text of the formats and of the report", "why_tests_cant": "the tests use one sink per Reader; the orders in which the calls of several Readers can follow each other are unbounded", "anchors": ["include/cppsas7bdat/sink/csv.hpp:set_properties", "include/cppsas7bdat/sink/csv.hpp:push_row", "include/cppsas7bdat/sink/print.hpp:set_properties", "include/cppsas7bdat/sink/print.hpp:push_row", "include/cppsas7bdat/reader.hpp:build_sink"]}
{"id": "C125", "title": "A changed byte in the rows of a data page reaches one row", "statement": "When one byte behind the header of a whole data page which announces rows is replaced, the file is still opened with the same properties, every call has the same outcome, and at most one of the rows handed out differs, in one byte.", "quantifier": "every file which is opened with rows shorter than 2^47 bytes, every such place and byte, both builds, every filter and every list of calls", "why_tests_cant": "a test would have to try each of the places and values, and any order of calls", "anchors": ["src/page.hpp:read_page", "src/metadata.hpp:set_metadata", "src/data.hpp:build_page", "src/data.hpp:read_next_page", "src/data.hpp:read_line", "src/data.hpp:skip", "src/buffer.hpp:read_stream"]}
{"id": "C126", "title": "A changed byte in a compressed row reaches one call", "statement": "When one byte of a later page of compressed rows is replaced, behind the table of pointers and not in two pieces, the file is still opened with the same properties, and among calls for one row each at most one differs; the rows behind it are the same and keep their numbers, unless that call is a memory error.", "quantifier": "every file which is opened with rows that memory can be had for, every such place and byte, both builds, every filter and every list of calls for single rows and skips", "why_tests_cant": "a test would have to try each place and value in each compressed row, with any order of calls", "anchors": ["src/page.hpp:read_page", "src/page.hpp:process_page_subheaders", "src/metadata.hpp:set_metadata", "src/data.hpp:build_page", "src/data.hpp:read_next_page", "src/data.hpp:read_line", "src/data.hpp:extract_row_values", "src/decompressors.hpp:RLE", "src/decompressors.hpp:RDC"]}
{"id": "C127", "title": "A file which changes while it is read is seen as one file", "statement": "When other programs write the file between the reads of a Reader, the client sees what it sees of one file which stays as it is, made of bytes the file has had at their places; a file which is only appended to is seen as one of its beginnings, as the whole file when the writer is ahead of every read, and rows which are appended later are delivered when they are asked for.", "quantifier": "every sequence of contents which the reads find, every list of calls of the Reader, every filter, both builds", "why_tests_cant": "the moments at which a file changes between two reads cannot be chosen in a test of the file source, and the sequences of contents are unbounded", "anchors": ["include/cppsas7bdat/source/ifstream.hpp:read_bytes", "include/cppsas7bdat/source/ifstream.hpp:eof", "src/header.hpp:check_header", "src/header.hpp:read_header", "src/page.hpp:read_page", "src/data.hpp:read_next_page"]}
{"id": "C128", "title": "A device which fails and recovers", "statement": "When a device fails in some reads and works in others, no fault which a read meets is passed over: the client sees the whole file or an exception, and until then what it sees of the whole file; once the device works again the rows behind can be read.", "quantifier": "every content, every choice of the reads which fail and of the place in them, every list of calls of the Reader, every filter, both builds", "why_tests_cant": "a test cannot make a device fail at a chosen read, and the choices are unbounded", "anchors": ["include/cppsas7bdat/source/ifstream.hpp:read_bytes", "include/cppsas7bdat/source/ifstream.hpp:eof", "src/header.hpp:check_header", "src/page.hpp:read_page", "src/data.hpp:read_next_page"]}
{"id": "C129", "title": "The pages behind the one where the data begin can be exchanged", "statement": "When the pages which follow the page where the data begin are put in another order, taken out, repeated or replaced by pages of another file, the file is opened with the same properties and has the rows of its pages in their new order, as many as are announced; a file whose description stands behind a page of rows is refused.", "quantifier": "every readable file with at least one row, every list of such pages, every filter and list of calls, both builds", "why_tests_cant": "the orders of the pages of a file grow with its length, and the tests have a few files with their pages in place", "anchors": ["src/metadata.hpp:set_metadata", "src/page.hpp:read_page", "src/data.hpp:read_next_page", "src/data.hpp:build_page", "src/data.hpp:read_line", "src/data.hpp:next"]}
{"id": "C130", "title": "The header of a page is taken from the page itself", "statement": "The type and the two counts of a page are the numbers stored in the bytes read for that page, whatever the buffer has held before; a file whose pages are too short to hold them is refused.", "quantifier": "every source, page length, byte order and format, every state of the buffer, every file and list of calls, both builds", "why_tests_cant": "the buffer is reused for each page and keeps what it has held; no test has a file with such a page length, which any four bytes of a header can give", "anchors": ["src/page.hpp:read_page", "src/page.hpp:_get_page_header", "src/buffer.hpp:read_stream", "src/header.hpp:set_header_length_and_read", "src/metadata.hpp:set_metadata"]}
{"id": "C131", "title": "Pages of a type which is not known are passed over", "statement": "Pages of a type the library does not know, put anywhere in front of the page where the data begin, leave no trace: the Reader is the same in all its parts; the pages of every type which the library names are read.", "quantifier": "every readable file with at least one row, any number of such pages with any content, every filter, both builds", "why_tests_cant": "there are 65531 such types and any content; the tests have files with the usual pages", "anchors": ["src/page.hpp:read_page", "src/page.hpp:is_page_meta_mix_amd", "src/page.hpp:is_page_data_mix", "src/page.hpp:PAGE_METC_TYPE", "src/metadata.hpp:set_metadata", "src/buffer.hpp:read_stream"]}
