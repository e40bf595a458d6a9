{
 "claims": [
  {
   "property": "C01",
   "status": "proved",
   "theorems": [
    "C01_short_file",
    "C01_short_source"
   ],
   "note": ""
  },
  {
   "property": "C02",
   "status": "proved",
   "theorems": [
    "C02_wrong_magic",
    "C02_opened_has_magic"
   ],
   "note": ""
  },
  {
   "property": "C03",
   "status": "proved",
   "theorems": [
    "C03_header_fields",
    "C03_trimmed_text_unique",
    "C03_header_accepted"
   ],
   "note": ""
  },
  {
   "property": "C04",
   "status": "proved",
   "theorems": [
    "C04_source_after_header",
    "C04_header_cut",
    "C04_header_length_small"
   ],
   "note": ""
  },
  {
   "property": "C05",
   "status": "partial",
   "theorems": [
    "C05_header_safe_partial",
    "C05_os_name_refuted",
    "C05_custom_source_refuted"
   ],
   "note": "Proved in debug builds for every file, and in release builds for every file whose header length is not between 288 and 288 plus the alignment shift. In that range, and for a custom source with header lengths under 288, the claim is false of the code; two refuted theorems give the headers."
  },
  {
   "property": "C06",
   "status": "proved",
   "theorems": [
    "C06_decode_written",
    "C06_decode_bytes",
    "C06_values",
    "C06_signed"
   ],
   "note": ""
  },
  {
   "property": "C07",
   "status": "proved",
   "theorems": [
    "C07_buffer_history",
    "C07_resized"
   ],
   "note": ""
  },
  {
   "property": "C08",
   "status": "partial",
   "theorems": [
    "C08_check_partial",
    "C08_wraps_refuted",
    "C08_terminates_refuted",
    "C08_unchecked_refuted"
   ],
   "note": "Proved for offset + length below 2^64 and for the getters which check; the sum wraps around above (refuted), the exception leaves a noexcept function (refuted), and the getters called without assertion do not check at all in release (refuted)."
  },
  {
   "property": "C09",
   "status": "partial",
   "theorems": [
    "C09_terminates_refuted",
    "C09_file_terminates_partial",
    "C09_source_terminates_partial",
    "C09_header_terminates",
    "C09_turns_irrelevant"
   ],
   "note": "False of the code for a file whose header announces pages of length 0: the constructor never ends (refuted). Proved for every file and every finite source with a page length above 0, for the header alone whatever the page length, and it is proved that more turns than the model needs change nothing."
  },
  {
   "property": "C10",
   "status": "proved",
   "theorems": [
    "C10_truncated",
    "C10_quiet"
   ],
   "note": ""
  },
  {
   "property": "C11",
   "status": "proved",
   "theorems": [
    "C11_watched",
    "C11_reported",
    "C11_then_end"
   ],
   "note": ""
  },
  {
   "property": "C12",
   "status": "proved",
   "theorems": [
    "C12_row_size"
   ],
   "note": ""
  },
  {
   "property": "C13",
   "status": "proved",
   "theorems": [
    "C13_disjoint",
    "C13_dispatch",
    "C13_kind"
   ],
   "note": ""
  },
  {
   "property": "C14",
   "status": "partial",
   "theorems": [
    "C14_pointers_refuted",
    "C14_pointers_partial"
   ],
   "note": "False of the code (refuted: a 32 bit pointer outside the page terminates the program, because the check is in a noexcept function; a 64 bit pointer passes the check by wrap-around and the page is read outside). Proved instead: a page of a 32 bit file is only accepted when its table points inside the page."
  },
  {
   "property": "C15",
   "status": "proved",
   "theorems": [
    "C15_page_safe",
    "C15_file_described"
   ],
   "note": ""
  },
  {
   "property": "C16",
   "status": "proved",
   "theorems": [
    "C16_text_part"
   ],
   "note": ""
  },
  {
   "property": "C17",
   "status": "partial",
   "theorems": [
    "C17_text_refuted",
    "C17_text_partial"
   ],
   "note": "False of the code for names, labels and formats which start or end with a character that is not printable ASCII (refuted: a name in UTF-8 is lost, another one cut). Proved when the first and the last character are printable ASCII, whatever is between them."
  },
  {
   "property": "C18",
   "status": "proved",
   "theorems": [
    "C18_columns",
    "C18_reader"
   ],
   "note": ""
  },
  {
   "property": "C19",
   "status": "proved",
   "theorems": [
    "C19_missing_entries"
   ],
   "note": ""
  },
  {
   "property": "C20",
   "status": "proved",
   "theorems": [
    "C20_type_table",
    "C20_width",
    "C20_names_disjoint"
   ],
   "note": ""
  },
  {
   "property": "C21",
   "status": "proved",
   "theorems": [
    "C21_open",
    "C21_history"
   ],
   "note": ""
  },
  {
   "property": "C22",
   "status": "proved",
   "theorems": [
    "C22_filters"
   ],
   "note": ""
  },
  {
   "property": "C23",
   "status": "proved",
   "theorems": [
    "C23_compression"
   ],
   "note": ""
  },
  {
   "property": "C24",
   "status": "proved",
   "theorems": [
    "C24_rle_row",
    "C24_rdc_row",
    "C24_rle_exact",
    "C24_rdc_exact",
    "C24_buffer"
   ],
   "note": ""
  },
  {
   "property": "C25",
   "status": "proved",
   "theorems": [
    "C25_rle_expansion"
   ],
   "note": ""
  },
  {
   "property": "C26",
   "status": "partial",
   "theorems": [
    "C26_final_command_refuted",
    "C26_loss_partial",
    "C26_zeros_partial"
   ],
   "note": "False of the code as stated (refuted: a final run of blanks written as one byte is dropped, because the loop needs two bytes). Proved instead: at most one one-byte command is lost, and the claim itself when the final command is a run of zeros."
  },
  {
   "property": "C27",
   "status": "proved",
   "theorems": [
    "C27_unknown_command",
    "C27_overflow",
    "C27_rdc_overflow"
   ],
   "note": ""
  },
  {
   "property": "C28",
   "status": "proved",
   "theorems": [
    "C28_rdc_expansion"
   ],
   "note": ""
  },
  {
   "property": "C29",
   "status": "partial",
   "theorems": [
    "C29_trailing_literals_refuted",
    "C29_loss_partial"
   ],
   "note": "False of the code as stated (refuted: ABC as three literals decodes to A and two zeros, because the loop needs three bytes). Proved instead: the result is the expansion of all items but those of the last two bytes."
  },
  {
   "property": "C30",
   "status": "partial",
   "theorems": [
    "C30_rle_refuted",
    "C30_rdc_source_refuted",
    "C30_rdc_row_refuted",
    "C30_rdc_overlap_refuted",
    "C30_rle_partial",
    "C30_rle_exact"
   ],
   "note": "False of the code as stated (four refuted theorems: RLE and RDC read past the compressed row, RDC back references read before the row or overlap their copy). Proved instead: exactly when RLE does so (C30_rle_exact: commands which leave room and then a command 0x40..0x4F with one byte behind it), and for both, for every row of bytes, all outcomes by rules said from the side of the encoder (C24_rle_exact, C24_rdc_exact)."
  },
  {
   "property": "C31",
   "status": "proved",
   "theorems": [
    "C31_rle_history",
    "C31_rdc_history"
   ],
   "note": ""
  },
  {
   "property": "C32",
   "status": "proved",
   "theorems": [
    "C32_rows_numbered"
   ],
   "note": ""
  },
  {
   "property": "C33",
   "status": "proved",
   "theorems": [
    "C33_at_most_row_count"
   ],
   "note": ""
  },
  {
   "property": "C34",
   "status": "proved",
   "theorems": [
    "C34_read_rows_is_read_row_times",
    "C34_read_rows_sum",
    "C34_read_rows_true_iff",
    "C34_read_all"
   ],
   "note": ""
  },
  {
   "property": "C35",
   "status": "proved",
   "theorems": [
    "C35_skip_is_reading"
   ],
   "note": ""
  },
  {
   "property": "C36",
   "status": "proved",
   "theorems": [
    "C36_no_sink"
   ],
   "note": ""
  },
  {
   "property": "C37",
   "status": "proved",
   "theorems": [
    "C37_end_is_final"
   ],
   "note": ""
  },
  {
   "property": "C38",
   "status": "proved",
   "theorems": [
    "C38_properties_constant",
    "C38_properties_first",
    "C38_call"
   ],
   "note": ""
  },
  {
   "property": "C39",
   "status": "partial",
   "theorems": [
    "C39_end_told_once_refuted",
    "C39_end_told_once_partial"
   ],
   "note": "False of the code (refuted: read_all then read_row give end_of_data twice). Proved instead: the sink is told at most once up to and including the first call which reports the end, when end_of_data is not called explicitly."
  },
  {
   "property": "C40",
   "status": "proved",
   "theorems": [
    "C40_empty_reader"
   ],
   "note": ""
  },
  {
   "property": "C41",
   "status": "proved",
   "theorems": [
    "C41_failed_row"
   ],
   "note": ""
  },
  {
   "property": "C42",
   "status": "proved",
   "theorems": [
    "C42_page_places",
    "C42_page_bytes",
    "C42_row_rules"
   ],
   "note": ""
  },
  {
   "property": "C43",
   "status": "proved",
   "theorems": [
    "C43_reader_is_cursor",
    "C43_by_rules",
    "C43_read_all",
    "C43_read_all_plain"
   ],
   "note": ""
  },
  {
   "property": "C44",
   "status": "partial",
   "theorems": [
    "C44_empty_page_refuted",
    "C44_empty_page_partial",
    "C44_empty_first_partial"
   ],
   "note": "False of the code (refuted: an empty data page after a page of rows makes the reader push a row which is on no page). Proved instead: an empty page changes nothing when it is not a page of rows, or is the first page of rows, and in particular when it is in front of the data."
  },
  {
   "property": "C45",
   "status": "partial",
   "theorems": [
    "C45_release_refuted",
    "C45_debug_refuted",
    "C45_debug_32_partial",
    "C45_good_pages_partial"
   ],
   "note": "False of the code in release builds (refuted: the page announces more rows than it holds, reading the row is undefined behaviour) and in debug builds of 64 bit files (refuted: the checked sum wraps around). Proved instead for debug builds of 32 bit files for every source and history, and for both builds and formats when the pages of the file are good."
  },
  {
   "property": "C46",
   "status": "proved",
   "theorems": [
    "C46_string",
    "C46_string_unique"
   ],
   "note": ""
  },
  {
   "property": "C47",
   "status": "proved",
   "theorems": [
    "C47_number",
    "C47_integer"
   ],
   "note": ""
  },
  {
   "property": "C48",
   "status": "proved",
   "theorems": [
    "C48_wrong_kind"
   ],
   "note": ""
  },
  {
   "property": "C49",
   "status": "partial",
   "theorems": [
    "C49_local_partial",
    "C49_short_date_refuted",
    "C49_short_date_oob_refuted"
   ],
   "note": "Proved for every column except dates, times and datetimes stored on fewer than 8 bytes; for those the property is false of the code (the getter always reads 8 bytes), shown by the two refuted theorems."
  },
  {
   "property": "C50",
   "status": "partial",
   "theorems": [
    "C50_datetime_partial",
    "C50_nearest_refuted",
    "C50_missing",
    "C50_date_and_time"
   ],
   "note": "The full claim (nearest microsecond) is refuted for the faithful arithmetic: the product by 10^6 is rounded before the final rounding. Proved for |s| < 2^42: error at most 1/2 + 2^-35 microsecond, exact for whole seconds, NaN is missing, date and time of day agree with the datetime."
  },
  {
   "property": "C51",
   "status": "proved",
   "theorems": [
    "C51_date",
    "C51_range",
    "C51_next_day",
    "C51_missing"
   ],
   "note": ""
  },
  {
   "property": "C52",
   "status": "partial",
   "theorems": [
    "C52_time_of_day_partial",
    "C52_modulo_partial",
    "C52_duration_refuted"
   ],
   "note": "Refuted for durations of 24 hours and more and for negative ones: they are returned modulo one day (C52_modulo_partial says exactly what is returned). Proved from 0 to 24 hours."
  },
  {
   "property": "C53",
   "status": "partial",
   "theorems": [
    "C53_unsupported_years",
    "C53_reported_refuted",
    "C53_wrong_date_refuted",
    "C53_supported_partial"
   ],
   "note": "Refuted: a date of the years 0-1399 and 10000-20000 kills the process (C53_unsupported_years, for all of them), and a year above 65535 can be returned as a wrong date. Proved: missing values and all supported dates give a value."
  },
  {
   "property": "C54",
   "status": "proved",
   "theorems": [
    "C54_text",
    "C54_distinct"
   ],
   "note": ""
  },
  {
   "property": "C55",
   "status": "partial",
   "theorems": [
    "C55_dates_partial",
    "C55_missing_time",
    "C55_safe_refuted"
   ],
   "note": "Refuted for TIME: printing a missing time always reads past its 16 byte buffer (C55_missing_time). Dates and datetimes throw a catchable exception."
  },
  {
   "property": "C56",
   "status": "proved",
   "theorems": [
    "C56_group",
    "C56_named",
    "C56_partition"
   ],
   "note": ""
  },
  {
   "property": "C57",
   "status": "proved",
   "theorems": [
    "C57_encoding"
   ],
   "note": ""
  },
  {
   "property": "C58",
   "status": "proved",
   "theorems": [
    "C58_lines",
    "C58_no_columns"
   ],
   "note": ""
  },
  {
   "property": "C59",
   "status": "partial",
   "theorems": [
    "C59_text_determines_refuted",
    "C59_text_determines_partial"
   ],
   "note": "False of the code as stated (refuted: quotes in a text are not doubled, two rows give one line). Proved when the texts have no quote and no line break."
  },
  {
   "property": "C60",
   "status": "partial",
   "theorems": [
    "C60_names_verbatim_refuted",
    "C60_names_verbatim_partial"
   ],
   "note": "False of the code as stated (refuted: the name is used as a format string). Proved: the names are printed verbatim exactly when no name has a brace."
  },
  {
   "property": "C61",
   "status": "partial",
   "theorems": [
    "C61_rows",
    "C61_chunks_partial",
    "C61_history_partial",
    "C61_data_partial",
    "C61_data_history_partial",
    "C61_same_names_refuted"
   ],
   "note": "Proved for columns with different names, for every chunk size, row sequence and history which ends with end_of_data (which may come more than once), in chunks or all at once; the row sink tells every row once, also when push_row raises; with two columns of one name a column is lost (refuted)."
  },
  {
   "property": "C62",
   "status": "partial",
   "theorems": [
    "C62_range_refuted",
    "C62_range_partial"
   ],
   "note": "False of the code as stated (refuted: the start is wrong after a skip). Proved without skips; the end is proved right always."
  },
  {
   "property": "C63",
   "status": "partial",
   "theorems": [
    "C63_reader_rows",
    "C63_chunks_partial",
    "C63_data_partial",
    "C63_early_end_refuted",
    "C63_index_refuted",
    "C63_datetime_text_refuted",
    "C63_data_twice_refuted"
   ],
   "note": "Proved for every row sequence a reader can push when end_of_data comes at the end; false when end_of_data comes before further rows (refuted: write past the index vector) and the data sink delivers the rows at each end_of_data (refuted)."
  },
  {
   "property": "C64",
   "status": "partial",
   "theorems": [
    "C64_input_kept_refuted",
    "C64_input_destroyed"
   ],
   "note": "False of the code for every existing file: the file is truncated before it is read and no other file is written (refuted, and proved for all files)."
  },
  {
   "property": "C65",
   "status": "proved",
   "theorems": [
    "C65_rows",
    "C65_calls"
   ],
   "note": ""
  },
  {
   "property": "C66",
   "status": "partial",
   "theorems": [
    "C66_round_trip_partial",
    "C66_read_all_partial",
    "C66_label_refuted",
    "C66_compression_refuted"
   ],
   "note": "Proved for every table with clean column texts (empty, or starting and ending with visible ASCII), without empty pages of rows, in every format, byte order and page split, for every history of calls. False of the code beyond that (refuted: a label which starts with a non-ASCII letter comes back empty; a label which is the name of a compression makes the file reported as compressed; empty pages: C44)."
  },
  {
   "property": "C67",
   "status": "partial",
   "theorems": [
    "C67_first_rows_refuted",
    "C67_first_rows_partial"
   ],
   "note": "False of the code (refuted: a row on the first page of a compressed file whose bytes start like a subheader is dropped). Proved when no row of the first page with rows starts like a subheader."
  },
  {
   "property": "C68",
   "status": "partial",
   "theorems": [
    "C68_csv_file_refuted",
    "C68_csv_file_lost"
   ],
   "note": "False of the code: the file is never written, with at least one row the stream is used after its object is gone (refuted, and proved for all datasets)."
  },
  {
   "property": "C69",
   "status": "partial",
   "theorems": [
    "C69_chunk_kept_refuted"
   ],
   "note": "False of the code: a full chunk is passed by reference and overwritten by the next rows (refuted)."
  },
  {
   "property": "C70",
   "status": "partial",
   "theorems": [
    "C70_compressed_partial",
    "C70_last_command_refuted"
   ],
   "note": "Proved for every table with clean column texts and every encoding of its rows which does not end with the commands that the decompressors lose (C26, C29) and does not look like a subheader (C67), for every history of calls. False of the code beyond that (refuted: a row which ends with a one byte blank command comes back with zeros)."
  },
  {
   "property": "C71",
   "status": "proved",
   "theorems": [
    "C71_integer",
    "C71_unique",
    "C71_number",
    "C71_special",
    "C71_all"
   ],
   "note": ""
  },
  {
   "property": "C72",
   "status": "partial",
   "theorems": [
    "C72_distinct_refuted",
    "C72_apart_partial"
   ],
   "note": "False of the code as stated (refuted: 2^-24 is printed as 0.000000). Proved: numbers with the same text are at most 10^-6 apart."
  },
  {
   "property": "C73",
   "status": "partial",
   "theorems": [
    "C73_cells_partial",
    "C73_value",
    "C73_text",
    "C73_missing_refuted"
   ],
   "note": "Proved for every file which holds a table: those of C66 and C70, and every file of C90 of which at most blanks outside the numbers are lost; with dates, datetimes and times on 8 bytes (see C49 for shorter ones), days in the years 1400-9999 and datetimes stored as a double less than half a microsecond away; texts of missing dates, datetimes and times excepted (C55). C73_missing_refuted: in a file with a missing date to_string throws."
  },
  {
   "property": "C74",
   "status": "partial",
   "theorems": [
    "C74_csv_partial",
    "C74_quotes_refuted"
   ],
   "note": "Proved for the files of C73 whose names and texts have no quote and no line break (C59 says what happens otherwise). C74_quotes_refuted: two files with different tables have the same csv file."
  },
  {
   "property": "C75",
   "status": "partial",
   "theorems": [
    "C75_print_partial",
    "C75_missing_refuted"
   ],
   "note": "Proved for the files of C73 whose names have no brace (C60) and which have no missing date, datetime or time (C55). C75_missing_refuted: the print sink throws in a file with a missing date."
  },
  {
   "property": "C76",
   "status": "partial",
   "theorems": [
    "C76_report_partial",
    "C76_lines_partial",
    "C76_report_refuted"
   ],
   "note": "Proved when no text has a line break and the datetimes have different texts; refuted otherwise."
  },
  {
   "property": "C77",
   "status": "proved",
   "theorems": [
    "C77_call",
    "C77_refused_row_is_consumed",
    "C77_rows_increase",
    "C77_quiet_sink"
   ],
   "note": ""
  },
  {
   "property": "C78",
   "status": "proved",
   "theorems": [
    "C78_constructor"
   ],
   "note": ""
  },
  {
   "property": "C79",
   "status": "partial",
   "theorems": [
    "C79_table_partial",
    "C79_df_partial",
    "C79_no_rows_refuted",
    "C79_same_names_refuted",
    "C79_unknown_refuted"
   ],
   "note": "Proved for every file of C73 with at least one row and columns of different names, and for any source in terms of the rows it gives, when their dates are within the calendar of C94. False of the code otherwise (refuted: a file without rows gives ValueError or None depending on the class; columns of the same name show the values of the last one). It is also false of SinkByRow when a column has no known type."
  },
  {
   "property": "C80",
   "status": "partial",
   "theorems": [
    "C80_second_end",
    "C80_end_is_repeatable_refuted"
   ],
   "note": "False of the code as stated (refuted); proved: the second time always raises SystemError, whatever was read before."
  },
  {
   "property": "C81",
   "status": "partial",
   "theorems": [
    "C81_df_without_reader",
    "C81_df_defined_refuted"
   ],
   "note": "False of the code as stated (refuted); proved: df after the Reader is gone always uses the destroyed C++ sink."
  },
  {
   "property": "C82",
   "status": "partial",
   "theorems": [
    "C82_df_is_stale",
    "C82_read_all_after_df",
    "C82_df_sees_all_rows_refuted",
    "C82_read_on_refuted"
   ],
   "note": "False of the code as stated (refuted for SinkByRow and SinkWholeData); proved: the frame stays what it was (SinkByRow, SinkByChunk), and read_all is undefined when rows are left (SinkWholeData)."
  },
  {
   "property": "C83",
   "status": "partial",
   "theorems": [
    "C83_chunks_partial",
    "C83_chunk_size_refuted",
    "C83_end_again_refuted"
   ],
   "note": "Proved: conservation of the rows for every object. False of the code beyond that (refuted: a chunk after an exception is larger than the chunk size; end_of_data after an exception is undefined)."
  },
  {
   "property": "C84",
   "status": "partial",
   "theorems": [
    "C84_row_after_failure",
    "C84_reading_on_refuted"
   ],
   "note": "False of the code as stated (refuted); proved: the next row is always written behind the vectors."
  },
  {
   "property": "C85",
   "status": "partial",
   "theorems": [
    "C85_print_row",
    "C85_lines_refuted"
   ],
   "note": "False of the code as stated (refuted: the start of the line stays and the next row follows on it); proved: exactly what is written in both cases."
  },
  {
   "property": "C86",
   "status": "partial",
   "theorems": [
    "C86_by_row_never_opens",
    "C86_classes_agree_refuted",
    "C86_dates_refuted"
   ],
   "note": "False of the code as stated (refuted: SinkByRow opens no file; a header date without text stops every class); proved: SinkByRow never opens, for any source."
  },
  {
   "property": "C87",
   "status": "partial",
   "theorems": [
    "C87_table_partial",
    "C87_df_partial",
    "C87_order_refuted",
    "C87_zero_refuted",
    "C87_no_rows_refuted"
   ],
   "note": "Proved for every file of C73 with 1 to r_rows_limit rows, the columns in some order, names and texts up to a zero byte, and for any source in terms of the rows it gives. False of the code otherwise (refuted: the columns are grouped by type, not in the order of the file; a file without rows gives NULL; a text with a zero byte inside ends there)."
  },
  {
   "property": "C88",
   "status": "partial",
   "theorems": [
    "C88_chunks",
    "C88_file",
    "C88_table_refuted"
   ],
   "note": "False of the code as stated (refuted); proved: exactly which rows the frame has, for every chunk size and source, and its contents for every file of C73."
  },
  {
   "property": "C89",
   "status": "partial",
   "theorems": [
    "C89_rows",
    "C89_kept_rows",
    "C89_keeping_refuted"
   ],
   "note": "Proved: the cells at the time of the call, and that every kept list shows the last row. So the last part is false of the code (refuted)."
  },
  {
   "property": "C90",
   "status": "partial",
   "theorems": [
    "C90_conforming",
    "C90_loss_partial",
    "C90_refuted"
   ],
   "note": "Proved for every file whose compressed rows do not end with the commands which the decompressors lose (C26, C29), with a clear first page of data (C44, C67). Without that condition it is false (refuted: the last item of an RDC row is lost) and the loss is proved to be at most 18 bytes of each row, delivered as zeros."
  },
  {
   "property": "C91",
   "status": "partial",
   "theorems": [
    "C91_rows",
    "C91_reported_refuted",
    "C91_first_page",
    "C91_any_cut"
   ],
   "note": "Proved: the rows of the complete pages are delivered, unchanged, when the description is complete; wherever the file is cut, opening throws, or the columns agree with those of the file and the rows are its first ones. Refuted: nothing tells that rows are missing, the end of the data is given as for a whole file; cut in the first page, the file is proved to be an empty table."
  },
  {
   "property": "C92",
   "status": "partial",
   "theorems": [
    "C92_forms_partial",
    "C92_newer",
    "C92_unsized",
    "C92_form_refuted"
   ],
   "note": "Proved for the forms with zeros. Refuted for the form F7F7F7F7FFFFFBFE / F6F6F6F6FFFFFBFE, which is ignored (proved): a file without recognised sizes is proved to be read, without any notice, as a table without columns and rows."
  },
  {
   "property": "C93",
   "status": "partial",
   "theorems": [
    "C93_open",
    "C93_utf8",
    "C93_chunks",
    "C93_names_refuted"
   ],
   "note": "Proved: when a reader opens, and what is raised otherwise; that no chunk reaches an object. Refuted: the encoding of the file is not used, so a name in Latin-1 raises UnicodeDecodeError and nothing of the table can be read unless the column is left out by including others."
  },
  {
   "property": "C94",
   "status": "partial",
   "theorems": [
    "C94_object",
    "C94_distinct",
    "C94_dates",
    "C94_times",
    "C94_unsupported",
    "C94_table",
    "C94_chunks",
    "C94_all_read_refuted"
   ],
   "note": "Proved for every value within the calendar (years 1400 to 9999, a day) and for every file of C79; every date a reader gives is within it. Refuted: a datetime in another year, which the reader gives to a C++ sink, makes read_sas raise and the whole table is lost; with any chunk sink the chunk of such a row and all later ones are never given (proved)."
  },
  {
   "property": "C95",
   "status": "partial",
   "theorems": [
    "C95_count",
    "C95_stays_refuted"
   ],
   "note": "Proved: what the count is afterwards, and when the interpreter stops. Refuted: convert returns Py_None without a reference of its own, so each missing date, datetime or time takes one away when the list is freed (before CPython 3.12 the interpreter stops when none is left)."
  },
  {
   "property": "C96",
   "status": "partial",
   "theorems": [
    "C96_mix_partial",
    "C96_lost",
    "C96_marked_refuted"
   ],
   "note": "Proved: a marked page with a description and rows (640) is handled as one without the mark (512); for every file which holds a table, a page behind the start of the data whose type is replaced by one not in 0, 256, 512, 640 loses all its rows, the later rows take their place and the row count is announced as before. Refuted: a marked page of rows (384) is passed over without notice. Not stated: the rows marked as deleted are delivered (their map is not modelled)."
  },
  {
   "property": "C97",
   "status": "partial",
   "theorems": [
    "C97_texts_partial",
    "C97_late_page",
    "C97_labels_refuted"
   ],
   "note": "Proved: for every file whose description can be read, each name, format and label is the text of its reference when the text block is before the reference in the file, and empty otherwise; a page of another type behind the start of the data changes nothing, whatever it says. Refuted: labels in a text block behind the rows are empty, without notice. homimp, omov, owner, ratiov and rmov of data_AHS2013 and xpttest of data_reikoch have such labels (the comparison of the labels is commented out in the tests)."
  },
  {
   "property": "C98",
   "status": "partial",
   "theorems": [
    "C98_big_partial",
    "C98_little",
    "C98_file_refuted",
    "C98_three_bytes_refuted"
   ],
   "note": "Proved: in a big-endian file, dates within 2^(8k-12) days of 1960 in k bytes (1948-1971 for 3 bytes, all supported years up to 4830 for 4). Proved as well, for all stored values: in a little-endian file the date is 1960-01-01, the datetime its midnight and the time midnight when the 8th byte is a blank, a digit or zero. Refuted: a whole file with such a date; a three byte date in a big-endian file."
  },
  {
   "property": "C99",
   "status": "partial",
   "theorems": [
    "C99_told",
    "C99_kept",
    "C99_columns_refuted",
    "C99_numbers_refuted",
    "C99_format_refuted"
   ],
   "note": "Proved, numbers below 2^53 and texts up to a zero byte, for any sink object, and that the classes keep it whatever is read. Refuted: larger numbers are rounded; sink$columns is always empty; the format of the file (32 or 64 bits) is not given."
  },
  {
   "property": "C100",
   "status": "partial",
   "theorems": [
    "C100_attributes",
    "C100_no_other",
    "C100_kept",
    "C100_dangling_refuted",
    "C100_dangling",
    "C100_texts_refuted",
    "C100_none",
    "C100_none_kept",
    "C100_none_refuted"
   ],
   "note": "Proved: each attribute, that there is no other, that sink.properties has them after any history, also without a Reader, and reader.properties() while there is the Reader. Refuted: after that it dangles; a text which is not UTF-8 raises although the file is read; asking for a missing date loses a reference to None each time."
  },
  {
   "property": "C101",
   "status": "proved",
   "theorems": [
    "C101_asked",
    "C101_when_needed",
    "C101_once"
   ],
   "note": ""
  },
  {
   "property": "C102",
   "status": "proved",
   "theorems": [
    "C102_answers",
    "C102_files"
   ],
   "note": ""
  },
  {
   "property": "C103",
   "status": "partial",
   "theorems": [
    "C103_table_partial",
    "C103_texts",
    "C103_arguments",
    "C103_wrong",
    "C103_missing",
    "C103_latin_refuted",
    "C103_name_refuted"
   ],
   "note": "Refuted for a column name which is not UTF-8 (it cannot be excluded as text) and for file names with a zero character; the table theorem has the conditions of C79."
  },
  {
   "property": "C104",
   "status": "partial",
   "theorems": [
    "C104_table_partial",
    "C104_wrong",
    "C104_na_refuted"
   ],
   "note": "Refuted for NA, which is taken as the name \"NA\"; the table theorem has the conditions of C87."
  },
  {
   "property": "C105",
   "status": "partial",
   "theorems": [
    "C105_print_partial",
    "C105_each_file_refuted",
    "C105_in_order",
    "C105_null",
    "C105_csv",
    "C105_csv_refuted",
    "C105_name_partial",
    "C105_name_refuted"
   ],
   "note": "Refuted: a file or cell which fails ends the process, nothing is done for the files behind it (proved for every command); csv never succeeds, it empties its first file (proved for every list). print is proved for lists of tables without braces in the names and of files which cannot be opened."
  },
  {
   "property": "C106",
   "status": "partial",
   "theorems": [
    "C106_datetime_partial",
    "C106_date_partial",
    "C106_datetime_back",
    "C106_date_back",
    "C106_time_refuted",
    "C106_early_refuted",
    "C106_early",
    "C106_delta_partial",
    "C106_delta_refuted",
    "C106_large"
   ],
   "note": "Refuted for years before 1400 (raises, proved for all), for times of day (given as time, not taken back) and for negative timedelta objects which are not whole days; proved for all others up to 106751990 days, undefined from 106751992 days on (proved)."
  },
  {
   "property": "C107",
   "status": "partial",
   "theorems": [
    "C107_agree_partial",
    "C107_same_partial",
    "C107_refuted"
   ],
   "note": "Refuted: on a page which announces a row it does not hold the debug build is terminated, the release build delivers it. Proved: up to the termination both show the same, for every source and sequence of calls."
  },
  {
   "property": "C108",
   "status": "partial",
   "theorems": [
    "C108_enough_partial",
    "C108_file_refuted",
    "C108_header_refuted"
   ],
   "note": "Refuted: the announced lengths are believed (a file of 320 bytes needs 8000 to be found empty, one of 288 asks for 4 GiB). Proved: the largest piece is the header, a page, the columns or a compressed row, and with it everything is as with more."
  },
  {
   "property": "C109",
   "status": "partial",
   "theorems": [
    "C109_histories",
    "C109_handed_on",
    "C109_named",
    "C109_named_sink_refuted"
   ],
   "note": "Refuted for a sink given by name: the Reader only refers to it and cannot be used when it is gone. Proved for Readers which own their sinks, and for named sinks which live to the end."
  },
  {
   "property": "C110",
   "status": "proved",
   "theorems": [
    "C110_reference"
   ],
   "note": ""
  },
  {
   "property": "C111",
   "status": "proved",
   "theorems": [
    "C111_calls"
   ],
   "note": ""
  },
  {
   "property": "C112",
   "status": "partial",
   "theorems": [
    "C112_calls",
    "C112_state",
    "C112_index",
    "C112_chunk_size",
    "C112_no_chunk_size",
    "C112_chunk_refused",
    "C112_refusing_refuted",
    "C112_half_refuted"
   ],
   "note": "proved for the numbers above -1 and below 2^64, for vectors of another length and other types; refuted for -1, NA and NaN (undefined behaviour of the cast), and a chunk_size of 0.5 is 0"
  },
  {
   "property": "C113",
   "status": "partial",
   "theorems": [
    "C113_no_allocation",
    "C113_keep",
    "C113_look",
    "C113_valid",
    "C113_page",
    "C113_row",
    "C113_overwritten",
    "C113_page_refuted",
    "C113_row_refuted"
   ],
   "note": "Proved: no memory is asked for after opening, a kept pointer can always be read, a row in the page stays until the next page is asked for, a decompressed row until the next row is extracted. Refuted: that it goes on showing its row (the next page, or the next compressed row, shows in its place)."
  },
  {
   "property": "C114",
   "status": "partial",
   "theorems": [
    "C114_no_fault",
    "C114_fault",
    "C114_far",
    "C114_said_again_refuted",
    "C114_told_apart_refuted"
   ],
   "note": "Proved for every content and continuation: the session is the one with the whole file, or an exception reports the fault after the same calls; no exception before the fault is reached. Refuted: that later calls report it too (they say that the data has ended) and, inside the header, that it is told from a short file."
  },
  {
   "property": "C115",
   "status": "partial",
   "theorems": [
    "C115_values",
    "C115_owners",
    "C115_copy",
    "C115_facts",
    "C115_created",
    "C115_readable_refuted",
    "C115_reference_refuted",
    "C115_equal_refuted"
   ],
   "note": "Proved for every program: columns behave as plain values, each formatter lives exactly as long as it has owners, a copy is independent of the others, the texts never change, the metadata has the accepted columns. Refuted: a column which was moved from cannot be read (null pointer), a column built on a named formatter keeps a reference to it, and == compares the names only."
  },
  {
   "property": "C116",
   "status": "partial",
   "theorems": [
    "C116_stands",
    "C116_alone",
    "C116_tables",
    "C116_shared_refuted",
    "C116_empty_refuted",
    "C116_trailing_refuted",
    "C116_lifetime_refuted"
   ],
   "note": "Proved: where the source stands, that a source used by one Reader serves it like its own, and tables one behind the other. False, each shown by a witness: that a Reader notices another user of its source (it misses rows without an error), that a table without rows or with a page behind its last row can be followed by another table, that a source may end before its Reader."
  },
  {
   "property": "C117",
   "status": "proved",
   "theorems": [
    "C117_rows",
    "C117_columns"
   ],
   "note": ""
  },
  {
   "property": "C118",
   "status": "partial",
   "theorems": [
    "C118_words_partial",
    "C118_short_refuted"
   ],
   "note": "Proved for every two files whose header is not longer than a page. False otherwise, shown by a witness: the page does not cover the header in the buffer, and a row which reaches behind the page is completed with bytes of the header."
  },
  {
   "property": "C119",
   "status": "partial",
   "theorems": [
    "C119_rows_partial",
    "C119_outputs_partial",
    "C119_no_row_refuted"
   ],
   "note": "Proved for every two files of C73 with at least one row. Without rows the type said of a column depends on its width (refuted)."
  },
  {
   "property": "C120",
   "status": "partial",
   "theorems": [
    "C120_delivered",
    "C120_table",
    "C120_no_row_refuted",
    "C120_missing_refuted"
   ],
   "note": "Proved for all files and histories which deliver all the announced rows, and for conforming files with a row over every history. Without rows, or with fewer rows than announced, the appended bytes are read (refuted)."
  },
  {
   "property": "C121",
   "status": "partial",
   "theorems": [
    "C121_all_partial",
    "C121_first_mix_refuted",
    "C121_later_mix_refuted",
    "C121_amendment_refuted",
    "C121_late_text_refuted"
   ],
   "note": "Proved when no mix page has rows in both forms and no amendment page behind the beginning of the data has rows. Otherwise rows are lost without an error: four witnesses."
  },
  {
   "property": "C122",
   "status": "partial",
   "theorems": [
    "C122_same_outcome",
    "C122_whole_partial",
    "C122_whole_no_rows",
    "C122_stays",
    "C122_by_row",
    "C122_by_chunk",
    "C122_second_frame_refuted",
    "C122_not_asked_refuted",
    "C122_no_rows_refuted"
   ],
   "note": "The outcomes, and the frame of SinkWholeData when the second file has rows, are those of a new object. Refuted for the frames of SinkByRow and SinkByChunk, and for a second file without rows."
  },
  {
   "property": "C123",
   "status": "partial",
   "theorems": [
    "C123_same_outcome",
    "C123_whole_partial",
    "C123_chunk_null",
    "C123_chunks",
    "C123_frame_refuted",
    "C123_no_rows_refuted"
   ],
   "note": "The outcomes (SinkByRow and SinkWholeData; SinkByChunk when it has no frame or one with the same columns) are those of a new object, and the frame of SinkWholeData when the second file has rows. Refuted for the frame of SinkByChunk and for a second file without rows. Not modelled: rbind of frames with other columns."
  },
  {
   "property": "C124",
   "status": "partial",
   "theorems": [
    "C124_csv",
    "C124_print",
    "C124_mixed_partial",
    "C124_columns_refuted",
    "C124_outside_refuted",
    "C124_failed_refuted"
   ],
   "note": "Proved when the Readers are used one after the other, and in any order when the files have the same columns. Refuted otherwise."
  },
  {
   "property": "C125",
   "status": "proved",
   "theorems": [
    "C125_one_row"
   ],
   "note": "Proved. C125_page_header_case shows that a byte of the header of a page reaches further."
  },
  {
   "property": "C126",
   "status": "proved",
   "theorems": [
    "C126_one_call"
   ],
   "note": "Proved. C126_all_case shows why calls for many rows are left out, C126_outside_case a changed byte which makes a read outside the row."
  },
  {
   "property": "C127",
   "status": "partial",
   "theorems": [
    "C127_one_file",
    "C127_appended",
    "C127_ahead",
    "C127_appended_later_refuted",
    "C127_some_moment_refuted"
   ],
   "note": "C127_one_file, C127_appended and C127_ahead prove all but the last clause. The last clause is false: C127_appended_later_refuted. C127_some_moment_refuted: the one file need not have existed at any moment."
  },
  {
   "property": "C128",
   "status": "partial",
   "theorems": [
    "C128_one_disk",
    "C128_reported_partial",
    "C128_no_fault",
    "C128_recovered_refuted"
   ],
   "note": "C128_reported_partial, C128_one_disk and C128_no_fault prove the first clause, also for a file which changes. The last clause is false: C128_recovered_refuted."
  },
  {
   "property": "C129",
   "status": "partial",
   "theorems": [
    "C129_pages",
    "C129_order",
    "C129_description_refuted"
   ],
   "note": "C129_pages and C129_order prove all but the last clause, which is false: C129_description_refuted."
  },
  {
   "property": "C130",
   "status": "partial",
   "theorems": [
    "C130_own",
    "C130_short_partial",
    "C130_refused_refuted",
    "C130_counts_refuted"
   ],
   "note": "C130_own proves the first clause for every page which can hold the three fields.  It is false for shorter pages, C130_counts_refuted, and the second clause is false, C130_refused_refuted; C130_short_partial proves what happens instead if the page ends before the place of its type."
  },
  {
   "property": "C131",
   "status": "partial",
   "theorems": [
    "C131_passed_over",
    "C131_metc_refuted"
   ],
   "note": "C131_passed_over proves the first clause; behind the page where the data begin such a page has no rows, which is C44.  The second is false: C131_metc_refuted."
  }
 ]
}