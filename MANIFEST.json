{
 "claims": [
  {
   "property": "C01",
   "status": "proved",
   "theorems": [
    "C01_biff_round_trip",
    "C01_biff_resynchronises",
    "C01_record_layout"
   ],
   "note": "All record lists with encodable ids and payloads below 2^29 bytes; C01_record_layout pins the bytes."
  },
  {
   "property": "C02",
   "status": "proved",
   "theorems": [
    "C02_biff_filtered_scan"
   ],
   "note": "Streaming scanner, non-empty filter."
  },
  {
   "property": "C03",
   "status": "proved",
   "theorems": [
    "C03_biff_truncated",
    "C03_biff_truncated_filtered",
    "C03_scan_total",
    "C03_arbitrary"
   ],
   "note": "Streaming scanner, every cut position; on arbitrary bytes the yielded records are exactly those standing there."
  },
  {
   "property": "C04",
   "status": "proved",
   "theorems": [
    "C04_size_prefix",
    "C04_size_prefix_domain",
    "C04_size_prefix_error"
   ],
   "note": "Range, errors, length and round trip of the size prefix."
  },
  {
   "property": "C05",
   "status": "partial",
   "theorems": [
    "C05_scanners_agree_partial",
    "C05_truncated_never_ends_refuted",
    "C05_high_ids_refuted",
    "C05_empty_filter_refuted",
    "C05_arbitrary_partial",
    "C05_only_low_ids",
    "C05_high_ids_general_refuted",
    "C05_empty_filter_general_refuted"
   ],
   "note": "False as stated: the numba scanner loops forever on truncated streams, drops ids >= 0x8000 and treats an empty filter differently (_refuted theorems). Agreement proved for complete streams, ids < 0x8000, non-empty or absent filter, every block size. On arbitrary bytes with ids < 0x8000: agreement when records reach to the end, non-termination otherwise. C05_only_low_ids: on any bytes no record of the block-buffered scanner has an id of 0x8000 or more, so the two differ on every stream with one (C05_high_ids_general_refuted); with an empty filter it yields nothing on any bytes (C05_empty_filter_general_refuted)."
  },
  {
   "property": "C06",
   "status": "proved",
   "theorems": [
    "C06_named_records",
    "C06_unknown_name",
    "C06_table_size"
   ],
   "note": "All 845 names, all payloads. C06_unknown_name: any other name is a KeyError."
  },
  {
   "property": "C07",
   "status": "proved",
   "theorems": [
    "C07_repr_number"
   ],
   "note": "All logical types below 2^14."
  },
  {
   "property": "C08",
   "status": "proved",
   "theorems": [
    "C08_wide_string_load",
    "C08_null_string_load",
    "C08_from_binary_agrees",
    "C08_leading_mark_lost",
    "C08_exact",
    "C08_error",
    "C08_codec"
   ],
   "note": "All texts of code points whose UTF-16 length fits; round trip, layout and consumed length. C08_exact: exactly which byte strings load as which string, against RFC 2781 stated as a relation (Utf16Text.v)."
  },
  {
   "property": "C09",
   "status": "partial",
   "theorems": [
    "C09_dump_load_refuted",
    "C09_last_char_lost",
    "C09_null_partial",
    "C09_empty_partial",
    "C09_written",
    "C09_not_written"
   ],
   "note": "False as stated (the loader drops the last character of every non-empty string): refuted, and the exact loss is proved. What remains true is proved: null and empty strings. C09_written/C09_not_written: exactly which bytes dump writes for which string and exactly when it raises what, against RFC 2781 as a relation."
  },
  {
   "property": "C10",
   "status": "proved",
   "theorems": [
    "C10_bundle_sh"
   ],
   "note": "Short buffers."
  },
  {
   "property": "C11",
   "status": "proved",
   "theorems": [
    "C11_shared_table"
   ],
   "note": "All streams of shared-string items among ignored records."
  },
  {
   "property": "C12",
   "status": "proved",
   "theorems": [
    "C12_cells_kept_rows",
    "C12_cells_collapsed_rows",
    "C12_after_end"
   ],
   "note": "Whole-sheet decoding of every cell record kind in both row modes."
  },
  {
   "property": "C13",
   "status": "partial",
   "theorems": [
    "C13_no_error_strings_refuted",
    "C13_error_cell_delivered_refuted"
   ],
   "note": "False as stated: the xlsb error strings are UTF-16 byte strings and never equal a text, so every error text is delivered; _refuted theorems show it for all error strings and all sheets."
  },
  {
   "property": "C14",
   "status": "partial",
   "theorems": [
    "C14_styles_partial",
    "C14_styles_exact_behaviour",
    "C14_low_byte_refuted",
    "C14_code_length_refuted"
   ],
   "note": "False as stated for ids >= 256 and code lengths the reader misparses (_refuted). Exact behaviour for every styles part is proved, and the claim for parts outside the two defects."
  },
  {
   "property": "C15",
   "status": "proved",
   "theorems": [
    "C15_delivered_row"
   ],
   "note": "Row numbers in both modes."
  },
  {
   "property": "C16",
   "status": "partial",
   "theorems": [
    "C16_xlsb_skip_keeps_one_row_refuted",
    "C16_xlsb_skip_collapse_refuted",
    "C16_xlsb_skip_with_limit_partial",
    "C16_xlsx_skip_rows_partial",
    "C16_xlsx_collapsed_skip_refuted",
    "C16_xlsx_rows_lost_refuted"
   ],
   "note": "False as stated for both formats (_refuted: xlsb keeps one row, xlsx stops at row 3N+2e, collapse mode delivers nothing). Proved when the limit in force covers the sheet; the exact xlsx limit is C24_xlsx_exact_kept_rows."
  },
  {
   "property": "C17",
   "status": "partial",
   "theorems": [
    "C17_xlsb_take_rows",
    "C17_xlsx_take_rows_partial",
    "C17_xlsx_take_collapsed_partial",
    "C17_xlsx_leading_empty_refuted"
   ],
   "note": "xlsb proved. xlsx: proved when the first row delivers a cell (keep mode) and against the reader's own numbering (collapse mode); refuted with leading empty rows."
  },
  {
   "property": "C18",
   "status": "partial",
   "theorems": [
    "C18_xlsb_skip_cols",
    "C18_xlsx_skip_cols_partial",
    "C18_xlsx_first_row_refuted"
   ],
   "note": "xlsb proved. xlsx: proved when the first row still delivers a cell; refuted otherwise."
  },
  {
   "property": "C19",
   "status": "partial",
   "theorems": [
    "C19_xlsb_calls_partial",
    "C19_xlsb_no_rows_refuted",
    "C19_xlsx_calls_collapsed",
    "C19_xlsx_calls_kept_partial",
    "C19_xlsx_calls_exact",
    "C19_xlsx_leading_empty_refuted"
   ],
   "note": "xlsb: exact count for sheets with a row, refuted for sheets without rows. xlsx: proved in collapse mode, exact count in keep mode, refuted with leading empty rows."
  },
  {
   "property": "C20",
   "status": "proved",
   "theorems": [
    "C20_letters_to_index",
    "C20_distinct_letters"
   ],
   "note": "Python version of col_idx, all n; the optional numba variant returns int32 and is only equal below 2^31."
  },
  {
   "property": "C21",
   "status": "proved",
   "theorems": [
    "C21_one_entry_per_si"
   ],
   "note": "All event streams of si elements among other events (no si nested in si)."
  },
  {
   "property": "C22",
   "status": "partial",
   "theorems": [
    "C22_single_text_partial",
    "C22_runs_lost_refuted"
   ],
   "note": "False as stated: only the first non-blank non-null text node is kept (_refuted for all inputs with a second piece). Proved for a single untrimmed text node."
  },
  {
   "property": "C23",
   "status": "partial",
   "theorems": [
    "C23_xlsx_cells_partial",
    "C23_xlsx_cells_short_partial",
    "C23_xlsx_cell_fields",
    "C23_xlsx_irrelevant_events",
    "C23_xlsx_rows_lost_refuted",
    "C23_xlsx_split_text_refuted"
   ],
   "note": "Rows after 2e are lost when the first e rows are empty and split character data gives two cells (_refuted). Proved when the first row delivers a cell or the sheet is short; fields of every delivered cell proved."
  },
  {
   "property": "C24",
   "status": "partial",
   "theorems": [
    "C24_xlsx_exact_kept_rows",
    "C24_xlsx_exact_collapsed_rows",
    "C24_xlsx_row_number_kept",
    "C24_xlsx_row_number_collapsed_partial",
    "C24_xlsx_inner_empty_row_refuted"
   ],
   "note": "Exact numbering and cut-off proved for both modes. Keep-mode numbers are right; collapse mode counts later empty rows (_refuted), right without them."
  },
  {
   "property": "C25",
   "status": "proved",
   "theorems": [
    "C25_every_schedule_ends",
    "C25_every_schedule_result",
    "C25_no_early_end",
    "C25_no_blocking",
    "C25_early_close_prefix"
   ],
   "note": "Unbounded FIFO queue; every schedule of the two threads; no early end, no blocking; early close gives a prefix."
  },
  {
   "property": "C26",
   "status": "partial",
   "theorems": [
    "C26_error_swallowed_refuted"
   ],
   "note": "Refuted: for every error point and schedule the consumer ends normally with the cells so far."
  },
  {
   "property": "C27",
   "status": "partial",
   "theorems": [
    "C27_xlsb_exact",
    "C27_xlsb_first_cell_general_refuted",
    "C27_xlsb_shared_loaded_partial",
    "C27_xlsb_null_list_partial",
    "C27_xlsb_first_cell_partial",
    "C27_xlsb_first_cell_refuted",
    "C27_xlsx_null_predicate",
    "C27_xlsx_plain_cells_partial",
    "C27_xlsx_shared_index_refuted"
   ],
   "note": "xlsb: false for the first cell (_refuted), proved for the rest. xlsx: proved for cells with their own text; shared cells are tested by index text (_refuted). C27_xlsb_exact: with empty rows kept, for arbitrary parts, exactly the references to null strings are missing except for the first delivered cell; C27_xlsb_first_cell_general_refuted: a null first cell is delivered in every mode."
  },
  {
   "property": "C28",
   "status": "partial",
   "theorems": [
    "C28_tokens_partial",
    "C28_first_section_partial",
    "C28_upper_duration_refuted",
    "C28_escapes_refuted",
    "C28_backslash_exact",
    "C28_upper_duration_general_refuted",
    "C28_escaped_quotes_refuted"
   ],
   "note": "False as stated for upper-case durations and escaped backslashes, quotes and brackets (_refuted, for all surrounding tokens); proved for the token grammar without them, exact with escaped backslashes (C28_backslash_exact); for arbitrary text see C95."
  },
  {
   "property": "C29",
   "status": "proved",
   "theorems": [
    "C29_styles",
    "C29_styles_exact",
    "C29_raises"
   ],
   "note": "All styles parts; temporal custom codes in the token reading of C28, plus an exact version without assumption on the codes."
  },
  {
   "property": "C30",
   "status": "proved",
   "theorems": [
    "C30_xlsx_table",
    "C30_xlsb_table",
    "C30_table_entries",
    "C30_index_is_name",
    "C30_bad_index",
    "C30_good_index",
    "C30_unknown_name",
    "C30_formats_agree"
   ],
   "note": "Sheet tables of both readers and selection by index and name; distinct names, ids."
  },
  {
   "property": "C31",
   "status": "partial",
   "theorems": [
    "C31_values_partial",
    "C31_uniform",
    "C31_mode_no",
    "C31_text_partial",
    "C31_run_refuted"
   ],
   "note": "Proved for every history of well-formed cells in row order with windowed (or, in mode no, any) reads in between; refuted for .xlsx runs holding a numeric text that is no number; whole-column reads in converting modes rewrite the column (C35)."
  },
  {
   "property": "C32",
   "status": "proved",
   "theorems": [
    "C32_first_wins",
    "C32_last_is_greatest"
   ],
   "note": "For every history of add/read calls, well formed or not: a late add answers with the last row and changes no other answer."
  },
  {
   "property": "C33",
   "status": "partial",
   "theorems": [
    "C33_window_partial",
    "C33_exact"
   ],
   "note": "Exact in mode \"no\" (C33_exact) and for every conflict-free window; elsewhere the i-th element is a converted form of row off+i (relation delivers). Reads meeting dates with unresolved shared strings raise (C41). The result of every read is given exactly by C88."
  },
  {
   "property": "C34",
   "status": "partial",
   "theorems": [
    "C34_mask_partial",
    "C34_exact"
   ],
   "note": "Exact in mode \"no\" (C34_exact); elsewhere as C33. The result of every read is given exactly by C88."
  },
  {
   "property": "C35",
   "status": "partial",
   "theorems": [
    "C35_reads_partial",
    "C35_mode_no",
    "C35_whole_read_refuted",
    "C35_history_refuted"
   ],
   "note": "Windowed reads keep later results; mode \"no\" keeps every result; whole-column reads that resolve a conflict change later reads (C35_whole_read_refuted, C35_history_refuted)."
  },
  {
   "property": "C36",
   "status": "partial",
   "theorems": [
    "C36_forward_partial",
    "C36_refuted",
    "C36_step_one_exact",
    "C36_backward_partial",
    "C36_general_refuted"
   ],
   "note": "Step 1: exactly which slices are right (C36_step_one_exact). Forward slices with in-range bounds and backward slices with both bounds given proved; backward slices with a bound left out or stop 0, and step 0, always wrong (C36_general_refuted)."
  },
  {
   "property": "C37",
   "status": "partial",
   "theorems": [
    "C37_table_partial"
   ],
   "note": "Full table except the raising case of C41. The result of every read is given exactly by C88."
  },
  {
   "property": "C38",
   "status": "proved",
   "theorems": [
    "C38_values"
   ],
   "note": "All windows, masks and modes; the two result types of numbers are separated by the narrowing test."
  },
  {
   "property": "C39",
   "status": "partial",
   "theorems": [
    "C39_narrowing_partial",
    "C39_lossless_refuted",
    "C39_out_of_range_refuted",
    "C39_nan",
    "C39_error",
    "C39_whole"
   ],
   "note": "Proved for precision 0..22 and scaled values within 2^51; for all finite values the error is at most half a unit of the last digit plus |x| * 2^-51 (C39_error). Refuted at the default precision 6 for 10223501449417.001953125 and for infinite or out-of-range values. The delivered integers are the truncations."
  },
  {
   "property": "C40",
   "status": "partial",
   "theorems": [
    "C40_plain_partial",
    "C40_numeric_refuted",
    "C40_temporal_refuted"
   ],
   "note": "Proved when the mode does not attempt the conversion; refuted for modes numeric and temporal, where runs converted before the failure keep the converted form. The result of every read is given exactly by C88."
  },
  {
   "property": "C41",
   "status": "partial",
   "theorems": [
    "C41_shared_strings_refuted",
    "C41_resolved_partial"
   ],
   "note": "Refuted: every such read raises while the strings are unresolved; proved once they are resolved."
  },
  {
   "property": "C42",
   "status": "partial",
   "theorems": [
    "C42_lookups_partial",
    "C42_refuted"
   ],
   "note": "Lookups are right when the indices are in the table; any index outside it is read unchecked (refuted)."
  },
  {
   "property": "C43",
   "status": "proved",
   "theorems": [
    "C43_integer",
    "C43_float",
    "C43_cover"
   ],
   "note": "All 2^32 values: integer and float form, x100 flag, correctly rounded division; NaN and infinity payloads covered."
  },
  {
   "property": "C44",
   "status": "proved",
   "theorems": [
    "C44_integer_round_trip"
   ],
   "note": "All 30-bit integers."
  },
  {
   "property": "C45",
   "status": "partial",
   "theorems": [
    "C45_nonnegative_partial",
    "C45_negative_refuted"
   ],
   "note": "Non-negative integers round trip; every negative integer comes back as n+1 (_refuted). Non-integers: C79."
  },
  {
   "property": "C46",
   "status": "partial",
   "theorems": [
    "C46_whole_days_partial",
    "C46_boundaries_refuted"
   ],
   "note": "All whole-day serials 1..2958465 except 60; serials 60 and 0 refuted."
  },
  {
   "property": "C47",
   "status": "partial",
   "theorems": [
    "C47_within_a_millisecond_partial",
    "C47_whole_seconds_refuted"
   ],
   "note": "Error below 1 + 1/32 ms over the whole range except [60,61); whole seconds are not exact (_refuted: 2020-01-01 00:00:02)."
  },
  {
   "property": "C48",
   "status": "proved",
   "theorems": [
    "C48_round_trip"
   ],
   "note": "All whole days of the Excel range."
  },
  {
   "property": "C49",
   "status": "partial",
   "theorems": [
    "C49_first_format_partial",
    "C49_epoch_refuted",
    "C49_before_1970_refuted",
    "C49_exact"
   ],
   "note": "C49_exact describes the result for every parser, format list and array; the claim itself holds when parsed values are positive and is refuted at the epoch and before 1970."
  },
  {
   "property": "C50",
   "status": "partial",
   "theorems": [
    "C50_time_part",
    "C50_date_part_partial",
    "C50_date_part_refuted",
    "C50_exact"
   ],
   "note": "dt_has_t proved; dt_has_d right for non-negative timestamps other than 86400000, refuted otherwise; C50_exact says for which arrays it is right."
  },
  {
   "property": "C51",
   "status": "partial",
   "theorems": [
    "C51_general_refuted",
    "C51_every_length_refuted",
    "C51_one_byte_partial",
    "C51_exact",
    "C51_nine_refuted"
   ],
   "note": "C51_exact describes the result for every length (bytes in reverse order); so right for at most eight values and refuted for nine. C51_general_refuted: every array whose first value differs from the one at the start of its last byte comes out wrong; C51_every_length_refuted: no length above eight is safe."
  },
  {
   "property": "C52",
   "status": "proved",
   "theorems": [
    "C52_shape",
    "C52_content",
    "C52_returns"
   ],
   "note": "C52_shape for every run that returns; C52_content gives names, rows and values; C52_returns says when it returns."
  },
  {
   "property": "C53",
   "status": "partial",
   "theorems": [
    "C53_exact",
    "C53_partial",
    "C53_refuted"
   ],
   "note": "Rows are counted over the tallest column, not the last row: exact count proved, all rows kept iff some column spans row 0 to the last row, refuted otherwise."
  },
  {
   "property": "C54",
   "status": "proved",
   "theorems": [
    "C54_titles"
   ],
   "note": "Names described by an independent left-to-right fill-and-join of the header block."
  },
  {
   "property": "C55",
   "status": "partial",
   "theorems": [
    "C55_refuted",
    "C55_dropped",
    "C55_unnamed_partial"
   ],
   "note": "Refuted for header rows (the uniqueness pass result is discarded); the discarded pass itself is right (C55_dropped); names are unique without a header."
  },
  {
   "property": "C56",
   "status": "proved",
   "theorems": [
    "C56_found",
    "C56_missing",
    "C56_present"
   ],
   "note": "Found row, missing pattern and present pattern."
  },
  {
   "property": "C57",
   "status": "partial",
   "theorems": [
    "C57_exact",
    "C57_partial",
    "C57_refuted"
   ],
   "note": "Refuted when two columns have a match. C57_exact, in every mode: the row is the topmost match of the first column that has one, and it is the topmost of the sheet exactly if no later column matches above it."
  },
  {
   "property": "C58",
   "status": "partial",
   "theorems": [
    "C58_blank_kept_refuted",
    "C58_nan_dropped_refuted",
    "C58_partial",
    "C58_empty_refuted"
   ],
   "note": "Proved without conversions and NaN when at least one row is kept (C52_content states which rows are kept in every mode); refuted when no row is kept, and where texts become numbers: an empty shared string counts as filled, the text nan as empty."
  },
  {
   "property": "C59",
   "status": "partial",
   "theorems": [
    "C59_refuted"
   ],
   "note": "Refuted: every header-only sheet raises."
  },
  {
   "property": "C60",
   "status": "partial",
   "theorems": [
    "C60_wanted",
    "C60_columns",
    "C60_errors",
    "C60_parameters_refuted"
   ],
   "note": "Proved up to type parameters; refuted for types with equal id and other parameters. Type ids are Arrow's enumeration, written out in ReaderSpec (arrow_id), not the model's type_id."
  },
  {
   "property": "C61",
   "status": "partial",
   "theorems": [
    "C61_kept_partial",
    "C61_collapsed_partial",
    "C61_skip_collapsed_partial",
    "C61_leading_empty_refuted",
    "C61_skip_refuted",
    "C61_gap_refuted"
   ],
   "note": "Equal positions when the first row has a cell (empty rows kept) or no empty row lies between non-empty ones (dropped); refuted for leading empty rows, skipped rows and inner empty rows."
  },
  {
   "property": "C62",
   "status": "partial",
   "theorems": [
    "C62_exact",
    "C62_round_trip_partial",
    "C62_round_trip_refuted",
    "C62_bytes",
    "C62_bytes_round_trip_partial"
   ],
   "note": "C62_exact: the round trip works exactly for fields without ampersand, less-than sign, double quote, tab, newline and characters outside XML, and types without a slash; so refuted otherwise (dump_xml does not escape). Numeric character references are an error in the parser of the specification; no text with one survives in expat either, since it is read as a shorter text."
  },
  {
   "property": "C63",
   "status": "partial",
   "theorems": [
    "C63_relative_partial",
    "C63_absolute_refuted"
   ],
   "note": "Right for relative targets; absolute targets give xl//xl/... in both readers (_refuted)."
  },
  {
   "property": "C64",
   "status": "partial",
   "theorems": [
    "C64_file_refuted",
    "C64_xlsb_missing_refuted",
    "C64_other_sheet_refuted",
    "C64_xlsb_partial"
   ],
   "note": "xlsx: any sheet without a worksheet relationship raises KeyError for the whole workbook, whatever sheet is asked for (_refuted, for the parts and for whole files); xlsb lists all sheets that have a relationship of any kind, one without any raises RuntimeError for every sheet (_refuted)."
  },
  {
   "property": "C65",
   "status": "partial",
   "theorems": [
    "C65_serial_partial",
    "C65_before_1970_refuted"
   ],
   "note": "Right after 1970-01-01; every earlier day refuted."
  },
  {
   "property": "C66",
   "status": "partial",
   "theorems": [
    "C66_null_string_refuted",
    "C66_nulls_partial"
   ],
   "note": "Refuted for null strings that are converted; nulls stay null otherwise. The result of every read is given exactly by C88."
  },
  {
   "property": "C67",
   "status": "partial",
   "theorems": [
    "C67_grouping_partial",
    "C67_grouping_refuted",
    "C67_type_refuted"
   ],
   "note": "Proved when no conversion is attempted; refuted otherwise (values and type). The result of every read is given exactly by C88."
  },
  {
   "property": "C68",
   "status": "partial",
   "theorems": [
    "C68_refuted"
   ],
   "note": "Refuted: the rows are skipped for header=0 and for a list of names too."
  },
  {
   "property": "C69",
   "status": "partial",
   "theorems": [
    "C69_xlsb_refuted",
    "C69_xlsx_refuted"
   ],
   "note": "Refuted: without the part every sheet with a cell raises KeyError, in both formats. With the part present see C71."
  },
  {
   "property": "C70",
   "status": "proved",
   "theorems": [
    "C70_no_workbook",
    "C70_no_sheet",
    "C70_negative"
   ],
   "note": ""
  },
  {
   "property": "C71",
   "status": "partial",
   "theorems": [
    "C71_xlsb_options_partial",
    "C71_xlsx_options_partial",
    "C71_xlsb_window_partial",
    "C71_xlsx_window_partial",
    "C71_xlsb_partial",
    "C71_xlsx_partial"
   ],
   "note": "For both formats, when format ids and codes are classified correctly (C14, C29) and (xlsb) the first cell is not a null shared string: *_options_partial - whatever table is returned, under any row window, header, lookup, filter, dtypes and conversion mode, is the one of the delivered rows (text lookups: cells in column order within rows); *_window_partial and *_partial - a table is returned for header=int, no lookup, filters or dtypes, no temporal conversion, when some column reaches from the first to the last delivered row (C53)."
  },
  {
   "property": "C72",
   "status": "partial",
   "theorems": [
    "C72_xlsb_partial",
    "C72_xlsb_refuted",
    "C72_xlsx_partial",
    "C72_xlsx_refuted"
   ],
   "note": "Refuted: declared numbers are ignored, row records are counted. Proved when rows are numbered consecutively from the first."
  },
  {
   "property": "C73",
   "status": "partial",
   "theorems": [
    "C73_refuted"
   ],
   "note": "Refuted: the argument is never looked at."
  },
  {
   "property": "C74",
   "status": "partial",
   "theorems": [
    "C74_refuted"
   ],
   "note": "Refuted: the default strategy keeps rows filled in either column."
  },
  {
   "property": "C75",
   "status": "partial",
   "theorems": [
    "C75_refuted"
   ],
   "note": "Refuted: a full stop instead of a colon."
  },
  {
   "property": "C76",
   "status": "proved",
   "theorems": [
    "C76_mismatch",
    "C76_names"
   ],
   "note": "Without lookup_head (a failing lookup raises first)."
  },
  {
   "property": "C77",
   "status": "proved",
   "theorems": [
    "C77_cell_order"
   ],
   "note": "Whenever the first reading returns; the table is the same value."
  },
  {
   "property": "C78",
   "status": "proved",
   "theorems": [
    "C78_xlsb_other_members",
    "C78_xlsx_other_members"
   ],
   "note": "Both formats, for a well-formed workbook part and an existing selected sheet; styles, shared strings and the sheet itself are arbitrary."
  },
  {
   "property": "C79",
   "status": "partial",
   "theorems": [
    "C79_hundredths_partial",
    "C79_other_partial",
    "C79_negative_refuted",
    "C79_large_refuted",
    "C79_beyond_refuted",
    "C79_exact"
   ],
   "note": "Exactly which numbers with an RK form survive (C79_exact): hundredths from 0 to 2^29 - 1, whole numbers from 0 to 2^29 - 1, others with the low 34 bits clear, and those whose hundredfold overflows. So every negative hundredth, nearly every number from 2^29 on and float forms divided by 100 are lost (_refuted)."
  },
  {
   "property": "C80",
   "status": "partial",
   "theorems": [
    "C80_variants_partial",
    "C80_large_refuted",
    "C80_not_whole",
    "C80_whole",
    "C80_exact"
   ],
   "note": "False as stated; exact for every finite double: never different on doubles that are no whole number (C80_not_whole), on whole numbers C80_exact says exactly when the words agree, where out-of-range conversions give the least integer. Equal up to 2^31 - 1 whatever they give; refuted for all whole numbers from 2^31 to 2^32 whose low 30 bits are not zero."
  },
  {
   "property": "C81",
   "status": "partial",
   "theorems": [
    "C81_xlsb_limit",
    "C81_xlsb_no_limit",
    "C81_xlsx_limit",
    "C81_xlsx_no_limit",
    "C81_xlsx_kept_refuted"
   ],
   "note": "Proved for arbitrary parts and every pair of limits in both formats; against no limit for .xlsb and for .xlsx without keeping empty rows; refuted for .xlsx keeping them (a leading empty row turns no limit into a limit)."
  },
  {
   "property": "C82",
   "status": "proved",
   "theorems": [
    "C82_xlsb_cells",
    "C82_xlsb_rows",
    "C82_xlsx_cells",
    "C82_xlsx_rows"
   ],
   "note": "Arbitrary parts. The upper bound on rows for .xlsx is for collapsed rows; keeping empty rows it fails, see C17."
  },
  {
   "property": "C83",
   "status": "partial",
   "theorems": [
    "C83_xlsb_kept",
    "C83_xlsb_contents",
    "C83_xlsx_contents",
    "C83_xlsx_kept_refuted"
   ],
   "note": "Proved for .xlsb on arbitrary parts (kept rows: exactly; any mode: up to row numbers) and for .xlsx with collapsed rows; refuted for .xlsx keeping empty rows. null_shared is taken as fixed during the run, see C27 for the first cell."
  },
  {
   "property": "C84",
   "status": "proved",
   "theorems": [
    "C84_xlsb_failure",
    "C84_xlsb_no_failure",
    "C84_xlsx_failure"
   ],
   "note": "Arbitrary parts; the style table is taken as read."
  },
  {
   "property": "C85",
   "status": "proved",
   "theorems": [
    "C85_safe",
    "C85_past_the_end"
   ],
   "note": "The expat oracle is assumed not to report undefined behaviour itself. The index of an .xlsx cell is the number read by int()."
  },
  {
   "property": "C86",
   "status": "partial",
   "theorems": [
    "C86_distinct_partial",
    "C86_times_refuted",
    "C86_february_refuted",
    "C86_exact",
    "C86_back",
    "C86_order_partial",
    "C86_order_refuted"
   ],
   "note": "Proved within each of the three stretches (times of day, serials 1 to 59, serials from 60 on), with moments three milliseconds apart told apart; false across the seams at 1 and 60: times of day come after every date before 1970, moments of serial 59 after the earlier ones of serial 60. C86_exact: these are all inversions. The way back keeps the order strictly (C86_back)."
  },
  {
   "property": "C87",
   "status": "proved",
   "theorems": [
    "C87_back",
    "C87_not_exact"
   ],
   "note": "Exactness is false: one millisecond can be lost (C87_not_exact)."
  },
  {
   "property": "C88",
   "status": "proved",
   "theorems": [
    "C88_complete",
    "C88_raises",
    "C88_returns",
    "C88_rows",
    "C88_after"
   ],
   "note": "Columns as the readers build them (nonempty runs, shared indices inside the table); every offset, length and mask, also negative ones. Float and time conversions of the libraries are parameters."
  },
  {
   "property": "C89",
   "status": "partial",
   "theorems": [
    "C89_data_partial",
    "C89_last_refuted",
    "C89_nulls"
   ],
   "note": "Proved for data chunks except -1, which gives nothing (_refuted); null chunks give a null for every index below the size, so wrong exactly below -size (C89_nulls)."
  },
  {
   "property": "C90",
   "status": "proved",
   "theorems": [
    "C90_complete",
    "C90_empty",
    "C90_failed"
   ],
   "note": "Cells whose bytes decode, rows >= 0, header height >= 0, lookup size not 0. Regular expressions, casts and conversions of the libraries are parameters."
  },
  {
   "property": "C91",
   "status": "partial",
   "theorems": [
    "C91_partial",
    "C91_dates_partial",
    "C91_refuted",
    "C91_unmixed_partial"
   ],
   "note": "Proved unless dates meet shared strings in a temporal mode; there it is refuted (a lookup can make the read succeed)."
  },
  {
   "property": "C92",
   "status": "proved",
   "theorems": [
    "C92_raises",
    "C92_returns"
   ],
   "note": "Same sheets as C90; C92_returns is the converse for reads without lookup, filters and dtypes."
  },
  {
   "property": "C93",
   "status": "partial",
   "theorems": [
    "C93_xlsx_parts",
    "C93_relations",
    "C93_xlsx_sheet_refuted",
    "C93_xlsb_refuted"
   ],
   "note": "xlsx: proved for the relationships, workbook, styles and shared strings parts, and the relationships of xlsb. Violated for the sheet part of xlsx and for every binary part of xlsb (_refuted, for every place of the damage): the result is that of the complete file holding only what precedes the damage."
  },
  {
   "property": "C94",
   "status": "proved",
   "theorems": [
    "C94_strptime",
    "C94_strict",
    "C94_arrow",
    "C94_utf8",
    "C94_predicates"
   ],
   "note": "Exact description of the non-strict conversions and of the chunk predicates; strict conversion derived from the non-strict one."
  },
  {
   "property": "C95",
   "status": "proved",
   "theorems": [
    "C95_sub",
    "C95_search",
    "C95_temporal"
   ],
   "note": "Regex.v reads the pattern text and gives the backtracking semantics; the matchers of NumFmt.v are proved equal to it on every text."
  },
  {
   "property": "C96",
   "status": "partial",
   "theorems": [
    "C96_exact",
    "C96_letters_partial",
    "C96_letters_refuted"
   ],
   "note": "Exact description of the compiled function, agreement below 2^31 columns; beyond it different references collide (_refuted)."
  },
  {
   "property": "C97",
   "status": "proved",
   "theorems": [
    "C97_xlsx",
    "C97_xlsb",
    "C97_neither",
    "C97_cells"
   ],
   "note": "Causes are stated in FileSpec.v on the members of the archive. For a cell whose content cannot be what its type says the exception is narrowed to the kinds of FileSpec.raisable (C97_cells: any cells at all)."
  },
  {
   "property": "C98",
   "status": "partial",
   "theorems": [
    "C98_shared",
    "C98_numeric_exact",
    "C98_one_partial",
    "C98_empty_refuted",
    "C98_joined_refuted"
   ],
   "note": "Proved for shared strings, and for numbers with a single record cut inside its value; when it raises and how many values there are is exact (C98_numeric_exact). Refuted for every run with a record without value (it vanishes and the following values move up) and for records whose bytes add up."
  },
  {
   "property": "C99",
   "status": "partial",
   "theorems": [
    "C99_unmixed_partial",
    "C99_runs_partial",
    "C99_mixed_refuted",
    "C99_nothing_left_refuted"
   ],
   "note": "Proved when no column mixes what would be converted (C99_unmixed_partial) and, without date recognition, when the runs of equally stored cells agree (C99_runs_partial). Refuted otherwise: conversion works by runs of equally stored cells (C99_mixed_refuted), and so does what is left when the header takes all rows (C99_nothing_left_refuted)."
  },
  {
   "property": "C100",
   "status": "partial",
   "theorems": [
    "C100_formats_partial"
   ],
   "note": "Proved for delivered rows that show the same values, under the conditions of C99; where the two readers deliver different rows for the same sheet is C16, C23, C24 and C61."
  },
  {
   "property": "C101",
   "status": "partial",
   "theorems": [
    "C101_xlsx_later_refuted",
    "C101_xlsx_first_refuted",
    "C101_xlsb_partial"
   ],
   "note": "Proved for .xlsb when the cells before the call are legible. Refuted for .xlsx: an exception of the first call comes before the try whose finally ends the queue, so the caller waits forever (C101_xlsx_first_refuted, every sheet and schedule); one of a later call is lost and the sheet silently ends there (C101_xlsx_later_refuted, exact in every schedule)."
  },
  {
   "property": "C102",
   "status": "partial",
   "theorems": [
    "C102_xlsx",
    "C102_xlsb_exact",
    "C102_null_keys",
    "C102_xlsb_partial",
    "C102_xlsb_refuted",
    "C102_reopened_refuted"
   ],
   "note": "Proved for .xlsx (every history) and for .xlsb files without null shared strings; exact for .xlsb while the object stays open (C102_xlsb_exact: null_shared is filled iff shared has been asked for). Refuted for .xlsb with null shared strings, also after a failed load of the table, and for an object entered again after the file was replaced."
  },
  {
   "property": "C103",
   "status": "partial",
   "theorems": [
    "C103_not_entered",
    "C103_closed",
    "C103_closed_exact",
    "C103_loaded_stays",
    "C103_failed_open_refuted"
   ],
   "note": "Proved: not entered (RuntimeError), closed (no cell, raises; what had not been loaded raises ValueError), a property once loaded stays whatever happens (C103_loaded_stays). Refuted: a refused file stays open."
  },
  {
   "property": "C104",
   "status": "partial",
   "theorems": [
    "C104_xlsx",
    "C104_xlsb_exact",
    "C104_xlsb_partial",
    "C104_xlsb_unshared_partial",
    "C104_xlsb_no_nulls_partial",
    "C104_object_xlsx",
    "C104_object_xlsb",
    "C104_sheets_loaded",
    "C104_xlsb_refuted"
   ],
   "note": "Proved for .xlsx, and for .xlsb when null_shared does not change meanwhile (shared not asked for, or no null texts). Exact for .xlsb otherwise: the same iteration with a null_shared that grows. Refuted for .xlsb when shared is asked for while an iteration runs. The converse direction is proved (C104_object_xlsx, C104_object_xlsb)."
  },
  {
   "property": "C105",
   "status": "partial",
   "theorems": [
    "C105_xlsb_rows",
    "C105_xlsb_cells_rows_partial",
    "C105_xlsx_sheets",
    "C105_xlsx_styles",
    "C105_xlsx_shared",
    "C105_xlsx_iteration",
    "C105_xlsx",
    "C105_xlsb_sheets",
    "C105_xlsb_styles",
    "C105_xlsb_shared_partial",
    "C105_xlsb",
    "C105_xlsb_cells_partial"
   ],
   "note": "Proved as equivalences for sheets and styles of both formats and for shared strings of .xlsx; shared strings of .xlsb up to 2^32 strings. Cell records of .xlsb: C105_xlsb_rows is an equivalence for any skip_rows/take_rows when empty rows are kept; C105_xlsb_cells_rows_partial gives the reading direction in both modes (when empty rows are dropped and a limit is set, a few more records are looked at than it speaks of). An ill-formed .xlsx sheet part is not noticed (refuted under C93)."
  },
  {
   "property": "C106",
   "status": "partial",
   "theorems": [
    "C106_rows_partial",
    "C106_data_partial",
    "C106_refuted",
    "C106_height_refuted"
   ],
   "note": "Proved for sheets of the same columns and height whose cells hold what their type says, with rows left to read and, if dates are recognised in text, no part read that mixes dates with shared strings. Refuted in general: in .xlsx a text in a skipped row turns the numbers below it into text (C106_refuted), a cell in a skipped row can decide how many rows are read (C106_height_refuted)."
  },
  {
   "property": "C107",
   "status": "partial",
   "theorems": [
    "C107_column_partial",
    "C107_refuted",
    "C107_filters_partial"
   ],
   "note": "Without filters and lookup for all modes (C107_column_partial); with lookup, row filters and types of single columns unless a part that is read mixes dates with shared strings in a mode that recognises dates (C107_filters_partial), given that both reads begin at the same row. The number of rows does depend on the other columns (C107_refuted)."
  },
  {
   "property": "C108",
   "status": "partial",
   "theorems": [
    "C108_test",
    "C108_same_partial",
    "C108_refuted",
    "C108_encoder_partial",
    "C108_encoder_refuted"
   ],
   "note": "Exact: the compiled test passes iff every number passes numpy's or has a scaled form too large for a double; for those (C108_refuted) a column of whole numbers is narrowed and the number becomes an out-of-range conversion, and the encoder writes an integer form. Precision above 22 and fastmath are not covered."
  },
  {
   "property": "C109",
   "status": "partial",
   "theorems": [
    "C109_xlsb",
    "C109_xlsb_rows",
    "C109_xlsb_prefix",
    "C109_xlsx",
    "C109_xlsx_refuted",
    "C109_xlsb_file",
    "C109_xlsx_file"
   ],
   "note": "Proved for .xlsb (also by counting row marks, and a prefix of the records always gives a prefix of the deliveries) and for .xlsx up to the known shift of the limit by two for each row before the first cell; with such rows it is refuted. Events are what expat gives; that it gives the same events for the same beginning of a text is not modelled. C109_xlsb_file and C109_xlsx_file carry it to the tables of whole files."
  },
  {
   "property": "C110",
   "status": "proved",
   "theorems": [
    "C110_which",
    "C110_order",
    "C110_chosen",
    "C110_repeated"
   ],
   "note": "For null slots that read as 0, as C49_exact; usable values as in C49 (midnight 1 January 1970 is none)."
  },
  {
   "property": "C111",
   "status": "proved",
   "theorems": [
    "C111_integer",
    "C111_no_integer",
    "C111_written",
    "C111_styles",
    "C111_shared",
    "C111_strip"
   ],
   "note": "For ASCII texts: Unicode digits and the limit of 4300 digits are outside the model of int (PyText.v). Indices outside 0..2^32-1 are numpy's and not modelled (Undefined)."
  },
  {
   "property": "C112",
   "status": "partial",
   "theorems": [
    "C112_exact",
    "C112_refuted",
    "C112_again"
   ],
   "note": "False: the namespace of the relationship elements is written in front of every type (C112_exact), never that of a workbook's parts (C112_refuted); a type survives reading and writing exactly if it was in that namespace (C112_again)."
  },
  {
   "property": "C113",
   "status": "partial",
   "theorems": [
    "C113_xlsx_exact",
    "C113_xlsb_exact",
    "C113_refuted"
   ],
   "note": "False as stated: the reader puts xl/ in front. C113_xlsx_exact and C113_xlsb_exact: right exactly for non-empty relative paths without . and .. segments; C113_refuted for all absolute targets and all with dot segments. Targets with a scheme, authority, query or fragment are not considered."
  }
 ]
}