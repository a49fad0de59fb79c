{"id": "C01", "title": "BIFF12 records survive serialise/scan", "statement": "Writing any sequence of records with record.dump/as_binary back to back and scanning the resulting bytes with scan_biff yields exactly the same records (same ids, same payload bytes) in the same order, and nothing else.", "quantifier": "every finite list of records whose id is encodable (id < 0x80, or id < 0x10000 with bit 0x80 set) and whose payload is shorter than 2^29 bytes", "why_tests_cant": "the size prefix switches between 1, 2, 3 and 4 bytes at boundaries and payload bytes may look like headers; tests sample two or three sizes", "anchors": ["rxls/biff.py: record.as_binary, record.dump, scan_biff"]}
{"id": "C02", "title": "Filtered scan is the filtered stream", "statement": "scan_biff(io, only) with a non-empty id set yields exactly the sub-sequence of records of the stream whose id is in the set, in order, with intact payloads; skipping an unwanted record never desynchronises the stream.", "quantifier": "every record list and every non-empty set of wanted ids", "why_tests_cant": "desynchronisation depends on the sizes and contents of every skipped payload", "anchors": ["rxls/biff.py: scan_biff"]}
{"id": "C03", "title": "A truncated BIFF12 stream yields only complete records", "statement": "If the byte stream of a record sequence is cut at any byte, scan_biff terminates without raising and yields exactly the wanted records that lie completely before the cut; it never yields a shortened, merged or invented record.", "quantifier": "every record list, every cut position, every optional id filter", "why_tests_cant": "every crash/cut point of every file is a distinct case", "anchors": ["rxls/biff.py: scan_biff (non-numba implementation)"]}
{"id": "C04", "title": "Size prefix is the BIFF12 7-bit varint", "statement": "dump_sz(i) is the little-endian base-128 encoding of i with a continuation bit, its length is the least number of 7-bit groups (capped at 4), reading it back gives i and consumes exactly the prefix whatever follows, and it raises exactly when i is negative or i >= 2^29.", "quantifier": "every integer i and every following byte sequence", "why_tests_cant": "boundaries at 2^7, 2^14, 2^21, 2^28, 2^29 and all continuations", "anchors": ["rxls/biff.py: dump_sz, scan_biff"]}
{"id": "C05", "title": "Both scan_biff implementations agree", "statement": "The block-buffered (numba) scanner and the streaming scanner yield the same records for the same file and filter, independent of where the read-block boundaries fall.", "quantifier": "every record stream, every block size, every filter", "why_tests_cant": "block boundaries can fall inside any header or payload", "anchors": ["rxls/biff.py: scan_chunk, scan_biff (NUMBA_AVAILABLE branch)"]}
{"id": "C06", "title": "Every named BIFF12 record type round-trips by name", "statement": "For every name in BIFF_ENUM, record.from_data(name, *parts) has the concatenated parts as payload, its rec_name is that name again, it serialises without error and scan_biff gives it back.", "quantifier": "all 845 names, all payload part lists (below the size limit)", "why_tests_cant": "needs all names and all payloads", "anchors": ["rxls/biff_enum.py: BIFF_ENUM, BIFF_ENUM_REVERSED", "rxls/biff.py: record.from_data, record.rec_name"]}
{"id": "C07", "title": "Displayed record number is the logical BIFF12 record type", "statement": "The decimal number shown by repr(record) is the logical record type n of [MS-XLSB] whenever the record id is the on-disk two-byte (or one-byte) form of n.", "quantifier": "every logical record type 0 <= n < 2^14", "why_tests_cant": "bit arithmetic over the whole id range", "anchors": ["rxls/biff.py: record.__repr__"]}
{"id": "C08", "title": "XLWideString loading is exact", "statement": "xstr.load on a stream holding a wide string as Excel writes it (4-byte little-endian count of UTF-16 units followed by UTF-16LE, no byte-order mark) returns exactly that string and leaves the stream positioned right after it; the 0xFFFFFFFF marker loads as the null string; from_binary agrees with load; nothing else is accepted: fewer than four bytes are a StructError, everything that is no UTF-16 text a UnicodeError (a count that reaches beyond the data is tolerated).", "quantifier": "every Unicode string not starting with U+FEFF/U+FFFE, followed by any bytes", "why_tests_cant": "surrogate pairs, byte-order-mark lookalikes and following data cannot be enumerated", "anchors": ["rxls/biff_recs.py: xstr.load, xstr.from_binary, xstr.value"]}
{"id": "C09", "title": "xstr.dump then xstr.load is the identity", "statement": "Dumping any xstr and loading it back gives an equal xstr. What dump writes is exactly the character count, a byte-order mark and the UTF-16LE units; it raises exactly for surrogate characters (UnicodeError) or a count beyond 32 bits (StructError).", "quantifier": "every xstr value (null, empty, any Unicode string)", "why_tests_cant": "ranges over all strings", "anchors": ["rxls/biff_recs.py: xstr.dump, xstr.load"]}
{"id": "C10", "title": "Sheet directory record decodes exactly", "statement": "BrtBundleSh.loadr of a record holding state, tab id, relationship id and name (as Excel writes them) returns exactly these four fields.", "quantifier": "all 32-bit state/tab ids and all relationship-id/name strings", "why_tests_cant": "variable-length fields back to back", "anchors": ["rxls/biff_recs.py: BrtBundleSh.loadr"]}
{"id": "C11", "title": "XLSB shared string k is the k-th string item", "statement": "In an .xlsb workbook the shared string table has exactly one entry per string-item record, entry k is exactly the text of the k-th item, regardless of other records between items; entries matching null_values are remembered as null by exactly their index.", "quantifier": "every shared-strings part (any list of items and other records)", "why_tests_cant": "alignment must hold for every table; one slip shifts every string cell of the file", "anchors": ["rxls/reader/xlsb.py: XlsbWorkbook.shared"]}
{"id": "C12", "title": "XLSB cells reach the caller with the right position, kind and payload", "statement": "For a sheet part containing any rows of supported cell records, iter_worksheet yields one cell per non-null, non-skipped cell record, in file order, with that record's column, its row index, its declared kind (RK / boolean / real / inline string / shared string; temporal exactly when its style is temporal) and its value bytes or decoded text.", "quantifier": "every sequence of row headers and cell records", "why_tests_cant": "unbounded sheets, all cell kinds mixed", "anchors": ["rxls/reader/xlsb.py: XlsbWorkbook.iter_worksheet"]}
{"id": "C13", "title": "XLSB error strings are null", "statement": "A string cell whose text is one of the Excel error strings (#N/A, #REF!, ...) is treated as null when reading .xlsb, as it is for .xlsx.", "quantifier": "every sheet and every error string", "why_tests_cant": "must hold for each cell of each file", "anchors": ["rxls/reader/xlsb.py: ERROR_STRINGS, XlsbWorkbook.__init__, iter_worksheet"]}
{"id": "C14", "title": "XLSB date styles are recognised exactly", "statement": "In .xlsb a cell format is temporal exactly when its number format is one of the built-in date/time formats or a custom format whose first section contains an unescaped date/time letter outside quotes and non-duration brackets.", "quantifier": "every styles part", "why_tests_cant": "format ids range over 16 bits and format codes over all strings", "anchors": ["rxls/reader/xlsb.py: XlsbWorkbook.styles"]}
{"id": "C15", "title": "XLSB row numbering", "statement": "With skip_rows=0 the row index of a cell is the number of preceding row records when empty rows are kept (take_rows_non_empty=True), and the number of preceding non-empty row records otherwise.", "quantifier": "every sequence of rows, empty or not", "why_tests_cant": "state carried across an unbounded number of rows", "anchors": ["rxls/reader/xlsb.py: XlsbWorkbook.iter_worksheet"]}
{"id": "C16", "title": "skip_rows skips exactly the first N rows", "statement": "read(..., skip_rows=N) (and iter_worksheet) delivers exactly the cells of the rows after the first N rows of the sheet, renumbered from 0, for .xlsx and .xlsb alike.", "quantifier": "every sheet, every N >= 0, both values of take_rows_non_empty", "why_tests_cant": "interaction of counters over an unbounded number of rows", "anchors": ["rxls/reader/xlsb.py: iter_worksheet", "rxls/reader/xlsx.py: iter_worksheet.worker"]}
{"id": "C17", "title": "take_rows stops after the given row", "statement": "With skip_rows=0 and take_rows=N>0, exactly the cells whose row index is at most N are delivered (N is the 0-based last row); with take_rows=0 all rows are delivered.", "quantifier": "every sheet and every N", "why_tests_cant": "off-by-one at an arbitrary row of an arbitrary sheet", "anchors": ["rxls/reader/xlsb.py: iter_worksheet", "rxls/reader/xlsx.py: iter_worksheet.worker"]}
{"id": "C18", "title": "skip_cols removes exactly the listed columns", "statement": "With empty rows kept and no row limits, reading with skip_cols=S delivers exactly the cells delivered without skip_cols whose column is not in S, unchanged.", "quantifier": "every sheet and every column set", "why_tests_cant": "interaction with row bookkeeping", "anchors": ["rxls/reader/xlsb.py: iter_worksheet", "rxls/reader/xlsx.py: iter_worksheet.worker"]}
{"id": "C19", "title": "row_callback is called once per row plus once", "statement": "Reading a sheet completely with skip_rows=0 and take_rows=0 calls row_callback exactly (number of row records + 1) times, for .xlsx and .xlsb.", "quantifier": "every sheet", "why_tests_cant": "counts over unbounded sheets", "anchors": ["rxls/reader/xlsb.py: iter_worksheet", "rxls/reader/xlsx.py: iter_worksheet.worker"]}
{"id": "C20", "title": "A1 column letters decode to the 0-based index", "statement": "For every column index n, the reference formed by the Excel letters of n followed by any row digits decodes to n; distinct letter groups decode to distinct columns.", "quantifier": "every n >= 0 and every digit suffix", "why_tests_cant": "bijective base-26 has carries at every length", "anchors": ["rxls/reader/xlsx.py: col_idx"]}
{"id": "C21", "title": "XLSX shared string table is aligned", "statement": "The .xlsx shared string table has exactly one entry per <si> element, in document order, whatever the nesting, formatting runs, whitespace or null values inside; the recorded null indices are exactly the indices of the null entries.", "quantifier": "every event stream of a sharedStrings part", "why_tests_cant": "one slip shifts every string cell of the file", "anchors": ["rxls/reader/xlsx.py: XlsxWorkbook.shared"]}
{"id": "C22", "title": "XLSX shared string text is complete", "statement": "The entry of an <si> element is the full text of the element (all runs), independent of how the XML parser splits character data.", "quantifier": "every <si> content and every split of its character data", "why_tests_cant": "the parser may split text at any point", "anchors": ["rxls/reader/xlsx.py: XlsxWorkbook.shared"]}
{"id": "C23", "title": "XLSX cells reach the caller with the right position, kind and text", "statement": "For a sheet whose rows contain any cells, iter_worksheet yields one cell per value element with non-blank, non-null text, in document order, with the column of its reference, its row index, its kind (shared string / style kind / plain string) and the stripped text.", "quantifier": "every worksheet event stream of well-nested rows and cells", "why_tests_cant": "unbounded documents", "anchors": ["rxls/reader/xlsx.py: iter_worksheet.worker (cell_sh, cell_th, cell_eh)"]}
{"id": "C24", "title": "XLSX row numbering", "statement": "With skip_rows=0 the row index of a cell is the number of preceding <row> elements when empty rows are kept, and the number of preceding non-empty rows otherwise (as for .xlsb).", "quantifier": "every sequence of rows, empty or not", "why_tests_cant": "state carried across rows", "anchors": ["rxls/reader/xlsx.py: iter_worksheet.worker (cell_eh)"]}
{"id": "C25", "title": "The background parser thread cannot change the result", "statement": "Whatever the interleaving of the parser thread and the consuming thread, the consumer receives exactly the cells the parser produced, in order, each once, and then stops; it never blocks forever once the parser has finished.", "quantifier": "every schedule of the two threads and every cell list", "why_tests_cant": "schedules are unbounded", "anchors": ["rxls/reader/xlsx.py: iter_worksheet (Thread, SimpleQueue, sentinel)"]}
{"id": "C26", "title": "A parse failure in the middle of a sheet is reported", "statement": "If the worksheet XML fails to parse at some point, read() raises instead of returning a table made of the cells before that point.", "quantifier": "every worksheet, every failure point, every schedule", "why_tests_cant": "every crash point and schedule", "anchors": ["rxls/reader/xlsx.py: iter_worksheet.worker (try/finally sentinel)"]}
{"id": "C27", "title": "null_values removes exactly the cells with those texts", "statement": "A cell is dropped on reading exactly when its text (resolved through the shared strings, if shared) is an error string or matches null_values; no other cell is dropped.", "quantifier": "every sheet, every null_values list or predicate, .xlsx and .xlsb", "why_tests_cant": "ranges over all texts, indices and predicates", "anchors": ["rxls/reader/xlsx.py: XlsxWorkbook.__init__, shared, worker.cell_th", "rxls/reader/xlsb.py: XlsbWorkbook.__init__, shared, iter_worksheet"]}
{"id": "C28", "title": "Number format classification", "statement": "A custom number format is classified temporal exactly when, reading it as a sequence of quoted literals, bracket sections, backslash escapes and plain characters, it contains a date/time letter as a plain character or a duration bracket.", "quantifier": "every format built from such tokens", "why_tests_cant": "format codes are arbitrary strings; regex interplay between quotes, brackets and escapes", "anchors": ["rxls/reader/xlsx.py: re_dt, re_xt, styles", "rxls/reader/xlsb.py: re_dt, re_xt, styles"]}
{"id": "C29", "title": "XLSX style table", "statement": "In .xlsx the k-th cell format is numeric when its number format is a built-in numeric one or a custom code that is '0' or contains '.00'; otherwise temporal when built-in temporal or its custom code is temporal; otherwise untyped; numeric wins when both apply.", "quantifier": "every styles part", "why_tests_cant": "ranges over all style tables", "anchors": ["rxls/reader/xlsx.py: XlsxWorkbook.styles"]}
{"id": "C30", "title": "Sheet selection by index and by name agree", "statement": "Selecting a sheet by 0-based index i gives the same part as selecting by the name of the i-th listed sheet; an index outside 0..n-1 raises IndexError and an unknown name raises KeyError.", "quantifier": "every workbook with distinct sheet names, every index, every name", "why_tests_cant": "ranges over all sheet lists", "anchors": ["rxls/reader/xlsx.py: sheets, iter_worksheet", "rxls/reader/xlsb.py: sheets, iter_worksheet"]}
{"id": "C31", "title": "A column is the sequence of its cells at their rows", "statement": "After adding any sequence of cells with increasing rows to an xl_series, the column content read back has, at every row, exactly the value of the cell added for that row and null at every other row up to the last one.", "quantifier": "every sequence of cells of every kind and gap pattern", "why_tests_cant": "chunk boundaries depend on types and gaps of an unbounded history", "anchors": ["rxls/series.py: xl_series.add, __pull_chunk, to_arrow", "rxls/chunk/chunk.py: chunk.concatenate"]}
{"id": "C32", "title": "First cell per row wins", "statement": "Adding a cell whose row is not after the last added row changes nothing observable.", "quantifier": "every history of add calls", "why_tests_cant": "ranges over histories", "anchors": ["rxls/series.py: xl_series.add"]}
{"id": "C33", "title": "A column window is exact", "statement": "to_arrow(offset, length) / to_utf8 with length>0 returns exactly `length` elements, element i being the value at row offset+i of the column (null beyond its end).", "quantifier": "every column, every offset >= 0 and length > 0", "why_tests_cant": "windows may cut any chunk anywhere", "anchors": ["rxls/chunk/chunk.py: chunk.take_over, chunk.take", "rxls/series.py: to_arrow, to_utf8"]}
{"id": "C34", "title": "A column under a row mask is exact", "statement": "to_arrow(offset, length, idx=mask) returns exactly the elements of the window of len(mask) rows at offset whose mask bit is set, in order.", "quantifier": "every column, offset and mask with at least one set bit", "why_tests_cant": "masks cut chunks at arbitrary places", "anchors": ["rxls/chunk/chunk.py: chunk.take_over"]}
{"id": "C35", "title": "Reading a column does not change it", "statement": "The result of to_arrow/to_utf8 does not depend on which other to_arrow/to_utf8 calls were made before (the docstring: 'Original data still remains untouched').", "quantifier": "every column and every history of calls", "why_tests_cant": "in-place preparation of shared chunk objects makes results history-dependent in principle", "anchors": ["rxls/series.py: to_utf8, to_arrow", "rxls/chunk/chunk.py: prepare, concatenate"]}
{"id": "C36", "title": "Slicing a null run behaves like slicing a list", "statement": "Taking a slice of a null chunk of n nulls leaves as many nulls as the same slice of a list of n elements has elements.", "quantifier": "every n, start, stop, step", "why_tests_cant": "negative and missing bounds", "anchors": ["rxls/chunk/chunk.py: null_slice, chunk.take"]}
{"id": "C37", "title": "Column type decision table", "statement": "The type of a concatenated column is determined by which kinds of chunks are in the selected window and the conflict_resolve mode exactly as documented (temporal / int64-or-float64 / utf8; utf8 on unresolved conflict; utf8 when all null).", "quantifier": "every list of chunks, every window, all four modes", "why_tests_cant": "all combinations of chunk kinds and conversion outcomes", "anchors": ["rxls/chunk/chunk.py: chunk.concatenate"]}
{"id": "C38", "title": "Conflict-free columns keep their values", "statement": "If all non-null cells of the window are of one kind, the result contains exactly these values (strings resolved through the shared table; numbers as float64, or as int64 when narrowing applies; dates as timestamps), with null elsewhere.", "quantifier": "every column and window", "why_tests_cant": "ranges over all values", "anchors": ["rxls/chunk/chunk.py: prepare, arrow, concatenate"]}
{"id": "C39", "title": "Integer narrowing is lossless up to float_precision", "statement": "A float column becomes int64 only if every value differs from the delivered integer by less than 10^-float_precision, and every delivered integer is the truncation of the value.", "quantifier": "every float64 column and every precision", "why_tests_cant": "ranges over all doubles", "anchors": ["rxls/chunk/casts.py: f8_is_i8", "rxls/chunk/chunk.py: concatenate"]}
{"id": "C40", "title": "Unresolvable conflicts fall back to the original text", "statement": "When a conflict cannot be resolved the whole column becomes utf8 in which numbers are rendered as numbers, dates as dates and strings verbatim.", "quantifier": "every mixed column, all modes", "why_tests_cant": "depends on which chunk fails after which were already converted", "anchors": ["rxls/chunk/chunk.py: concatenate"]}
{"id": "C41", "title": "Temporal conflict resolution works on shared strings", "statement": "With conflict_resolve='temporal' or 'all', a column holding dates and shared-string cells either converts the strings to timestamps or falls back to utf8; it does not raise.", "quantifier": "every such column", "why_tests_cant": "depends on preparation state of chunk objects", "anchors": ["rxls/chunk/chunk.py: as_temporal, concatenate"]}
{"id": "C42", "title": "Shared string lookups stay in bounds", "statement": "Preparing a shared-string chunk reads only existing entries of the shared table.", "quantifier": "every sheet (index list) and every table", "why_tests_cant": "indices come from the file; bounds checks are disabled", "anchors": ["rxls/chunk/arrow.py: take", "rxls/chunk/chunk.py: prepare"]}
{"id": "C43", "title": "RK numbers decode per [MS-XLSB]", "statement": "rk_to_f8 maps a 32-bit RK value to the signed 30-bit integer (integer flag) or the double whose top 30 bits are the value's (float flag), divided by 100 (correctly rounded) when the x100 flag is set.", "quantifier": "all 2^32 RK values", "why_tests_cant": "2^32 inputs, floating point", "anchors": ["rxls/chunk/casts.py: rk_to_f8"]}
{"id": "C44", "title": "Integer RK round trip", "statement": "rk_to_f8(i8_to_rk(n)) is exactly n for every integer n that fits in 30 signed bits.", "quantifier": "all n with -2^29 <= n < 2^29", "why_tests_cant": "2^30 inputs", "anchors": ["rxls/chunk/casts.py: i8_to_rk, rk_to_f8"]}
{"id": "C45", "title": "Float to RK and back", "statement": "rk_to_f8(f8_to_rk(x)) equals x for every x exactly representable as an RK integer.", "quantifier": "all integers x in RK range", "why_tests_cant": "range of inputs, sign-dependent truncation", "anchors": ["rxls/chunk/casts.py: f8_to_rk, rk_to_f8"]}
{"id": "C46", "title": "Whole-day serial dates convert to the right calendar day", "statement": "f8_to_ms_win of a whole-day serial number is midnight UTC of the calendar date Excel shows for that serial (1900 date system including the fictitious 29 Feb 1900).", "quantifier": "all serials 1 .. 2958465 (1900-01-01 .. 9999-12-31), and 0", "why_tests_cant": "three million dates and leap-year rules", "anchors": ["rxls/chunk/casts.py: f8_to_ms_win"]}
{"id": "C47", "title": "Date-times convert within a millisecond", "statement": "For a date-time serial x the resulting timestamp differs from the exact instant by less than one millisecond plus floating-point slack, and whole seconds are delivered exactly.", "quantifier": "every double in the Excel date range", "why_tests_cant": "all doubles", "anchors": ["rxls/chunk/casts.py: f8_to_ms_win"]}
{"id": "C48", "title": "Timestamp to serial and back", "statement": "f8_to_ms_win(ms_to_f8_win(t)) = t for whole-day timestamps.", "quantifier": "all whole days in the Excel range", "why_tests_cant": "range of inputs, branch on epoch", "anchors": ["rxls/chunk/casts.py: ms_to_f8_win, f8_to_ms_win"]}
{"id": "C49", "title": "Multi-format parsing takes the first matching format", "statement": "mf_strptime gives, for each string, the timestamp of the first format (in order) that parses it, and raises exactly when some string is parsed by no format.", "quantifier": "all string arrays, all format lists, any parser", "why_tests_cant": "early exit over arrays, zero as a sentinel", "anchors": ["rxls/chunk/casts.py: mf_strptime, _strptime"]}
{"id": "C50", "title": "Date/time part detection", "statement": "dt_has_t is true exactly when some timestamp is not at midnight; dt_has_d is true exactly when some timestamp is not within the epoch day.", "quantifier": "all timestamp arrays", "why_tests_cant": "ranges over arrays", "anchors": ["rxls/chunk/casts.py: dt_has_t, dt_has_d"]}
{"id": "C51", "title": "Arrow bitmap unpacking", "statement": "_unsafe_bool_arrow_to_numpy returns the booleans of the arrow array in order.", "quantifier": "all boolean arrays", "why_tests_cant": "all lengths and contents", "anchors": ["rxls/chunk/casts.py: _unsafe_bool_arrow_to_numpy"]}
{"id": "C52", "title": "The resulting table is rectangular and complete in columns", "statement": "read() returns one column per sheet column that has at least one cell, in ascending column order, all of the same length, with exactly one name per column.", "quantifier": "every workbook and all options for which read() returns", "why_tests_cant": "all option combinations and sheets", "anchors": ["rxls/reader/common.py: read"]}
{"id": "C53", "title": "No data row is lost", "statement": "With header=H rows (found at row r), the table has one row for every sheet row after the header up to the last row that has any cell.", "quantifier": "every sheet", "why_tests_cant": "depends on where each column starts and ends", "anchors": ["rxls/reader/common.py: read (max_len)", "rxls/series.py: __len__"]}
{"id": "C54", "title": "Multi-row headers merge as documented", "statement": "For a header of height > 1, each column's name is the ', '-join of its non-empty header cells after filling its topmost empty cells from the nearest non-empty column to the left; columns with no header cell are 'Unnamed'.", "quantifier": "every header block", "why_tests_cant": "carry-over between columns", "anchors": ["rxls/reader/common.py: __make_header"]}
{"id": "C55", "title": "Column names are unique", "statement": "Names taken from the header row are made unique.", "quantifier": "every header block", "why_tests_cant": "collisions of suffixed names", "anchors": ["rxls/reader/common.py: __make_header"]}
{"id": "C56", "title": "Header lookup finds a row containing the pattern", "statement": "With lookup_head=pattern, the header row is a row within the first lookup_size rows in which some cell matches, and an error is raised exactly when there is none; with an integer, it is the first non-empty row of that column.", "quantifier": "every sheet, every pattern predicate", "why_tests_cant": "ranges over sheets and matchers", "anchors": ["rxls/reader/common.py: __find_header"]}
{"id": "C57", "title": "Header lookup finds the first such row", "statement": "The header row found by lookup_head is the topmost row with a matching cell.", "quantifier": "every sheet, every pattern predicate", "why_tests_cant": "depends on column iteration order", "anchors": ["rxls/reader/common.py: __find_header"]}
{"id": "C58", "title": "Row filters keep exactly the rows they describe", "statement": "With row_filters selecting columns F and strategy or/and (or a list of operators applied left to right), the table has exactly the rows whose filter columns are non-null for some / every / the operator combination of F, in order, across all columns.", "quantifier": "every sheet, every selected column set, every strategy", "why_tests_cant": "all combinations of nulls", "anchors": ["rxls/reader/common.py: read (row_filters)"]}
{"id": "C59", "title": "A header-only sheet reads as an empty table", "statement": "read(header=N) of a sheet that contains exactly the N header rows returns a table with the header's columns and zero rows.", "quantifier": "every header-only sheet", "why_tests_cant": "edge of every window computation", "anchors": ["rxls/reader/common.py: read", "rxls/chunk/chunk.py: take_over, concatenate"]}
{"id": "C60", "title": "dtypes casts exactly the requested columns", "statement": "dtypes as a type casts every column, as a dict exactly the named columns, as a sequence column by column; a sequence of the wrong length or an impossible cast raises ValueError; columns already of the type are untouched; lengths and names never change.", "quantifier": "every table, every dtypes argument, any cast function", "why_tests_cant": "ranges over tables and cast outcomes", "anchors": ["rxls/reader/common.py: read (dtypes)"]}
{"id": "C61", "title": "XLSX and XLSB deliver the same cells", "statement": "The same logical sheet saved as .xlsx and .xlsb is delivered with the same cell positions.", "quantifier": "every logical sheet and every row option", "why_tests_cant": "two independent row state machines", "anchors": ["rxls/reader/xlsx.py", "rxls/reader/xlsb.py"]}
{"id": "C62", "title": "Relationship round trip", "statement": "Relationship.dump_xml then scan_xml gives back Id, Type and Target.", "quantifier": "all relationships", "why_tests_cant": "all strings, including XML-special characters", "anchors": ["rxls/rels.py: Relationship"]}
{"id": "C63", "title": "Sheet parts are resolved as package paths", "statement": "The part name a sheet is read from is its relationship target resolved against xl/: a relative target is appended to xl/, a target starting with / is taken from the package root.", "quantifier": "every workbook and relationship target (both formats)", "why_tests_cant": "all targets; writers that use absolute targets are rare in test data", "anchors": ["rxls/reader/xlsx.py: sheets", "rxls/reader/xlsb.py: sheets"]}
{"id": "C64", "title": "A sheet that is not a worksheet does not hide the others", "statement": "A workbook that also holds a chart sheet, dialog sheet or macro sheet still lists its worksheets.", "quantifier": "every workbook", "why_tests_cant": "all sheet lists with any mix of kinds", "anchors": ["rxls/reader/xlsx.py: sheets", "rxls/reader/xlsb.py: sheets"]}
{"id": "C65", "title": "Timestamp to Excel serial", "statement": "ms_to_f8_win of a whole-day timestamp is the serial number Excel uses for that calendar date.", "quantifier": "all whole days from 1900-03-01 to 9999-12-31", "why_tests_cant": "three million dates, branch on the epoch", "anchors": ["rxls/chunk/casts.py: ms_to_f8_win"]}
{"id": "C66", "title": "Blank strings stay null when a column is made numeric", "statement": "When conflict_resolve turns the strings of a mixed column into numbers, a string cell that is null (an empty shared string) stays null in the result.", "quantifier": "every column, window and mode", "why_tests_cant": "the value comes from a buffer whose content is unspecified at null positions", "anchors": ["rxls/chunk/chunk.py: as_numeric, concatenate", "rxls/chunk/arrow.py: cast"]}
{"id": "C67", "title": "Results do not depend on how cells are grouped into chunks", "statement": "Two columns holding the same cells in the same rows, split into chunks differently, give the same array for every window and mode.", "quantifier": "every pair of chunk lists with the same cells, every request and mode", "why_tests_cant": "ranges over all splits", "anchors": ["rxls/chunk/chunk.py: concatenate", "rxls/series.py: xl_series.add"]}
{"id": "C68", "title": "skip_rows_after_header only acts under a header", "statement": "skip_rows_after_header is ignored when header is not an integer > 0 (comment in the signature): with header=0 or a list of names every row of the sheet is in the table.", "quantifier": "every sheet, every skip_rows_after_header, header=0 or a list", "why_tests_cant": "ranges over all sheets and options", "anchors": ["rxls/reader/common.py: read (g_offset, g_length)"]}
{"id": "C69", "title": "A workbook without shared strings can be read", "statement": "The shared strings part of a workbook is optional; a workbook without that part whose cells hold only numbers, booleans and inline texts is read like any other.", "quantifier": "all archives, both formats, all options", "why_tests_cant": "A test suite only has files written by Excel, which always writes the part when any text is present; the failing files come from other writers.", "anchors": ["rxls/reader/xlsx.py: XlsxWorkbook.shared", "rxls/reader/xlsb.py: XlsbWorkbook.shared", "rxls/reader/common.py: read (lines 159-176)"]}
{"id": "C70", "title": "Missing workbooks and sheets are reported", "statement": "read raises AssertionError when the archive has no workbook member, IndexError for a sheet index outside 0..n-1, KeyError for an unknown sheet name, ValueError for negative row counts, in both formats and for every choice of the other options.", "quantifier": "all archives with a readable sheet list, all options", "why_tests_cant": "Tests try one bad index; the claim is about every index, name and combination of other options.", "anchors": ["rxls/reader/common.py: read (lines 139-152)", "rxls/reader/xlsb.py: iter_worksheet (lines 180-210)", "rxls/reader/xlsx.py: iter_worksheet (lines 255-287)"]}
{"id": "C71", "title": "From the archive to the table", "statement": "For a well-formed file read returns a table with one column per non-empty sheet column in order, titled by the header rows, holding for each row the value the sheet shows at that place (number, timestamp, text, shared text) in the natural type of the column.", "quantifier": "all archives, sheets, styles, shared strings, both formats", "why_tests_cant": "The composition of parsing, style lookup, chunking, typing and header handling has too many combinations; each test fixes one file.", "anchors": ["rxls/reader/common.py: read", "rxls/reader/xlsb.py: XlsbWorkbook", "rxls/reader/xlsx.py: XlsxWorkbook"]}
{"id": "C72", "title": "Rows are where the file says they are", "statement": "The row of the table in which a cell appears is determined by the row number the file declares for it (row header record, cell reference); undeclared rows in between are empty rows of the table when take_rows_non_empty is set.", "quantifier": "all sheets with increasing declared row numbers, both formats", "why_tests_cant": "Needs files with gaps between row records, which writers produce whenever a row is completely empty; a test would need to check absolute positions.", "anchors": ["rxls/reader/xlsb.py: iter_worksheet (lines 228-240)", "rxls/reader/xlsx.py: iter_worksheet.worker"]}
{"id": "C73", "title": "utf8_type_infers converts text columns of numbers", "statement": "With utf8_type_infers (default True) a resulting text column all of whose non-null cells are numerals becomes numeric.", "quantifier": "all sheets and options", "why_tests_cant": "A test with the option on and a numeric-looking text column shows the failure for one file only; the claim is that the option never has any effect.", "anchors": ["rxls/reader/common.py:131", "README.md:169"]}
{"id": "C74", "title": "A list of row filters means AND by default", "statement": "As documented, row_filters=[a, b] without a strategy keeps exactly the rows that are non-null in both columns.", "quantifier": "all sheets, all pairs of columns", "why_tests_cant": "Tests rarely have rows filled in exactly one of two filter columns.", "anchors": ["rxls/reader/common.py:118-121", "rxls/reader/common.py:254-263", "README.md"]}
{"id": "C75", "title": "Columns without header are named Unnamed: i", "statement": "As documented, header=0 names the columns Unnamed: 0 ... Unnamed: N.", "quantifier": "all sheets", "why_tests_cant": "A universal statement about all column counts.", "anchors": ["rxls/reader/common.py:207", "README.md"]}
{"id": "C76", "title": "A list of names must match the columns", "statement": "header=[...] names the columns exactly so, and raises ValueError when the number of names is not the number of non-empty columns.", "quantifier": "all sheets, all lists of names", "why_tests_cant": "Tests check one mismatch; the claim covers every count, including empty lists and any skipped columns.", "anchors": ["rxls/reader/common.py:199-205", "README.md"]}
{"id": "C77", "title": "The order of cells of different columns does not matter", "statement": "Reading two sheets whose columns hold the same cells in the same order gives the same table, however the cells of different columns are interleaved; for a header lookup by text the columns must also first appear in the same order.", "quantifier": "every pair of cell sequences, all options, every result", "why_tests_cant": "the number of interleavings is exponential; columns are processed lazily and in place", "anchors": ["rxls/reader/common.py: read", "rxls/series.py: xl_series.add"]}
{"id": "C78", "title": "Only the parts a sheet needs are read", "statement": "The result of read (table or error) depends only on the relationships, workbook, styles and shared-strings parts and the part of the selected sheet: adding, removing, reordering or damaging any other member changes nothing.", "quantifier": "every two archives agreeing on these members whose workbook part is well formed, all options", "why_tests_cant": "arbitrary other members, including damaged ones", "anchors": ["rxls/reader/common.py: read", "rxls/reader/xlsb.py", "rxls/reader/xlsx.py"]}
{"id": "C79", "title": "Every number with an RK form survives f8_to_rk", "statement": "rk_to_f8(f8_to_rk(x)) = x for every double x that some RK word stands for.", "quantifier": "every double some RK word decodes to", "why_tests_cant": "2^32 RK words; rounding to two decimals and truncation interact per value", "anchors": ["rxls/chunk/casts.py: f8_to_rk, rk_to_f8"]}
{"id": "C80", "title": "The compiled RK encoder agrees with the numpy one", "statement": "The numba/TBB body of f8_to_rk gives the same word as the numpy body for every double.", "quantifier": "every finite double", "why_tests_cant": "needs the optional dependency; differs only outside the int32 range", "anchors": ["rxls/chunk/casts.py: f8_to_rk, __gu_f8_to_rk"]}
{"id": "C81", "title": "A smaller row limit only cuts off the end", "statement": "For every sheet part, well formed or not, what is delivered under take_rows=t is an initial piece of what is delivered under any t' >= t and under no limit; a run that failed under t fails the same way under t'.", "quantifier": "every byte string / event list, all options", "why_tests_cant": "malformed and truncated parts, every pair of limits", "anchors": ["rxls/reader/xlsb.py: iter_worksheet", "rxls/reader/xlsx.py: iter_worksheet"]}
{"id": "C82", "title": "Every delivered cell respects the arguments and comes from the part", "statement": "Whatever the part holds: row numbers are never negative, never decrease and never exceed take_rows; no delivered cell lies in a skipped column or has a null text; its column and value stand in a record (element) of the part.", "quantifier": "every byte string / event list, all options", "why_tests_cant": "the part is arbitrary, including malformed input", "anchors": ["rxls/reader/xlsb.py: iter_worksheet", "rxls/reader/xlsx.py: iter_worksheet"]}
{"id": "C83", "title": "Exclusions only remove cells", "statement": "Adding null values or skipped columns removes exactly the cells they hide and changes no other cell.", "quantifier": "every part, every pair of null predicates and column lists ordered by inclusion", "why_tests_cant": "relates two runs on arbitrary input", "anchors": ["rxls/reader/xlsb.py: iter_worksheet", "rxls/reader/xlsx.py: iter_worksheet"]}
{"id": "C84", "title": "A sheet fails only through a malformed cell", "statement": "Iterating an .xlsb sheet with valid arguments raises only struct.error or UnicodeDecodeError, and only if some cell record is too short or holds no valid string; the .xlsx worker fails only if the parser does or a cell has no reference.", "quantifier": "every byte string / event list, all options", "why_tests_cant": "absence of other exceptions on arbitrary bytes", "anchors": ["rxls/reader/xlsb.py: iter_worksheet", "rxls/reader/xlsx.py: iter_worksheet"]}
{"id": "C85", "title": "Undefined behaviour has one source", "statement": "If every delivered shared string cell holds an index inside the shared string table, reading a workbook never gathers outside the table nor does any other operation whose result the libraries leave undefined, whatever the archive, options and values; and an index just past the end does.", "quantifier": "all archives (arbitrary bytes), XML event streams, options and library conversions", "why_tests_cant": "out-of-range gathers silently return garbage; absence over all inputs is not testable", "anchors": ["rxls/chunk/chunk.py: take", "rxls/chunk/chunk.py: xlsx_strings", "rxls/reader/common.py: read"]}
{"id": "C86", "title": "Later serials are not converted to earlier timestamps", "statement": "Within each of the three stretches of the serial line (below 1, January and February 1900, from 60 on) a larger serial date is never converted to an earlier timestamp.", "quantifier": "all pairs of finite binary64 serials up to 2^30 in magnitude", "why_tests_cant": "2^64 bit patterns squared; rounding in two steps", "anchors": ["rxls/chunk/casts.py: f8_to_ms_win"]}
{"id": "C87", "title": "A timestamp survives the serial format up to one millisecond", "statement": "A millisecond timestamp from 1900 to 9999 converted to a serial date and back differs by at most one millisecond, and only towards 1970.", "quantifier": "every timestamp of the range", "why_tests_cant": "2.5e14 timestamps, floating-point rounding", "anchors": ["rxls/chunk/casts.py: ms_to_f8_win, f8_to_ms_win"]}
{"id": "C88", "title": "A column read is a function of its runs", "statement": "A read of a column returns exactly the array computed from its runs of cells cut down to the requested rows: type and every value, in every conversion mode, including conversions that stop half-way; it raises exactly when nothing is left to read, or dates meet unresolved shared strings in a temporal mode.", "quantifier": "every column of runs, every window and mask, every mode, formats and precision, every behaviour of the libraries' conversions", "why_tests_cant": "combinations of runs, modes and windows are unbounded", "anchors": ["rxls/chunk/chunk.py: concatenate, take_over, chunk.take, chunk.as_temporal, chunk.as_numeric, chunk.arrow"]}
{"id": "C89", "title": "take(int) yields the element at the index", "statement": "chunk.take(i) holds the element list indexing gives for i, or nothing when i is out of range.", "quantifier": "every chunk and integer", "why_tests_cant": "negative and out-of-range indices", "anchors": ["rxls/chunk/chunk.py: take"]}
{"id": "C90", "title": "A sheet read is a function of its cells", "statement": "The table read from a sheet, or the exception raised instead, is exactly the one computed from the list of its cells and the options: first row by lookup, names, kept rows, column values and types, in every conversion mode.", "quantifier": "every sheet of decodable cells in rows >= 0, every option combination (header height >= 0, lookup size not 0), every mode, every behaviour of the libraries", "why_tests_cant": "combinations of sheets, modes and options are unbounded", "anchors": ["rxls/reader/common.py: read, __make_header, __find_header", "rxls/chunk/series.py: add, __pull_chunk, to_arrow, to_utf8"]}
{"id": "C91", "title": "A sheet read has no memory", "statement": "Lookup, header and filter reads do not influence later reads of the same columns: the result is as if every step read the sheet anew.", "quantifier": "every sheet of decodable cells, option combination and mode", "why_tests_cant": "depends on which runs earlier windows happen to cover", "anchors": ["rxls/reader/common.py: read", "rxls/chunk/chunk.py: concatenate, chunk.prepare"]}
{"id": "C92", "title": "Every exception of a sheet read has a known cause", "statement": "A sheet read raises KeyError only for an absent lookup column, a pattern error only for an invalid filter pattern, TypeError only for an invalid strategy, ArrowNotImplementedError only when a column mixes dates and shared strings in a temporal mode, ArrowInvalid only for an invalid lookup pattern or when no row is left, ValueError only with lookup, list header, filters, dtypes or no row left, and nothing else.", "quantifier": "every sheet of decodable cells, every option combination (header height >= 0, lookup size not 0), every mode", "why_tests_cant": "absence of other exceptions over all inputs", "anchors": ["rxls/reader/common.py: read"]}
{"id": "C93", "title": "A damaged workbook is never read as if it were complete", "statement": "When a part of the workbook breaks off or is not well formed, read raises an exception instead of returning a table made of what could be read.", "quantifier": "for every archive, every part, every place of the damage, every sheet and option", "why_tests_cant": "the damage can sit at any byte of any part; each test file is damaged in one place, and a silent loss looks like a shorter valid file", "anchors": ["rxls/reader/xlsx.py:128-253", "rxls/reader/xlsx.py:420-460", "rxls/reader/xlsb.py:101-178", "rxls/biff.py:214-245"]}
{"id": "C94", "title": "Conversions that may fail keep what converts", "statement": "mf_strptime with strict=False gives each text the usable value of the first format that has one and 0 otherwise, and the strict call raises ArrowInvalid exactly when that result contains a 0; arrow(strict=False) gives the requested type if every value has one in it and otherwise all values in the chunk's own type; utf8() always gives every value as text; is_empty, is_null, is_numeric and is_temporal say what the content is.", "quantifier": "every list of texts, every parser and format list; every well-formed chunk and requested type", "why_tests_cant": "the fallback depends on the joint content of the array, the format order and the chunk's internal representation", "anchors": ["rxls/chunk/casts.py:690-742 mf_strptime", "rxls/chunk/chunk.py:195-214", "rxls/chunk/chunk.py:300-329"]}
{"id": "C95", "title": "The number-format scan is what its regular expressions mean", "statement": "Compiling the patterns re_xt and re_dt from their text and applying Python's backtracking semantics (leftmost match, greedy and lazy repetition, lookahead and lookbehind), re_dt.search(re_xt.sub('', fmt)) gives, for every format text, the classification on which all other properties about number formats rest.", "quantifier": "every text", "why_tests_cant": "the texts are unbounded and the corner cases (unclosed quotes and brackets, lookahead at the end, newlines) combine freely", "anchors": ["rxls/reader/xlsx.py:37-38 re_dt, re_xt", "rxls/reader/xlsb.py:34-35 re_dt, re_xt"]}
{"id": "C96", "title": "The compiled column parser agrees with the interpreted one", "statement": "When numba is present col_idx is compiled with the signature int32(bytes). On the letters of every column below 2^31 it gives the same number as the Python function; above, two different references give the same column.", "quantifier": "every byte string, every column number", "why_tests_cant": "the number wraps only for references of seven letters and more, and the agreement is over all references", "anchors": ["rxls/reader/xlsx.py:66-79 col_idx"]}
{"id": "C97", "title": "Every exception of reading a file has a known cause", "statement": "If reading an archive raises, then the archive has no workbook part (AssertionError), or the exception is explained by a named defect of a named part: a missing member (KeyError), an XML part the parser rejects (its error), an element without a required attribute, a sheet without relationship, a record that is shorter than its layout or holds bad text, more styles or strings than their keys can number, a sheet index or name that is not there, a negative row argument, no cells, a cell whose content cannot be what its type says (then the exception is IndexError, ValueError, TypeError, ArrowInvalid or undefined behaviour, or one explained by the arguments: KeyError for a lookup column without cells, a rejected pattern, ArrowNotImplemented only with date conversion), or one of the causes of C92.", "quantifier": "every archive, every XML parser, all arguments with header >= 0", "why_tests_cant": "the claim is that there is no other way to fail, over all archives and arguments", "anchors": ["rxls/reader/common.py:119-261 read", "rxls/reader/xlsx.py:128-460", "rxls/reader/xlsb.py:101-303"]}
{"id": "C98", "title": "A run of cell records becomes one value per record, or raises", "statement": "When consecutive .xlsb cells of one column and type are turned into an array, the array has one value for each record, taken from that record; a record too short for its value raises an exception.", "quantifier": "every run of payloads of every type, every configuration", "why_tests_cant": "the payload lengths of a run combine freely; only some combinations are noticed", "anchors": ["rxls/chunk/chunk.py:144-194 xlsb_strings, xlsb_numeric", "rxls/chunk/casts.py:486-549 _unsafe_data_to_arrow, _unsafe_data_to_array", "rxls/reader/xlsb.py:252-301"]}
{"id": "C99", "title": "How a sheet stores its cells does not change the table", "statement": "Two sheets that show the same values at the same places - texts stored as shared strings or in the cell, numbers as RK or as IEEE numbers - give the same table, or the same error, under the same options.", "quantifier": "every two sheets with legible cells in any order, every configuration without unparsed strings, every option", "why_tests_cant": "the equality is between two whole reads; a test fixes one pair of sheets", "anchors": ["rxls/series.py:32-198 xl_series", "rxls/chunk/chunk.py:144-537", "rxls/reader/common.py:119-261 read"]}
{"id": "C100", "title": "A workbook saved as .xlsb and as .xlsx gives the same table", "statement": "An .xlsb and an .xlsx file whose delivered rows show the same values at the same places are read to the same table, or the same error, under the same options.", "quantifier": "every two well-formed files (records, events, styles, shared strings), every oracle, every option", "why_tests_cant": "compares two parsers over all files; a test fixes one pair of files", "anchors": ["rxls/reader/common.py:119-261 read", "rxls/reader/xlsx.py:128-460", "rxls/reader/xlsb.py:101-303"]}
{"id": "C101", "title": "A row callback that raises ends the read with its exception", "statement": "When a call of row_callback raises, reading the sheet ends and the caller gets that exception.", "quantifier": "every sheet, every choice of the calls that raise, every interleaving of the parser thread with the consumer", "why_tests_cant": "the outcome depends on which call raises and, in the .xlsx reader, on the thread schedule; a hang is not observable by a finite test", "anchors": ["rxls/reader/xlsx.py:319-322, 403-404, 426-460", "rxls/reader/xlsb.py:236-249", "rxls/reader/common.py:159-176"]}
{"id": "C102", "title": "What a workbook object delivers does not depend on its history", "statement": "Every operation on an open workbook object (sheets, shared, styles, iter_worksheet) gives the same result whatever operations were done with the object before.", "quantifier": "every file, every finite history of operations, every null predicate", "why_tests_cant": "the state (cached properties, null_shared) is reached by unboundedly many histories", "anchors": ["rxls/reader/xlsb.py:62-178, 196-205", "rxls/reader/xlsx.py:89-253, 269-287"]}
{"id": "C103", "title": "A workbook object works only while it is open", "statement": "Before __enter__ and after __exit__ iter_worksheet delivers no cell and raises; a property not loaded before raises; opening a file that is no workbook raises and leaves nothing open.", "quantifier": "every file and history of operations", "why_tests_cant": "holds over all histories; the leak is not observable from results", "anchors": ["rxls/reader/xlsb.py:91-103, 123-130, 140-146, 192-195", "rxls/reader/xlsx.py:118-131, 154-158, 195-199, 265-268"]}
{"id": "C104", "title": "Iterations of one workbook at the same time do not disturb each other", "statement": "Once started, an iteration (iter_worksheet) gives the cells, row callbacks and end it would have given if run to its end at once, whatever is done with the workbook between two of its steps: other iterations, properties, closing it, opening another file. Conversely started, unfinished or closed iterations do not change what the operations of the workbook give.", "quantifier": "every file, every schedule of operations and generator steps, every null predicate", "why_tests_cant": "unboundedly many interleavings of generator steps and operations", "anchors": ["rxls/reader/xlsb.py:180-303", "rxls/reader/xlsx.py:255-460", "rxls/reader/xlsb.py:123-138"]}
{"id": "C105", "title": "A file that is read is sound; exactly which defects of a part raise", "statement": "Each of the parts sheets, styles and shared strings of both formats loads exactly if it exists, is well-formed and every element or record it uses carries what it must (attributes, relationships, format ids, texts that decode); and a read that returns a table has loaded all of them, found the sheet asked for, and delivered a cell. For .xlsb every cell record of a sheet read in full is sound too. With skipped rows and a limit, and empty rows kept, an .xlsb sheet is iterated without an exception exactly if every cell record between those rows is sound.", "quantifier": "every archive, every XML parser, all arguments", "why_tests_cant": "every way a part can be damaged, in every archive", "anchors": ["rxls/reader/xlsx.py:128-253", "rxls/reader/xlsb.py:101-178", "rxls/rels.py:22-41", "rxls/biff_recs.py:36-41", "rxls/reader/common.py:138-176"]}
{"id": "C106", "title": "Rows that are not asked for have no influence", "statement": "A read depends on the rows searched for the header, the rows of the header and the rows from the first data row on. Two sheets that agree there give the same table (or the same exception), whatever the rows above the header and the rows skipped below it hold; and the data of the table do not depend on the header rows either, if no argument refers to titles.", "quantifier": "all pairs of sheets, all options, all modes without dates in text", "why_tests_cant": "all possible contents of rows that are not read", "anchors": ["rxls/reader/common.py:182-297", "rxls/series.py:75-198", "rxls/chunk/chunk.py:252-418"]}
{"id": "C107", "title": "A column of the table depends on its own sheet column and the filter columns", "statement": "The data of a column of the table depend on the cells of that column of the sheet, the rows asked for, the type asked for and - with row filters - the cells of the filter columns only: in two sheets of the same height with these columns in common it comes out the same, whatever the other columns hold and wherever it stands.", "quantifier": "all pairs of sheets, all modes, all columns", "why_tests_cant": "all possible contents of all other columns", "anchors": ["rxls/reader/common.py:160-339"]}
{"id": "C108", "title": "The compiled integer test and RK encoder agree with the numpy ones", "statement": "With numba installed f8_is_i8 and (with TBB) f8_to_rk are compiled and use numba's np.round. They give the same answers as the numpy bodies for every array of doubles.", "quantifier": "every array of doubles, every precision up to 22", "why_tests_cant": "ranges over all doubles; needs the optional dependency", "anchors": ["rxls/chunk/casts.py:163-180", "rxls/chunk/casts.py:222-226", "rxls/chunk/casts.py:258-276", "rxls/chunk/chunk.py:520-533"]}
{"id": "C109", "title": "What lies behind the row limit is not looked at", "statement": "Once a cell of the last row asked for (take_rows) has been delivered and the next row boundary is reached, nothing that follows in the part - other rows, damaged records, a parse error - changes what is delivered, the callbacks made or the outcome.", "quantifier": "every part, every continuation of arbitrary bytes or events, all options", "why_tests_cant": "ranges over all continuations of a part", "anchors": ["rxls/reader/xlsb.py:228-303", "rxls/reader/xlsx.py:289-437", "rxls/biff.py: scan_biff"]}
{"id": "C110", "title": "The default date formats: which, in which order, and what that decides", "statement": "Without explicit formats the layouts tried are exactly: ISO 8601 or day-month-year dates with one of three separators, 24-hour times (with polars also 12-hour times and fractions), and a date and a time joined by a space or a T. A date with a time is tried before the date alone, any date before a time alone, a four-digit year before a two-digit one, ISO before the other dates. Every value comes from a default layout no earlier one of which has a usable value; an error means a null or a text without one. The dates listed a second time never matter.", "quantifier": "every parser, every array, with and without polars", "why_tests_cant": "any parser and any text; order matters only for ambiguous texts", "anchors": ["rxls/chunk/casts.py:610", "rxls/chunk/casts.py:639-687", "rxls/chunk/casts.py:725-742"]}
{"id": "C111", "title": "Which texts are read as integers, and which space is cut off", "statement": "Style ids and shared string indices of .xlsx files are read as integers exactly if they are decimal integers of Python's grammar (ASCII space around, one sign, digits with single underscores), with the value of that numeral; every other text raises ValueError. The cell formats with a built-in format are exactly those whose id is such a text of one of the listed ids; a run of shared cells becomes exactly the indices its texts stand for. Cell and string texts lose exactly the white space at both ends.", "quantifier": "every text, every list of cell formats, every run of cells", "why_tests_cant": "ranges over all texts", "anchors": ["rxls/reader/xlsx.py:235-249", "rxls/reader/xlsx.py:172", "rxls/reader/xlsx.py:366", "rxls/chunk/chunk.py:121-142"]}
{"id": "C112", "title": "A relationship is written with its type", "statement": "Relationship.dump_xml writes the relationship with the type URI of the part it names (ECMA-376: .../officeDocument/2006/relationships/worksheet for a worksheet), so that a relationship that was read and is written again keeps its type.", "quantifier": "all relationships whose fields need no escaping", "why_tests_cant": "all fields; the reader drops the prefix, so a round trip within the library does not notice", "anchors": ["rxls/rels.py:12", "rxls/rels.py:22-46"]}
{"id": "C113", "title": "Relationship targets are resolved as relative references", "statement": "The part a sheet is read from is the one that RFC 3986 section 5.2 gives for its relationship target with the workbook part as base (ECMA-376 part 2).", "quantifier": "every workbook and every target that is a path, both formats", "why_tests_cant": "all targets; dot segments and absolute targets hardly occur in test data", "anchors": ["rxls/reader/xlsx.py: sheets", "rxls/reader/xlsb.py: sheets"]}
