{
 "C01": [
  "proved",
  "All record lists with encodable ids and payloads below 2^29 bytes; C01_record_layout pins the bytes."
 ],
 "C02": [
  "proved",
  "Streaming scanner, non-empty filter."
 ],
 "C03": [
  "proved",
  "Streaming scanner, every cut position; on arbitrary bytes the yielded records are exactly those standing there."
 ],
 "C04": [
  "proved",
  "Range, errors, length and round trip of the size prefix."
 ],
 "C05": [
  "partial",
  "False as stated: the numba scanner loops forever on truncated streams, drops ids >= 0x8000 and treats an empty filter differently (_refuted theorems). Agreement proved for complete streams, ids < 0x8000, non-empty or absent filter, every block size. On arbitrary bytes with ids < 0x8000: agreement when records reach to the end, non-termination otherwise. C05_only_low_ids: on any bytes no record of the block-buffered scanner has an id of 0x8000 or more, so the two differ on every stream with one (C05_high_ids_general_refuted); with an empty filter it yields nothing on any bytes (C05_empty_filter_general_refuted)."
 ],
 "C06": [
  "proved",
  "All 845 names, all payloads. C06_unknown_name: any other name is a KeyError."
 ],
 "C07": [
  "proved",
  "All logical types below 2^14."
 ],
 "C08": [
  "proved",
  "All texts of code points whose UTF-16 length fits; round trip, layout and consumed length. C08_exact: exactly which byte strings load as which string, against RFC 2781 stated as a relation (Utf16Text.v)."
 ],
 "C09": [
  "partial",
  "False as stated (the loader drops the last character of every non-empty string): refuted, and the exact loss is proved. What remains true is proved: null and empty strings. C09_written/C09_not_written: exactly which bytes dump writes for which string and exactly when it raises what, against RFC 2781 as a relation."
 ],
 "C10": [
  "proved",
  "Short buffers."
 ],
 "C11": [
  "proved",
  "All streams of shared-string items among ignored records."
 ],
 "C12": [
  "proved",
  "Whole-sheet decoding of every cell record kind in both row modes."
 ],
 "C13": [
  "partial",
  "False as stated: the xlsb error strings are UTF-16 byte strings and never equal a text, so every error text is delivered; _refuted theorems show it for all error strings and all sheets."
 ],
 "C14": [
  "partial",
  "False as stated for ids >= 256 and code lengths the reader misparses (_refuted). Exact behaviour for every styles part is proved, and the claim for parts outside the two defects."
 ],
 "C15": [
  "proved",
  "Row numbers in both modes."
 ],
 "C16": [
  "partial",
  "False as stated for both formats (_refuted: xlsb keeps one row, xlsx stops at row 3N+2e, collapse mode delivers nothing). Proved when the limit in force covers the sheet; the exact xlsx limit is C24_xlsx_exact_kept_rows."
 ],
 "C17": [
  "partial",
  "xlsb proved. xlsx: proved when the first row delivers a cell (keep mode) and against the reader's own numbering (collapse mode); refuted with leading empty rows."
 ],
 "C18": [
  "partial",
  "xlsb proved. xlsx: proved when the first row still delivers a cell; refuted otherwise."
 ],
 "C19": [
  "partial",
  "xlsb: exact count for sheets with a row, refuted for sheets without rows. xlsx: proved in collapse mode, exact count in keep mode, refuted with leading empty rows."
 ],
 "C20": [
  "proved",
  "Python version of col_idx, all n; the optional numba variant returns int32 and is only equal below 2^31."
 ],
 "C21": [
  "proved",
  "All event streams of si elements among other events (no si nested in si)."
 ],
 "C22": [
  "partial",
  "False as stated: only the first non-blank non-null text node is kept (_refuted for all inputs with a second piece). Proved for a single untrimmed text node."
 ],
 "C23": [
  "partial",
  "Rows after 2e are lost when the first e rows are empty and split character data gives two cells (_refuted). Proved when the first row delivers a cell or the sheet is short; fields of every delivered cell proved."
 ],
 "C24": [
  "partial",
  "Exact numbering and cut-off proved for both modes. Keep-mode numbers are right; collapse mode counts later empty rows (_refuted), right without them."
 ],
 "C25": [
  "proved",
  "Unbounded FIFO queue; every schedule of the two threads; no early end, no blocking; early close gives a prefix."
 ],
 "C26": [
  "partial",
  "Refuted: for every error point and schedule the consumer ends normally with the cells so far."
 ],
 "C27": [
  "partial",
  "xlsb: false for the first cell (_refuted), proved for the rest. xlsx: proved for cells with their own text; shared cells are tested by index text (_refuted). C27_xlsb_exact: with empty rows kept, for arbitrary parts, exactly the references to null strings are missing except for the first delivered cell; C27_xlsb_first_cell_general_refuted: a null first cell is delivered in every mode."
 ],
 "C28": [
  "partial",
  "False as stated for upper-case durations and escaped backslashes, quotes and brackets (_refuted, for all surrounding tokens); proved for the token grammar without them, exact with escaped backslashes (C28_backslash_exact); for arbitrary text see C95."
 ],
 "C29": [
  "proved",
  "All styles parts; temporal custom codes in the token reading of C28, plus an exact version without assumption on the codes."
 ],
 "C30": [
  "proved",
  "Sheet tables of both readers and selection by index and name; distinct names, ids."
 ],
 "C31": [
  "partial",
  "Proved for every history of well-formed cells in row order with windowed (or, in mode no, any) reads in between; refuted for .xlsx runs holding a numeric text that is no number; whole-column reads in converting modes rewrite the column (C35)."
 ],
 "C32": [
  "proved",
  "For every history of add/read calls, well formed or not: a late add answers with the last row and changes no other answer."
 ],
 "C33": [
  "partial",
  "Exact in mode \"no\" (C33_exact) and for every conflict-free window; elsewhere the i-th element is a converted form of row off+i (relation delivers). Reads meeting dates with unresolved shared strings raise (C41). The result of every read is given exactly by C88."
 ],
 "C34": [
  "partial",
  "Exact in mode \"no\" (C34_exact); elsewhere as C33. The result of every read is given exactly by C88."
 ],
 "C35": [
  "partial",
  "Windowed reads keep later results; mode \"no\" keeps every result; whole-column reads that resolve a conflict change later reads (C35_whole_read_refuted, C35_history_refuted)."
 ],
 "C36": [
  "partial",
  "Step 1: exactly which slices are right (C36_step_one_exact). Forward slices with in-range bounds and backward slices with both bounds given proved; backward slices with a bound left out or stop 0, and step 0, always wrong (C36_general_refuted)."
 ],
 "C37": [
  "partial",
  "Full table except the raising case of C41. The result of every read is given exactly by C88."
 ],
 "C38": [
  "proved",
  "All windows, masks and modes; the two result types of numbers are separated by the narrowing test."
 ],
 "C39": [
  "partial",
  "Proved for precision 0..22 and scaled values within 2^51; for all finite values the error is at most half a unit of the last digit plus |x| * 2^-51 (C39_error). Refuted at the default precision 6 for 10223501449417.001953125 and for infinite or out-of-range values. The delivered integers are the truncations."
 ],
 "C40": [
  "partial",
  "Proved when the mode does not attempt the conversion; refuted for modes numeric and temporal, where runs converted before the failure keep the converted form. The result of every read is given exactly by C88."
 ],
 "C41": [
  "partial",
  "Refuted: every such read raises while the strings are unresolved; proved once they are resolved."
 ],
 "C42": [
  "partial",
  "Lookups are right when the indices are in the table; any index outside it is read unchecked (refuted)."
 ],
 "C43": [
  "proved",
  "All 2^32 values: integer and float form, x100 flag, correctly rounded division; NaN and infinity payloads covered."
 ],
 "C44": [
  "proved",
  "All 30-bit integers."
 ],
 "C45": [
  "partial",
  "Non-negative integers round trip; every negative integer comes back as n+1 (_refuted). Non-integers: C79."
 ],
 "C46": [
  "partial",
  "All whole-day serials 1..2958465 except 60; serials 60 and 0 refuted."
 ],
 "C47": [
  "partial",
  "Error below 1 + 1/32 ms over the whole range except [60,61); whole seconds are not exact (_refuted: 2020-01-01 00:00:02)."
 ],
 "C48": [
  "proved",
  "All whole days of the Excel range."
 ],
 "C49": [
  "partial",
  "C49_exact describes the result for every parser, format list and array; the claim itself holds when parsed values are positive and is refuted at the epoch and before 1970."
 ],
 "C50": [
  "partial",
  "dt_has_t proved; dt_has_d right for non-negative timestamps other than 86400000, refuted otherwise; C50_exact says for which arrays it is right."
 ],
 "C51": [
  "partial",
  "C51_exact describes the result for every length (bytes in reverse order); so right for at most eight values and refuted for nine. C51_general_refuted: every array whose first value differs from the one at the start of its last byte comes out wrong; C51_every_length_refuted: no length above eight is safe."
 ],
 "C62": [
  "partial",
  "C62_exact: the round trip works exactly for fields without ampersand, less-than sign, double quote, tab, newline and characters outside XML, and types without a slash; so refuted otherwise (dump_xml does not escape). Numeric character references are an error in the parser of the specification; no text with one survives in expat either, since it is read as a shorter text."
 ],
 "C63": [
  "partial",
  "Right for relative targets; absolute targets give xl//xl/... in both readers (_refuted)."
 ],
 "C64": [
  "partial",
  "xlsx: any sheet without a worksheet relationship raises KeyError for the whole workbook, whatever sheet is asked for (_refuted, for the parts and for whole files); xlsb lists all sheets that have a relationship of any kind, one without any raises RuntimeError for every sheet (_refuted)."
 ],
 "C65": [
  "partial",
  "Right after 1970-01-01; every earlier day refuted."
 ],
 "C66": [
  "partial",
  "Refuted for null strings that are converted; nulls stay null otherwise. The result of every read is given exactly by C88."
 ],
 "C67": [
  "partial",
  "Proved when no conversion is attempted; refuted otherwise (values and type). The result of every read is given exactly by C88."
 ],
 "C52": [
  "proved",
  "C52_shape for every run that returns; C52_content gives names, rows and values; C52_returns says when it returns."
 ],
 "C53": [
  "partial",
  "Rows are counted over the tallest column, not the last row: exact count proved, all rows kept iff some column spans row 0 to the last row, refuted otherwise."
 ],
 "C54": [
  "proved",
  "Names described by an independent left-to-right fill-and-join of the header block."
 ],
 "C55": [
  "partial",
  "Refuted for header rows (the uniqueness pass result is discarded); the discarded pass itself is right (C55_dropped); names are unique without a header."
 ],
 "C56": [
  "proved",
  "Found row, missing pattern and present pattern."
 ],
 "C57": [
  "partial",
  "Refuted when two columns have a match. C57_exact, in every mode: the row is the topmost match of the first column that has one, and it is the topmost of the sheet exactly if no later column matches above it."
 ],
 "C58": [
  "partial",
  "Proved without conversions and NaN when at least one row is kept (C52_content states which rows are kept in every mode); refuted when no row is kept, and where texts become numbers: an empty shared string counts as filled, the text nan as empty."
 ],
 "C59": [
  "partial",
  "Refuted: every header-only sheet raises."
 ],
 "C60": [
  "partial",
  "Proved up to type parameters; refuted for types with equal id and other parameters. Type ids are Arrow's enumeration, written out in ReaderSpec (arrow_id), not the model's type_id."
 ],
 "C68": [
  "partial",
  "Refuted: the rows are skipped for header=0 and for a list of names too."
 ],
 "C61": [
  "partial",
  "Equal positions when the first row has a cell (empty rows kept) or no empty row lies between non-empty ones (dropped); refuted for leading empty rows, skipped rows and inner empty rows."
 ],
 "C69": [
  "partial",
  "Refuted: without the part every sheet with a cell raises KeyError, in both formats. With the part present see C71."
 ],
 "C70": [
  "proved",
  ""
 ],
 "C71": [
  "partial",
  "For both formats, when format ids and codes are classified correctly (C14, C29) and (xlsb) the first cell is not a null shared string: *_options_partial - whatever table is returned, under any row window, header, lookup, filter, dtypes and conversion mode, is the one of the delivered rows (text lookups: cells in column order within rows); *_window_partial and *_partial - a table is returned for header=int, no lookup, filters or dtypes, no temporal conversion, when some column reaches from the first to the last delivered row (C53)."
 ],
 "C72": [
  "partial",
  "Refuted: declared numbers are ignored, row records are counted. Proved when rows are numbered consecutively from the first."
 ],
 "C73": [
  "partial",
  "Refuted: the argument is never looked at."
 ],
 "C74": [
  "partial",
  "Refuted: the default strategy keeps rows filled in either column."
 ],
 "C75": [
  "partial",
  "Refuted: a full stop instead of a colon."
 ],
 "C76": [
  "proved",
  "Without lookup_head (a failing lookup raises first)."
 ],
 "C77": [
  "proved",
  "Whenever the first reading returns; the table is the same value."
 ],
 "C78": [
  "proved",
  "Both formats, for a well-formed workbook part and an existing selected sheet; styles, shared strings and the sheet itself are arbitrary."
 ],
 "C79": [
  "partial",
  "Exactly which numbers with an RK form survive (C79_exact): hundredths from 0 to 2^29 - 1, whole numbers from 0 to 2^29 - 1, others with the low 34 bits clear, and those whose hundredfold overflows. So every negative hundredth, nearly every number from 2^29 on and float forms divided by 100 are lost (_refuted)."
 ],
 "C80": [
  "partial",
  "False as stated; exact for every finite double: never different on doubles that are no whole number (C80_not_whole), on whole numbers C80_exact says exactly when the words agree, where out-of-range conversions give the least integer. Equal up to 2^31 - 1 whatever they give; refuted for all whole numbers from 2^31 to 2^32 whose low 30 bits are not zero."
 ],
 "C81": [
  "partial",
  "Proved for arbitrary parts and every pair of limits in both formats; against no limit for .xlsb and for .xlsx without keeping empty rows; refuted for .xlsx keeping them (a leading empty row turns no limit into a limit)."
 ],
 "C82": [
  "proved",
  "Arbitrary parts. The upper bound on rows for .xlsx is for collapsed rows; keeping empty rows it fails, see C17."
 ],
 "C83": [
  "partial",
  "Proved for .xlsb on arbitrary parts (kept rows: exactly; any mode: up to row numbers) and for .xlsx with collapsed rows; refuted for .xlsx keeping empty rows. null_shared is taken as fixed during the run, see C27 for the first cell."
 ],
 "C84": [
  "proved",
  "Arbitrary parts; the style table is taken as read."
 ],
 "C85": [
  "proved",
  "The expat oracle is assumed not to report undefined behaviour itself. The index of an .xlsx cell is the number read by int()."
 ],
 "C86": [
  "partial",
  "Proved within each of the three stretches (times of day, serials 1 to 59, serials from 60 on), with moments three milliseconds apart told apart; false across the seams at 1 and 60: times of day come after every date before 1970, moments of serial 59 after the earlier ones of serial 60. C86_exact: these are all inversions. The way back keeps the order strictly (C86_back)."
 ],
 "C87": [
  "proved",
  "Exactness is false: one millisecond can be lost (C87_not_exact)."
 ],
 "C88": [
  "proved",
  "Columns as the readers build them (nonempty runs, shared indices inside the table); every offset, length and mask, also negative ones. Float and time conversions of the libraries are parameters."
 ],
 "C89": [
  "partial",
  "Proved for data chunks except -1, which gives nothing (_refuted); null chunks give a null for every index below the size, so wrong exactly below -size (C89_nulls)."
 ],
 "C90": [
  "proved",
  "Cells whose bytes decode, rows >= 0, header height >= 0, lookup size not 0. Regular expressions, casts and conversions of the libraries are parameters."
 ],
 "C91": [
  "partial",
  "Proved unless dates meet shared strings in a temporal mode; there it is refuted (a lookup can make the read succeed)."
 ],
 "C92": [
  "proved",
  "Same sheets as C90; C92_returns is the converse for reads without lookup, filters and dtypes."
 ],
 "C93": [
  "partial",
  "xlsx: proved for the relationships, workbook, styles and shared strings parts, and the relationships of xlsb. Violated for the sheet part of xlsx and for every binary part of xlsb (_refuted, for every place of the damage): the result is that of the complete file holding only what precedes the damage."
 ],
 "C94": [
  "proved",
  "Exact description of the non-strict conversions and of the chunk predicates; strict conversion derived from the non-strict one."
 ],
 "C95": [
  "proved",
  "Regex.v reads the pattern text and gives the backtracking semantics; the matchers of NumFmt.v are proved equal to it on every text."
 ],
 "C96": [
  "partial",
  "Exact description of the compiled function, agreement below 2^31 columns; beyond it different references collide (_refuted)."
 ],
 "C97": [
  "proved",
  "Causes are stated in FileSpec.v on the members of the archive. For a cell whose content cannot be what its type says the exception is narrowed to the kinds of FileSpec.raisable (C97_cells: any cells at all)."
 ],
 "C98": [
  "partial",
  "Proved for shared strings, and for numbers with a single record cut inside its value; when it raises and how many values there are is exact (C98_numeric_exact). Refuted for every run with a record without value (it vanishes and the following values move up) and for records whose bytes add up."
 ],
 "C99": [
  "partial",
  "Proved when no column mixes what would be converted (C99_unmixed_partial) and, without date recognition, when the runs of equally stored cells agree (C99_runs_partial). Refuted otherwise: conversion works by runs of equally stored cells (C99_mixed_refuted), and so does what is left when the header takes all rows (C99_nothing_left_refuted)."
 ],
 "C100": [
  "partial",
  "Proved for delivered rows that show the same values, under the conditions of C99; where the two readers deliver different rows for the same sheet is C16, C23, C24 and C61."
 ],
 "C101": [
  "partial",
  "Proved for .xlsb when the cells before the call are legible. Refuted for .xlsx: an exception of the first call comes before the try whose finally ends the queue, so the caller waits forever (C101_xlsx_first_refuted, every sheet and schedule); one of a later call is lost and the sheet silently ends there (C101_xlsx_later_refuted, exact in every schedule)."
 ],
 "C102": [
  "partial",
  "Proved for .xlsx (every history) and for .xlsb files without null shared strings; exact for .xlsb while the object stays open (C102_xlsb_exact: null_shared is filled iff shared has been asked for). Refuted for .xlsb with null shared strings, also after a failed load of the table, and for an object entered again after the file was replaced."
 ],
 "C103": [
  "partial",
  "Proved: not entered (RuntimeError), closed (no cell, raises; what had not been loaded raises ValueError), a property once loaded stays whatever happens (C103_loaded_stays). Refuted: a refused file stays open."
 ],
 "C104": [
  "partial",
  "Proved for .xlsx, and for .xlsb when null_shared does not change meanwhile (shared not asked for, or no null texts). Exact for .xlsb otherwise: the same iteration with a null_shared that grows. Refuted for .xlsb when shared is asked for while an iteration runs. The converse direction is proved (C104_object_xlsx, C104_object_xlsb)."
 ],
 "C105": [
  "partial",
  "Proved as equivalences for sheets and styles of both formats and for shared strings of .xlsx; shared strings of .xlsb up to 2^32 strings. Cell records of .xlsb: C105_xlsb_rows is an equivalence for any skip_rows/take_rows when empty rows are kept; C105_xlsb_cells_rows_partial gives the reading direction in both modes (when empty rows are dropped and a limit is set, a few more records are looked at than it speaks of). An ill-formed .xlsx sheet part is not noticed (refuted under C93)."
 ],
 "C106": [
  "partial",
  "Proved for sheets of the same columns and height whose cells hold what their type says, with rows left to read and, if dates are recognised in text, no part read that mixes dates with shared strings. Refuted in general: in .xlsx a text in a skipped row turns the numbers below it into text (C106_refuted), a cell in a skipped row can decide how many rows are read (C106_height_refuted)."
 ],
 "C107": [
  "partial",
  "Without filters and lookup for all modes (C107_column_partial); with lookup, row filters and types of single columns unless a part that is read mixes dates with shared strings in a mode that recognises dates (C107_filters_partial), given that both reads begin at the same row. The number of rows does depend on the other columns (C107_refuted)."
 ],
 "C108": [
  "partial",
  "Exact: the compiled test passes iff every number passes numpy's or has a scaled form too large for a double; for those (C108_refuted) a column of whole numbers is narrowed and the number becomes an out-of-range conversion, and the encoder writes an integer form. Precision above 22 and fastmath are not covered."
 ],
 "C109": [
  "partial",
  "Proved for .xlsb (also by counting row marks, and a prefix of the records always gives a prefix of the deliveries) and for .xlsx up to the known shift of the limit by two for each row before the first cell; with such rows it is refuted. Events are what expat gives; that it gives the same events for the same beginning of a text is not modelled. C109_xlsb_file and C109_xlsx_file carry it to the tables of whole files."
 ],
 "C110": [
  "proved",
  "For null slots that read as 0, as C49_exact; usable values as in C49 (midnight 1 January 1970 is none)."
 ],
 "C111": [
  "proved",
  "For ASCII texts: Unicode digits and the limit of 4300 digits are outside the model of int (PyText.v). Indices outside 0..2^32-1 are numpy's and not modelled (Undefined)."
 ],
 "C112": [
  "partial",
  "False: the namespace of the relationship elements is written in front of every type (C112_exact), never that of a workbook's parts (C112_refuted); a type survives reading and writing exactly if it was in that namespace (C112_again)."
 ],
 "C113": [
  "partial",
  "False as stated: the reader puts xl/ in front. C113_xlsx_exact and C113_xlsb_exact: right exactly for non-empty relative paths without . and .. segments; C113_refuted for all absolute targets and all with dot segments. Targets with a scheme, authority, query or fragment are not considered."
 ]
}