# Formal model of rxls in Coq - design

Status of each property: see MANIFEST.json. This file says what is modelled, how
each property is proved, and what is trusted.

## Method

The Python sources under /repo are read as text. Each modelled function is a
total Gallina function with a comment citing file and lines. Python exceptions
are values (`res A := Ok a | Err e`); behaviour that numpy/Arrow leaves
undefined is an explicit error value `Undefined`; loops are structural recursion,
folds, or recursion on fuel with a distinct out-of-fuel result that is proved
unreachable. Python ints are `Z`, bytes are `list Z`, str is a `list Z` of code
points, float64 is Flocq's IEEE-754 `binary64`. A generator is the list of what it
yields plus the exception that ends it, if any.

External libraries are represented by inputs (XML event lists, the archive as a
list of members) or by records of arbitrary functions (`oracle`, `roracle`);
theorems are universally quantified over them, and name what they assume about
them where they do.

Specifications live in `*Spec.v` files and do not use the model's helpers: they
describe files (records, rows of cells, XML elements) and the values a table
should show. Theorems named `C..` are in the `Props*.v` files, each followed by
`Print Assumptions` and by an `Example` that meets its hypotheses.

Where the code violates a property the theorem is named `..._refuted` and gives
a concrete witness (or a general statement that it always fails), and the
strongest positive part found is proved separately (`..._partial`).

## What is modelled

| code | model | not modelled |
|---|---|---|
| biff.py | Biff.v (size prefix, as_binary, dump, both scanners) | the io objects themselves (a stream is its bytes); the text of `__repr__` beyond the number |
| biff_enum.py | BiffEnum.v, generated by tools/gen_biff_enum.py | |
| biff_recs.py | BiffRecs.v, Utf16.v (codec) | `__repr__` |
| cell.py, constants.py | Cell.v | |
| core.py | Py.v (struct packing) | dataclass decoration, optional-dependency detection |
| rels.py | Sheets.v | XML parsing (events in) |
| reader/xlsb.py | Xlsb.v, NumFmt.v, Sheets.v, Workbook.v, Objects.v (the object and its caches), Generators.v (interleaved iterations) | |
| reader/xlsx.py | Xlsx.v, PropsCols.v (the compiled col_idx), NumFmt.v, Sheets.v, Queue.v (two threads), QueueCalls.v (a callback that raises), Workbook.v, Objects.v (the object and its caches), Generators.v | expat (arbitrary function to events) |
| series.py | Series.v | |
| chunk/chunk.py | Chunk.v, Series.v (constructors), Lax.v (strict=False, utf8, predicates) | messages of exceptions |
| chunk/arrow.py | the calls made, inside Chunk.v and Reader.v | lazy registration of Arrow functions |
| chunk/casts.py | Casts.v (with the one compiled body that differs, `gu_f8_to_rk`), Compiled.v (numba's np.round in the compiled bodies), Series.v (array builders) | numba compilation, fastmath, int64 wrap-around, one-column numpy vectorisation (arrays are lists) |
| reader/common.py | Reader.v, Workbook.v | |

Simplifications (also at the definitions):

- `zipfile`: an opened archive is the list of its members with their contents.
- An open member can be read on after its archive has been closed (Generators.v).
- `expat`: a part is mapped to its events and the error that ends them.
- `queue.Queue`: an unbounded FIFO whose `put` never blocks.
- Regular expressions of the number formats are hand-written matchers on lists of
  code points (NumFmt.v), proved equal to the patterns under the semantics of Regex.v (C95);
  those of the user are oracle functions.
- Reading past the end of the numba scanner's block raises IndexError (numba
  without bounds checks would read neighbouring memory).
- `int(text)` reads ASCII text only (space, sign, underscores included) and has no digit limit.
- Arrow: `pa.array` of bytes as strings is strict UTF-8 decoding (Utf8.v); casts
  between text, numbers and timestamps are oracle functions on single values;
  `array_take` without bounds check past the end is `Undefined`.
- `np.round` is numpy's, except in Compiled.v where it is numba's (C108).
- `np.frombuffer` of an empty buffer is the empty array.
- Python dicts and sets are insertion-ordered lists.

## Trusted base

- Coq 8.16.1's kernel (including `vm_compute`), its standard library, Flocq 4.1.0.
- The transcription of the Python code into the model, and the simplifications above.
- The specifications in `*Spec.v` and the theorem statements.
- The axioms below, all from the standard library (they come in with the real
  numbers under Flocq); none is declared here.

### Print Assumptions of each theorem

<!-- assumptions -->

No axioms (closed under the global context): 232 theorems.

C01_biff_round_trip C01_biff_resynchronises C01_record_layout C02_biff_filtered_scan C03_biff_truncated C03_biff_truncated_filtered C03_scan_total C03_arbitrary C04_size_prefix C04_size_prefix_domain C04_size_prefix_error C05_scanners_agree_partial C05_truncated_never_ends_refuted C05_high_ids_refuted C05_empty_filter_refuted C05_arbitrary_partial C05_only_low_ids C05_high_ids_general_refuted C05_empty_filter_general_refuted C06_named_records C06_unknown_name C06_table_size C07_repr_number C08_wide_string_load C08_null_string_load C08_from_binary_agrees C08_leading_mark_lost C08_exact C08_error C08_codec C09_dump_load_refuted C09_last_char_lost C09_null_partial C09_empty_partial C09_written C09_not_written C10_bundle_sh C11_shared_table C12_cells_kept_rows C12_cells_collapsed_rows C12_after_end C13_no_error_strings_refuted C13_error_cell_delivered_refuted C14_styles_partial C14_styles_exact_behaviour C14_low_byte_refuted C14_code_length_refuted C15_delivered_row C16_xlsb_skip_keeps_one_row_refuted C16_xlsb_skip_collapse_refuted C16_xlsb_skip_with_limit_partial C16_xlsx_skip_rows_partial C16_xlsx_collapsed_skip_refuted C16_xlsx_rows_lost_refuted C17_xlsb_take_rows C17_xlsx_take_rows_partial C17_xlsx_take_collapsed_partial C17_xlsx_leading_empty_refuted C18_xlsb_skip_cols C18_xlsx_skip_cols_partial C18_xlsx_first_row_refuted C19_xlsb_calls_partial C19_xlsb_no_rows_refuted C19_xlsx_calls_collapsed C19_xlsx_calls_kept_partial C19_xlsx_calls_exact C19_xlsx_leading_empty_refuted C20_letters_to_index C20_distinct_letters C21_one_entry_per_si C22_single_text_partial C22_runs_lost_refuted C23_xlsx_cells_partial C23_xlsx_cells_short_partial C23_xlsx_cell_fields C23_xlsx_irrelevant_events C23_xlsx_rows_lost_refuted C23_xlsx_split_text_refuted C24_xlsx_exact_kept_rows C24_xlsx_exact_collapsed_rows C24_xlsx_row_number_kept C24_xlsx_row_number_collapsed_partial C24_xlsx_inner_empty_row_refuted C25_every_schedule_ends C25_every_schedule_result C25_no_early_end C25_no_blocking C25_early_close_prefix C26_error_swallowed_refuted C27_xlsb_exact C27_xlsb_first_cell_general_refuted C27_xlsb_shared_loaded_partial C27_xlsb_null_list_partial C27_xlsb_first_cell_partial C27_xlsb_first_cell_refuted C27_xlsx_null_predicate C27_xlsx_plain_cells_partial C27_xlsx_shared_index_refuted C28_tokens_partial C28_first_section_partial C28_upper_duration_refuted C28_escapes_refuted C28_backslash_exact C28_upper_duration_general_refuted C28_escaped_quotes_refuted C29_styles C29_styles_exact C29_raises C30_xlsx_table C30_xlsb_table C30_table_entries C30_index_is_name C30_bad_index C30_good_index C30_unknown_name C30_formats_agree C36_forward_partial C36_refuted C36_step_one_exact C36_backward_partial C36_general_refuted C49_first_format_partial C49_epoch_refuted C49_before_1970_refuted C49_exact C50_time_part C50_date_part_partial C50_date_part_refuted C50_exact C51_general_refuted C51_every_length_refuted C51_one_byte_partial C51_exact C51_nine_refuted C55_dropped C60_wanted C60_columns C60_errors C60_parameters_refuted C61_kept_partial C61_collapsed_partial C61_skip_collapsed_partial C61_leading_empty_refuted C61_skip_refuted C61_gap_refuted C62_exact C62_round_trip_partial C62_round_trip_refuted C62_bytes C62_bytes_round_trip_partial C63_relative_partial C63_absolute_refuted C64_other_sheet_refuted C64_xlsb_partial C81_xlsb_limit C81_xlsb_no_limit C81_xlsx_limit C81_xlsx_no_limit C81_xlsx_kept_refuted C82_xlsb_cells C82_xlsb_rows C82_xlsx_cells C82_xlsx_rows C83_xlsb_kept C83_xlsb_contents C83_xlsx_contents C83_xlsx_kept_refuted C84_xlsb_failure C84_xlsb_no_failure C84_xlsx_failure C89_data_partial C89_last_refuted C89_nulls C94_strptime C94_strict C95_sub C95_search C95_temporal C96_exact C96_letters_partial C96_letters_refuted C101_xlsx_later_refuted C101_xlsx_first_refuted C102_xlsx C102_xlsb_exact C102_null_keys C102_xlsb_partial C102_xlsb_refuted C102_reopened_refuted C103_not_entered C103_closed C103_closed_exact C103_loaded_stays C103_failed_open_refuted C104_xlsx C104_xlsb_exact C104_xlsb_partial C104_xlsb_unshared_partial C104_xlsb_no_nulls_partial C104_object_xlsx C104_object_xlsb C104_sheets_loaded C104_xlsb_refuted C105_xlsb_rows C105_xlsx_sheets C105_xlsx_styles C105_xlsx_shared C105_xlsx_iteration C105_xlsb_sheets C105_xlsb_styles C105_xlsb_shared_partial C109_xlsb C109_xlsb_rows C109_xlsb_prefix C109_xlsx C109_xlsx_refuted C110_which C110_order C110_chosen C110_repeated C111_integer C111_no_integer C111_written C111_styles C111_shared C111_strip C112_exact C112_refuted C112_again C113_xlsx_exact C113_xlsb_exact C113_refuted

Axioms `ClassicalDedekindReals.sig_forall_dec`, `ClassicalDedekindReals.sig_not_dec`, `Classical_Prop.classic`, `FunctionalExtensionality.functional_extensionality_dep`: 170 theorems.

C31_values_partial C31_uniform C31_mode_no C31_text_partial C31_run_refuted C32_first_wins C32_last_is_greatest C33_window_partial C33_exact C34_mask_partial C34_exact C35_reads_partial C35_mode_no C35_whole_read_refuted C35_history_refuted C37_table_partial C38_values C39_narrowing_partial C39_lossless_refuted C39_out_of_range_refuted C39_nan C39_error C39_whole C40_plain_partial C40_numeric_refuted C40_temporal_refuted C41_shared_strings_refuted C41_resolved_partial C42_lookups_partial C42_refuted C43_integer C43_float C43_cover C44_integer_round_trip C45_nonnegative_partial C45_negative_refuted C46_whole_days_partial C46_boundaries_refuted C47_within_a_millisecond_partial C47_whole_seconds_refuted C48_round_trip C52_shape C52_content C52_returns C53_exact C53_partial C53_refuted C54_titles C55_refuted C55_unnamed_partial C56_found C56_missing C56_present C57_exact C57_partial C57_refuted C58_blank_kept_refuted C58_nan_dropped_refuted C58_partial C58_empty_refuted C59_refuted C64_file_refuted C64_xlsb_missing_refuted C65_serial_partial C65_before_1970_refuted C66_null_string_refuted C66_nulls_partial C67_grouping_partial C67_grouping_refuted C67_type_refuted C68_refuted C69_xlsb_refuted C69_xlsx_refuted C70_no_workbook C70_no_sheet C70_negative C71_xlsb_options_partial C71_xlsx_options_partial C71_xlsb_window_partial C71_xlsx_window_partial C71_xlsb_partial C71_xlsx_partial C72_xlsb_partial C72_xlsb_refuted C72_xlsx_partial C72_xlsx_refuted C73_refuted C74_refuted C75_refuted C76_mismatch C76_names C77_cell_order C78_xlsb_other_members C78_xlsx_other_members C79_hundredths_partial C79_other_partial C79_negative_refuted C79_large_refuted C79_beyond_refuted C79_exact C80_variants_partial C80_large_refuted C80_not_whole C80_whole C80_exact C85_safe C85_past_the_end C86_distinct_partial C86_times_refuted C86_february_refuted C86_exact C86_back C86_order_partial C86_order_refuted C87_back C87_not_exact C88_complete C88_raises C88_returns C88_rows C88_after C90_complete C90_empty C90_failed C91_partial C91_dates_partial C91_refuted C91_unmixed_partial C92_raises C92_returns C93_xlsx_parts C93_relations C93_xlsx_sheet_refuted C93_xlsb_refuted C94_arrow C94_utf8 C94_predicates C97_xlsx C97_xlsb C97_neither C97_cells C98_shared C98_numeric_exact C98_one_partial C98_empty_refuted C98_joined_refuted C99_unmixed_partial C99_runs_partial C99_mixed_refuted C99_nothing_left_refuted C100_formats_partial C101_xlsb_partial C105_xlsb_cells_rows_partial C105_xlsx C105_xlsb C105_xlsb_cells_partial C106_rows_partial C106_data_partial C106_refuted C106_height_refuted C107_column_partial C107_refuted C107_filters_partial C108_test C108_same_partial C108_refuted C108_encoder_partial C108_encoder_refuted C109_xlsb_file C109_xlsx_file

<!-- /assumptions -->

## Per-property plan

- **C01 BIFF12 records survive serialise/scan** - Biff.v models record.as_binary/scan_biff on byte lists (Z in 0..255); structural induction over the record list, header decoding lemma per size class.
- **C02 Filtered scan is the filtered stream** - same model; filter commutes with scan by induction.
- **C03 A truncated BIFF12 stream yields only complete records** - same model on `firstn k`; spec = longest prefix of records whose encodings fit in k bytes; induction over records. On arbitrary bytes: relation `frame` (id, any size number of at most four bytes, data) and the scanner's list is the only framing.
- **C04 Size prefix is the BIFF12 7-bit varint** - dump_sz modelled branch by branch with struct range errors; spec = base-128 varint; bit-arithmetic lemmas.
- **C05 Both scan_biff implementations agree** - block-buffered scanner modelled as chunk/remaining state machine with fuel; equality for complete streams and all block sizes; `_refuted` for truncated streams (never terminates), empty filter, ids >= 0x8000. BiffAny.v repeats it for arbitrary bytes; PropsScanners.v turns the two literal refutations (high ids, empty filter) into statements about every stream.
- **C06 Every named BIFF12 record type round-trips by name** - BIFF_ENUM transcribed as a table (845 entries); finite facts by vm_compute lifted with forallb_forall, payload part by C01.
- **C07 Displayed record number is the logical BIFF12 record type** - bit arithmetic lemma.
- **C08 XLWideString loading is exact** - Utf16.v models Python's utf-16 codec (BOM sniffing, surrogates, errors); round trip by induction. `Utf16Text.v` states RFC 2781 as a relation; `C08_exact`: load gives a string iff the bytes stand in that relation to it.
- **C09 xstr.dump then xstr.load is the identity** - expected false (encode('utf-16') writes a BOM, length counts code points): `_refuted` plus exact characterisation for BMP strings. C09_written / C09_not_written: the bytes written for every string, and exactly when writing raises (prompted by a surviving wrong `is_surrogate`).
- **C10 Sheet directory record decodes exactly** - composition of C08.
- **C11 XLSB shared string k is the k-th string item** - Xlsb.v models `shared`; composition with C02 and UTF-16.
- **C12 XLSB cells reach the caller with the right position, kind and payload** - Xlsb.v models iter_worksheet over records; spec = structural function on rows of cells; induction over rows/cells; composed with scan_biff down to bytes.
- **C13 XLSB error strings are null** - expected false (the set holds bytes, the test is on str): `_refuted`/general theorem.
- **C14 XLSB date styles are recognised exactly** - styles modelled; `_refuted` for the low-byte test; positive part for ids < 256.
- **C15 XLSB row numbering** - corollary of C12's row numbering.
- **C16 skip_rows skips exactly the first N rows** - expected false in both readers for N>0; exact behaviour theorems for take_rows_non_empty=False (nothing is ever delivered) and True.
- **C17 take_rows stops after the given row** - theorem for xlsb (empty rows kept), xlsx likewise under conditions; `_refuted` where false.
- **C18 skip_cols removes exactly the listed columns** - filter lemma over both state machines.
- **C19 row_callback is called once per row plus once** - counter in both state machines.
- **C20 A1 column letters decode to the 0-based index** - col_idx modelled on byte lists; spec = inverse of bijective base-26 naming; induction.
- **C21 XLSX shared string table is aligned** - sharedStrings handlers as a state machine over expat events; spec = list of <si> elements; induction.
- **C22 XLSX shared string text is complete** - `_refuted` (second run dropped; split text dropped) and positive part (single unsplit text node).
- **C23 XLSX cells reach the caller with the right position, kind and text** - worker handlers as state machine over events; events generated from structured sheets; induction.
- **C24 XLSX row numbering** - `_refuted` for the collapse mode (flag never reset), positive part for keep mode and for leading empty rows.
- **C25 The background parser thread cannot change the result** - small-step interleaving model of producer/consumer with FIFO; invariant over all schedules; termination.
- **C26 A parse failure in the middle of a sheet is reported** - `_refuted`: with the same interleaving model, any failure point gives a normal end of iteration.
- **C27 null_values removes exactly the cells with those texts** - positive theorems on direct texts; `_refuted` for shared cells (index text tested instead of string; xlsb first cell). Exact for .xlsb with kept rows in PropsNullFirst.v.
- **C28 Number format classification** - regexes modelled as functions on strings; spec = token grammar; induction.
- **C29 XLSX style table** - styles handlers modelled; spec per xf.
- **C30 Sheet selection by index and by name agree** - sheet lists as association lists.
- **C31 A column is the sequence of its cells at their rows** - Series.v/Chunk.v model add/__pull_chunk/concatenate; abstraction function to a row-indexed list; invariant by induction over add history.
- **C32 First cell per row wins** - same.
- **C33 A column window is exact** - take_over modelled with Python slicing; list lemma.
- **C34 A column under a row mask is exact** - same with masks.
- **C35 Reading a column does not change it** - store of chunk objects with in-place prepare; history independence by `prepare`-equivalence; `_refuted` for the temporal modes.
- **C36 Slicing a null run behaves like slicing a list** - null_slice vs CPython slice length; positive part and `_refuted`.
- **C37 Column type decision table** - concatenate modelled branch by branch over an oracle for Arrow casts.
- **C38 Conflict-free columns keep their values** - same.
- **C39 Integer narrowing is lossless up to float_precision** - binary64 via Flocq; error analysis over R; `_refuted` for values beyond int64.
- **C40 Unresolvable conflicts fall back to the original text** - `_refuted` with witness; positive part for mode `no`.
- **C41 Temporal conflict resolution works on shared strings** - `_refuted` + general theorem.
- **C42 Shared string lookups stay in bounds** - out-of-range lookup is an explicit Undefined outcome; `_refuted` and positive part.
- **C43 RK numbers decode per [MS-XLSB]** - Flocq binary64, reals.
- **C44 Integer RK round trip** - same.
- **C45 Float to RK and back** - positive part for n>=0; `_refuted` for n<0.
- **C46 Whole-day serial dates convert to the right calendar day** - Flocq exactness on integers + calendar induction.
- **C47 Date-times convert within a millisecond** - error bound over R; exact-seconds part `_refuted`.
- **C48 Timestamp to serial and back** - positive part from 1970-01-02 on; `_refuted` before.
- **C49 Multi-format parsing takes the first matching format** - per-element lemma with an arbitrary one-format parser; `C49_exact` gives the result in all cases; `_refuted` for the epoch and pre-1970 dates.
- **C50 Date/time part detection** - Z arithmetic; `_refuted` boundary for dt_has_d; exact set of arrays answered rightly.
- **C51 Arrow bitmap unpacking** - positive part for one-byte buffers; `C51_exact` for every length (bytes reversed); `_refuted` beyond one byte; PropsBools.v: a refutation for every length above eight.
- **C52 The resulting table is rectangular and complete in columns** - Reader.v models read() over the columns; induction.
- **C53 No data row is lost** - `_refuted`; positive part when the longest column starts in row 0.
- **C54 Multi-row headers merge as documented** - fold over columns vs. independent spec.
- **C55 Column names are unique** - `_refuted` (the deduplicated list is computed and dropped).
- **C56 Header lookup finds a row containing the pattern** - list search lemmas.
- **C57 Header lookup finds the first such row** - `_refuted`; exact in every mode (`C57_exact`).
- **C58 Row filters keep exactly the rows they describe** - mask algebra; the two ways conversions change which rows count as filled are refutations in `PropsFilters.v`.
- **C59 A header-only sheet reads as an empty table** - `_refuted` for every header-only sheet.
- **C60 dtypes casts exactly the requested columns** - map lemmas with an arbitrary cast function. The ids types are compared by are specified by the position in Arrow's `enum Type`, transcribed from memory of arrow/type_fwd.h (no copy in the sandbox).
- **C61 XLSX and XLSB deliver the same cells** - positive part (no empty rows) and `_refuted`.
- **C62 Relationship round trip** - XML attribute writer/reader fragment; positive part for plain characters, `_refuted` for markup characters; `PropsRels.v`: exactly those survive (a value is never longer than the text it is read from).
- **C63 Sheet parts are resolved as package paths** - target resolution of both sheet tables; relative targets proved, absolute ones `_refuted`.
- **C64 A sheet that is not a worksheet does not hide the others** - `_refuted` for xlsx (KeyError, for parts and for whole files), proved for xlsb when every sheet has a relationship; `_refuted` (RuntimeError for every sheet) when one has none.
- **C65 Timestamp to Excel serial** - Flocq exactness on whole days; `_refuted` before 1970.
- **C66 Blank strings stay null when a column is made numeric** - `_refuted`; positive part on the closed form of concatenate.
- **C67 Results do not depend on how cells are grouped into chunks** - positive part when no conversion is attempted; `_refuted` for values and type.
- **C68 skip_rows_after_header only acts under a header** - `_refuted` in general form.
- **C69 A workbook without shared strings can be read** - Workbook.v models `read` from the archive; `_refuted` for both formats in general form.
- **C70 Missing workbooks and sheets are reported** - case analysis of the same model, for all options.
- **C71 From the archive to the table** - composition of parts, sheets, columns and table: WorkbookSpec.v describes well-formed files and the value at each place, PlacesSpec.v the rows delivered and the table under every option in terms of places.
- **C72 Rows are where the file says they are** - positive for consecutively numbered rows; `_refuted` in general form.
- **C73 utf8_type_infers converts text columns of numbers** - `_refuted`: the argument is not used.
- **C74 A list of row filters means AND by default** - `_refuted`.
- **C75 Columns without header are named Unnamed: i** - `_refuted`.
- **C76 A list of names must match the columns** - case analysis of the model.
- **C77 The order of cells of different columns does not matter** - the state after collecting is a dict of columns; two states with the same columns in another order are related (`sim`, ReaderOrder.v) and every step of `read` respects it.
- **C78 Only the parts a sheet needs are read** - archives agreeing on five names give the same directory, sheet, styles and shared strings.
- **C79 Every number with an RK form survives f8_to_rk** - error bounds for one rounding (Flocq) around multiples of 1/100; bit-level argument for the float form (at most 19 significant bits); `C79_exact` says which RK values survive; `_refuted` for negative and large numbers.
- **C80 The compiled RK encoder agrees with the numpy one** - equal integer conversions inside int32; `_refuted` above; exact for every finite double (`C80_exact`, `C80_not_whole`).
- **C81 A smaller row limit only cuts off the end** - the two runs in lockstep until the smaller limit stops one of them; `_refuted` for .xlsx keeping empty rows.
- **C82 Every delivered cell respects the arguments** - invariants of both loops over arbitrary records and events, and that scanned data stands in the part.
- **C83 Exclusions only remove cells** - the two runs in lockstep; equal to a filter of the larger run; `_refuted` for .xlsx keeping empty rows.
- **C84 A sheet fails only through a malformed cell** - every failing step traced to its record or element.
- **C85 Undefined behaviour has one source** - every step of the pipeline (parsers, series, chunks, column stages) shown not to
  reach the model's `Undefined`, given that pending shared indices are in the table; witnesses for both formats.
- **C86 Later serials are not converted to earlier timestamps** - rounding to nearest and truncation are monotone; the offset is constant on each stretch; `_refuted` across the seams. `PropsDateOrder.v` bounds where inversions can be: rounding is monotone, so order is lost only where the offset changes.
- **C87 A timestamp survives the serial format up to one millisecond** - error bound of division, addition and product below 1/2 ms, then truncation.
- **C88 A column read is a function of its runs** - for every offset, length and mask: ReadSpec.v cuts the runs to the requested rows and says what becomes of each run; ReadProofs.v shows that the window loops cut exactly so and that the conversion passes compute it; ReadState.v describes the column afterwards.
- **C89 take(int) yields the element at the index** - slice arithmetic; `_refuted` for -1.
- **C90 A sheet read is a function of its cells** - TableSpec.v computes runs from cells and the table from the runs (`expected_table`), keeping the list of windows read so far; TableProofs.v relates the series object to the runs, TableSteps.v and TableRead.v follow the reader step by step using C88.
- **C91 A sheet read has no memory** - TableFresh.v: earlier windows only clear the raw flag of shared strings, which matters for one exception; `_refuted` there.
- **C92 Every exception of a sheet read has a known cause** - TableErrors.v: case analysis of `expected_table`, with the lengths of windowed answers.
- **C93 A damaged workbook is never read as if it were complete** - `PropsDamage.v`: `C93_xlsx_parts` (any of the four XML parts beside the sheet, arbitrary events before the error), `C93_relations` (the parser's own error), `C93_xlsx_sheet_refuted` and `C93_xlsb_refuted` (a cut part, at any byte, is read like the complete part of the records before the cut).
- **C94 Conversions that may fail keep what converts** - `PropsLax.v` (model: `Lax.v`): `C94_strptime`, `C94_strict` (the strict call raises exactly where the other leaves a 0), `C94_arrow`, `C94_utf8`, `C94_predicates`.
- **C95 The number-format scan is what its regular expressions mean** - `Regex.v` (a specification: syntax, backtracking semantics, `compile` from the pattern text), `PropsRegex.v`: `C95_sub`, `C95_search`, `C95_temporal`.
- **C96 The compiled column parser agrees with the interpreted one** - `PropsCols.v`: `C96_exact` (result in the int32 range, congruent modulo 2^32), `C96_letters_partial`, `C96_letters_refuted`.
- **C97 Every exception of reading a file has a known cause** - `FileSpec.v` (the causes), `RaiseProofs.v` (what a read of arbitrary cells can raise), `PropsCauses.v`: `C97_xlsx`, `C97_xlsb`, `C97_neither`, `C97_cells`.
- **C98 A run of cell records becomes one value per record, or raises** - `PropsShort.v`: `C98_shared`, `C98_numeric_exact` (raises iff the bytes together are no multiple of the width), `C98_one_partial`, `C98_empty_refuted`, `C98_joined_refuted`.
- **C99 How a sheet stores its cells does not change the table** - `SameSpec.v`, `SameProofs.v`, `PropsSame.v`: `C99_unmixed_partial`, `C99_runs_partial`, `C99_mixed_refuted`, `C99_nothing_left_refuted`.
- **C100 A workbook saved as .xlsb and as .xlsx gives the same table** - `PropsSame.v`: `C100_formats_partial` (from `b_window`, `x_window` and C99).
- **C101 A row callback that raises ends the read with its exception** - `QueueCalls.v` (model), `PropsCalls.v`: `C101_xlsx_first_refuted`, `C101_xlsx_later_refuted`, `C101_xlsb_partial`.
- **C102 What a workbook object delivers does not depend on its history** - `Objects.v` (model), `PropsObjects.v`: `C102_xlsx`, `C102_xlsb_exact`, `C102_null_keys`, `C102_xlsb_partial`, `C102_xlsb_refuted`, `C102_reopened_refuted`.
- **C103 A workbook object works only while it is open** - `PropsObjects.v`: `C103_not_entered`, `C103_closed`, `C103_closed_exact`, `C103_failed_open_refuted`.
- **C104 Iterations of one workbook at the same time do not disturb each other** - `Generators.v` (generators as suspended loops, schedules), `PropsGenerators.v`: a stretch of the loop up to the next `yield` is an unfolding of Xlsb.v's loop; induction over the schedule with cached styles and a growing null_shared as invariant.
- **C105 A file that is read is sound** - `DefectSpec.v` (sound parts, in terms of members, XML events and records), `PropsDefects.v`: equivalences by induction over events and records; the reading direction from the fact that a table needs a delivered cell. `PropsDefectRows.v`: which records are looked at under skip_rows/take_rows (`looked_at`, counting row headers), and the equivalence for kept rows.
- **C106 Rows not asked for have no influence** - `WindowSpec.v` (parts of a column), `WindowProofs.v` (a read of a window commutes with cutting the cells to that window: groups, runs, pieces), `PropsWindow.v`: the table without memory (C91) asks the sheet through windows only; `TableCalm.v`: when that table cannot be disturbed by dates.
- **C107 A column depends on its own sheet column and the filter columns** - `PropsWindow.v`, `PropsWindow2.v` (lookup and filters, without memory): from the table computed from the cells (C90); what the header read leaves behind for a column is a function of that column.
- **C108 The compiled integer test and RK encoder** - `Compiled.v` (numba's np.round), `PropsCompiled.v`: the two roundings are equal unless the product overflows, by the correctness theorems of Flocq; then one gives the number itself, the other infinity. The error bound of C39 for all sizes is here too (relative errors of one product and one quotient).
- **C109 What lies behind the row limit is not looked at** - `PropsLimit.v`, `PropsLimitFile.v` (tables of whole files): induction over records or events with the invariant that the last row has been reached and is not empty; splitting of the scan from C03.
- **C110 The default date formats** - `PropsFormats.v`: layouts as inductive predicates, membership by enumeration, order as `sooner`; values through C49_exact.
- **C111 Which texts are read as integers, and which space is cut off** - `IntText.v` (grammar as inductive predicate, equivalence with `py_int`), `PropsTexts.v`; prompted by a surviving wrong `is_digit`. Anchors the uses of `py_int` and `strip` in the specifications.
- **C112 A relationship is written with its type** - `PropsRelType.v`: the attribute a conforming parser finds, against the type URIs of ECMA-376; prompted by a surviving wrong `RELS_NS`. The prefix is a fact about `rels.py:12`, the URIs are from memory of the standard.
- **C113 Relationship targets are resolved as relative references** - PropsUri.v: RFC 3986 path resolution against `xl/` prefixing; right exactly for relative paths without dot segments, `_refuted` otherwise.
