# Formal model of ecmwf/odc in Rocq (Coq 8.16.1)

Everything is in `rocq/theories` (logical name `Verif`).  The model is a set of computable
Gallina functions; each definition carries a comment citing the file and lines of
`/repo/src/odc` it models and what it simplifies.

## 1. Modelling decisions

* **Outcome.**  `outcome A = Ok a | Throw e | UB`.  `Throw` is a C++ exception (`ASSERT`
  failures included: eckit's `ASSERT` throws).  `UB` is undefined behaviour (out-of-bounds
  access, float to integer conversion out of range, buffer overrun, a loop that does not end
  where a fuel argument stands for it); a theorem that concludes `Ok` also excludes UB.
* **Bytes** are `Z` in `0..255`; a memory cell or stream is `list Z`.  The host is little
  endian; a file is little endian (`LE`, the library's `SameByteOrder`) or big endian (`BE`,
  `OtherByteOrder`).
* **Doubles and floats** are their bit patterns (`Z` in `0..2^64-1`, `0..2^32-1`).  `Fp.v`
  gives IEEE-754 comparison, addition, subtraction, division (for the comparator),
  int<->double conversion and double->float rounding (nearest-even), by exact integer
  arithmetic on values scaled by 2^1074.
* **A table cell** is the byte string found at a `StridedData` element (8 bytes for numeric
  columns, 8*k for strings).  Where memory matters (C26, C31, C40, C48) it is modelled byte
  by byte.
* **Codecs** are records (kind, value type, byte order, statistics, string table, decoded
  size) with `encode`, `decode`, `skip`, `gather`, `load`, `save`.
* **MD5** is a parameter `md5 : list Z -> list Z` of which only the length (32) of the result
  is assumed.  `Md5.v` implements it to run the model on real files; `Quick.v` is a cheap
  digest for the concrete cases.
* **Uninitialised memory** is a parameter (`junk`): theorems hold for every content.
* **Files** are byte lists; a data handle is a file plus a position; the file system
  (dispatching writer) is a map from names to byte lists with directories.
* **Threads** are interleaved at single memory accesses (C31) or at the granularity of the
  code's critical sections (C32, C33).
* **Loops** whose end depends on data take fuel; theorems state that enough fuel exists and
  that the result does not depend on it (or that no fuel suffices: C24_zero_refuted).

## 2. Structure

Model files follow the source: Base, Fp, Stream (core/DataStream), Codec (core/Codec,
codec/*), Meta (core/Column, core/MetaData, codec/CodecOptimizer), Header, Encoder
(core/Encoder, api encode), Table (core/Table), Reader (core/TablesReader, api Reader and
Frame), Iterators, Frame (FrameImpl::decode), Strided, MemDecode, SharedHandle, Span,
ColumnInfo, Writer (WriterBufferingIterator), RowReader (ReaderIterator), CDecoder, CEncoder (odc.cc),
Comparator, Copy (pass1), Dispatcher (WriterDispatchingIterator, TemplateParameters), Csv
(csv/TextReaderIterator), Scan (RowsCounter, CountTool, Indexer, SplitTool::getChunks),
Setter (ODAUpdatingIterator, SetTool), Merge (MergeTool), MdSet (MDSetTool, StringTool), Query (sql/TODATableIterator), OldApi (odccapi.cc without odb_select_*), OdaOut (sql/ODAOutput), CFrames (readers and frames of api/odc.cc), Fortran (api/odc.f90), SelectOut
(sql/SQLSelectOutput, SelectIterator and odb_select_iterator_get_next_row), Filter (api/Odb.cc: filter, FrameImpl::filter, SerialTableReadHandle), Verify (WriterDispatchingIterator::verify, SplitTool::split), Index (Indexer::createIndex), Compact (CompactTool::run), CommandLine (CommandLineParser), HeaderTool (OffsetsPrinter and DDLPrinter of ODAHeaderTool.cc), SqlTable (TODATable), LsTool (LSTool::printData), ToolMain (CompareTool, ImportTool and CountTool from the command line on), ToolMore (MergeTool from the command line on, the input of SQLTool), SqlOut (the query and the output of SQLTool, SQLOutputConfig), ToolRest (the same for SetTool, MDSetTool, CompactTool, FixedSizeRowTool, IndexTool, LSTool, HeaderTool, SplitTool).

Specifications - Spec, ReadSpec, RowSpec, RowList, WriterSpec, ComparatorSpec, CopySpec,
DispatchSpec, CsvSpec, CEncSpec, CCallSpec (what a history of calls asks for), ScanSpec, SetSpec, MergeSpec, MdSpec, QuerySpec, OldSpec, OdaSpec, AgreeSpec, FramesSpec, FortranSpec,
SelectSpec, FilterSpec, VerifySpec, IndexSpec, CompactSpec, CommandLineSpec, HeaderToolSpec, SqlTableSpec, LsSpec, ToolSpec - say what the properties mean without the functions of the model:
as relations on values, rows and texts.  Theorems about properties are in `P_*.v` and are
named after the property (`C19_roundtrip`).  Concrete cases that meet the hypotheses, and
counterexamples (suffix `_refuted`), are beside them or in `*Witness.v`.  Everything else
is lemmas.

## 3. Validation of the model against real data

`GoldenData.v` holds the ODB-2 files shipped in `/repo/docs/_static` as byte lists, and
`Golden.v` runs the model on them with the real MD5: headers are accepted, the digest
agrees, rows decode, and encoding the decoded rows with the model gives the bytes of the
file again.  The edited models under `seeded/LOG.jsonl` show which theorems notice which
bugs.

## 4. Trusted base

* Coq 8.16.1's kernel (`coqc`, and `coqchk` run by vcheck), including `vm_compute` for the
  concrete cases.
* `Print Assumptions` gives "Closed under the global context" for every theorem named in
  MANIFEST.json (the files print it).  vcheck lists seven constants of
  `Coq.ssr.ssrunder` (`Under_rel.*`): opaque module-type fields of the standard library that
  coqchk reports because a library module is loaded; no theorem uses them.  No axioms are
  declared; no sections are left open; no functors or module types are defined.
* The model is a faithful rendering of the code: read by hand, function by function, and
  checked on the golden files only.
* Not part of odc and taken as described in the comments where used: eckit's DataHandle,
  Buffer, Tokenizer, StringTools, Translator (a parameter), MD5 (a parameter), PathName and
  file handles, `ASSERT`; the C++ standard library (std::map ordered by key, std::getline,
  atoi, stable iteration); the platform (x86-64, little endian, IEEE-754, round to
  nearest even, two's complement, `long` of 64 bits).

## 5. Modelled and not modelled

Modelled: the files named in section 2, in the parts the properties use.  Simplifications
are stated at each definition; the main ones: exceptions carry a kind and not a message;
allocation never fails; sizes are unbounded integers except where the code's type can wrap
and the wrap matters (row markers, 32-bit fields, size_t of parsed bitfields, uint8 bit
offsets); destructors that flush (`~WriterBufferingIterator`) are modelled as `close`.

Not modelled: the SQL engine and everything that needs it (parsing and executing SELECT, sql/* other than TODATable, TODATableIterator, ODAOutput and SQLSelectOutput,
ODATranslator), the command-line
tools other than the functions above, Block, MDSetter, ODAHandle, ODBTarget,
TemplateParameters of more than what a file name needs,
properties given to the dispatching writer (the code drops them), real time, memory
exhaustion, and the operating system's file semantics beyond read, write, append and
create-directory.

## 6. Properties

<!-- table -->
| id | property | modelled, and how it is proved | status | theorems |
|----|----|----|----|----|
| C01 | Stream primitives round-trip in both byte orders | DataStream read/write of every type (Stream.v), both byte orders; induction on values and lists | proved | C01_i32, C01_i64, C01_double, C01_string, C01_strings, C01_ints, C01_map |
| C02 | A read never runs past the end of a stream | the same reads on arbitrary bytes; locality lemmas (StreamLocal.v) | proved | C02_raw, C02_local, C02_short, C02_short_string |
| C03 | Encoded header bytes do not depend on the configured header buffer size | serializeHeader with its grow-and-retry loop on a buffer of given capacity (Header.v); the length of a header is bounded (HeaderSize.v), capacity monotone | proved | C03_buffer_size, C03_too_small, C03_witness |
| C04 | Header round-trip | Header, MetaData, Column and codec save/load; structural round trip | proved | C04_header, C04_witness |
| C05 | A corrupt header is never accepted | Header::load on arbitrary bytes, digest a parameter; inversion of the load | proved | C05_accepted, C05_end, C05_altered, C05_witness |
| C06 | Truncation is detected at every crash point | Table::readTable on truncated and padded files, TablesReader; prefix/suffix lemmas | proved | C06_tables, C06_reader, C06_witness, C06_unknown_size_refuted, C06_aggregated_loss |
| C07 | Column statistics are exact | Codec::gatherStats over a column; invariant by induction (GatherProofs.v) | proved | C07_integers, C07_reals, C07_witness |
| C08 | When NaN data survives in DOUBLE columns | the same with NaN and signed zeros (NanProofs.v); exact characterisation and counterexample | proved | C08_exact, C08_refuted, C08_witness |
| C09 | Integer columns round-trip exactly (32-bit range) | one column through encode, read, decode (Api.v): all codecs and CodecOptimizer | proved | C09_int32, C09_witness |
| C10 | Integers outside the 32-bit range survive when the column spans less than 65535 | the integer codecs beyond 32 bits; counterexamples | proved | C10_close_values, C10_close_values_witness, C10_refuted |
| C11 | Integer columns occupy the documented width | missing integers: the IntegerMissing codecs | proved | C11_width, C11_witness |
| C12 | REAL columns lose precision only by rounding to single precision | REAL columns: rounding to single precision, proved nearest (FpNearest.v) | proved | C12_rounding, C12_meaning, C12_witness |
| C13 | Which REAL columns can be encoded | REAL columns with missing values: the two marker values | proved | C13_exact, C13_refuted, C13_witness |
| C14 | DOUBLE columns are bit-exact | DOUBLE columns: bit for bit | proved | C14_double, C14_witness |
| C15 | When the sign of zero survives in DOUBLE columns | the columns for which an optimised codec may be chosen | proved | C15_exact, C15_refuted, C15_witness |
| C16 | STRING columns round-trip | string codecs: tables of strings, long strings | proved | C16_texts, C16_too_many, C16_too_many_table, C16_witness, C16_narrow, C16_long_strings_refuted |
| C17 | Skipping a value consumes the same bytes as decoding it | Codec::skip against Codec::decode; case analysis over codecs | proved | C17_skip, C17_witness |
| C18 | Data written in foreign byte order decodes identically | every definition is parameterised by the byte order of the file | proved | C18_byte_order |
| C19 | Frame encode/decode round-trip | encodeFrame, readTable, Table::decode composed (Roundtrip.v) | proved | C19_roundtrip, C19_witness, C19_computed |
| C20 | Row compression is transparent | Table::decode as loop over rows; invariant against a forward-fill specification (RowSpec.v) | proved | C20_rows, C20_transparent, C20_witness, C20_computed |
| C21 | Decoding a subset of columns is a projection | the same loop with fewer columns; simulation for arbitrary content (ProjectProofs.v) | proved | C21_subset, C21_projection, C21_untouched, C21_witness |
| C22 | Column lookup when decoding | decoding and the position of the data handle | proved | C22_accepted, C22_refused, C22_select, C22_witness |
| C23 | Splitting into frames preserves the rows | encode with maxRowsPerFrame; induction on the remaining rows | proved | C23_roundtrip, C23_pieces, C23_rows, C23_witness, C23_computed |
| C24 | Encoding terminates exactly when a frame may hold a row | the loop itself, with the non-terminating case | proved | C24_terminates, C24_zero_refuted, C24_witness |
| C25 | Row markers do not wrap below 65536 columns | row markers of two bytes; arithmetic and a table with 65536 columns | proved | C19_roundtrip, C20_transparent, C25_refuted |
| C26 | Strided fill and slice touch exactly what they should | StridedData over byte memory (Strided.v); pointwise lemmas | proved | C26_fill, C26_fill_refused, C26_slice, C26_slices, C26_new_value, C26_large_offset_refuted, C26_zero_stride_refuted, C26_witness |
| C27 | Concatenated ODB streams read as the concatenation of their frames | TablesReader over concatenations of frames | proved | C27_concat, C27_tiling, C27_encoded, C27_witness, C27_computed |
| C28 | Aggregated reading preserves the rows | ReaderImpl::next, aggregation with a row limit (AggregateProofs.v) | proved | C28_aggregate, C28_witness |
| C29 | Aggregated frames respect the row limit | MetaData::compatible as the rule for aggregation | proved | C29_complete, C29_too_large, C29_witness |
| C30 | encodedData returns exactly the source bytes | encodedData: slices of the file | proved | C30_encoded, C30_witness |
| C31 | Multi-threaded decoding equals serial decoding | decode with worker threads pulling tables; small-step interleaving at single memory accesses, invariant over schedules (ThreadProofs.v) | proved | C31_threads, C31_terminates, C31_progress, C31_race_free, C31_completes, C31_failure, C31_zero_threads_refuted, C31_witness, C31_computed, C31_failure_witness |
| C32 | Shared data handles are isolated | ThreadSharedDataHandle; invariant over interleaved operation sequences | proved | C32_isolated, C32_seek_read, C32_exclusive, C32_progress, C32_witness |
| C33 | Table iterators are independent and complete | TablesReader iterators sharing the reader; invariant over interleavings | proved | C33_iterators, C33_witness, C33_restart |
| C34 | The span of a frame is its set of values | Table::span, decodeSpan, Span; decoded values as a set (SpanProofs.v, SpanTable.v) | proved | C34_span, C34_frame, C34_no_rows_refuted, C34_long_constant_refuted, C34_leading_missing_refuted, C34_witness, C34_computed |
| C35 | Frame properties merge with first table winning | properties of frames and of aggregates | proved | C35_properties, C35_witness |
| C36 | Row-wise write then read returns the same rows | WriterBufferingIterator and ReaderIterator; simulation over every call sequence | proved | C36_roundtrip, C36_columns, C36_witness, C36_computed, C36_int64 |
| C37 | Row-wise writer frame sizes and completeness | explicit flush, close, and frame boundaries; the same simulation | proved | C37_frames, C37_split, C37_full, C37_flush, C37_interrupted, C36_witness, C36_computed |
| C38 | A custom missing value set on a writer column is forgotten after the first frame | custom missing values in the writer; general statement of the defect | proved | C38_forgotten, C38_refuted |
| C39 | Column name matching | columnIndex: names and names with table | proved | C39_column_index, C39_witness |
| C40 | C API decode layouts | odc_decode_threaded and its decoder object in memory (CDecoder.v); index arithmetic, and composition with C19 | proved | C40_decode, C40_reuse, C40_roundtrip, C40_witness, C40_computed, C40_mixed_witness, C40_lowered_rows_refuted, C40_size_refuted, C40_stride_refuted, C40_no_rows_refuted |
| C41 | Bitfield member offsets | FrameImpl::columnInfo, bitfield offsets | proved | C41_offsets, C41_roundtrip, C41_capi, C41_wraps_refuted, C41_witness |
| C42 | Compatible tables have the same columns | column selection by name in decode targets | proved | C42_compatible, C42_witness, C42_repeated_refuted, C42_bitfields_refuted |
| C43 | Comparing two files | Comparator over two row readers; case analysis, floating-point monotonicity (FpCompare.v) | proved | C43_sound, C43_complete, C43_numbers, C43_self, C43_symmetric, C43_witness, C43_computed, C43_infinity_refuted, C43_integers_refuted, C43_int64_refuted, C43_frames_refuted |
| C44 | Splitting by column values partitions the rows | WriterDispatchingIterator over a model of named files; invariant over rows | proved | C44_split, C44_open, C44_number, C44_numerals, C44_text, C44_witness, C44_witness_split, C44_replaced_refuted, C44_fraction_refuted, C44_offset_refuted, C44_values_refuted, C44_directory_refuted |
| C45 | Text import: header, rows and values | TextReaderIterator, odbFromCSV; induction on lines, then the copy loop of C49 | proved | C45_import, C45_refused, C45_witness, C45_refused_witness, C45_blank_refuted, C45_integers_refuted, C45_empty_refuted, C45_members_refuted |
| C46 | Frames of one encode call are independent, and a failing call leaves whole frames | encode failing in the middle; frames as independent pieces | proved | C46_frames, C46_witness |
| C47 | A constant infinity with missing values is not encoded safely | CodecOptimizer on infinities with missing values | proved | C47_refuted, C47_never, C47_witness, C13_exact, C14_double |
| C48 | Decoding into caller-supplied memory writes the decoded elements and nothing else | Table::decode writing to arrays in memory (MemDecode.v); simulation with the list decoder | proved | C48_memory, C48_witness |
| C49 | Copying a file row by row preserves all rows | pass1: rows of one file copied to another, columns changing on the way; simulation | proved | C49_copy, C49_bitfields, C49_ordinary, C49_witness, C49_bitfields_refuted |
| C50 | Encoding through the C API encodes the values at the stated places | C API encoder: histories of calls, array layouts, transposed copies; invariant of histories, then encode() of the values at the places | proved | C50_encode, C50_inside, C50_reads, C50_buffer, C50_bitfields, C50_roundtrip, C50_through, C50_again_refuted, C50_reuse, C50_witness, C50_computed, C50_rows_refuted, C50_rejected_refuted, C50_wide_refuted, C50_negative_refuted, C50_buffer_witness, C50_columns, C50_settings, C50_calls_witness |
| C51 | Row counts, block lists and chunks agree with the tables of the file | the loops over TablesReader's iterator equal folds over the sequential read; invariant of groups of frames for the chunks | proved | C51_rows, C51_cut, C51_files, C51_encoded, C51_blocks, C51_parts, C51_chunks, C51_sizes, C51_index, C51_index_rows, C51_lost_refuted, C51_witness, C51_computed, C51_lost_computed, C51_size_refuted, C51_tool |
| C52 | Setting columns to constants changes these columns and nothing else | updating iterator in front of pass1; simulation against rows with the assignments carried out (SetSpec.v), then C49's session invariant | proved | C52_set, C52_exists, C52_unknown, C52_parse, C52_tool, C52_text, C52_witness, C52_computed, C52_wide_refuted |
| C53 | Merging files puts their rows side by side | inputs as row iterators, output row buffer kept between rounds (invariant: zero after the first double of each cell), C49's session invariant for the writer | proved | C53_merge, C53_cut, C53_exists, C53_clash, C53_none, C53_witness, C53_computed, C53_long_refuted, C53_order_refuted, C53_changing_refuted |
| C54 | Rewriting headers changes what was asked for and nothing else | headers as functions of the loaded columns; load after save (inverse lemmas for load); decoding with changed codecs by simulation (C54_untouched) and by re-reading the encoder's rows with the new codec (C54_values) | proved | C54_tables, C54_misfit, C54_no_type, C54_two_values, C54_cut, C54_untouched, C54_values, C54_encoded, C54_members_refuted, C54_text, C54_table, C54_witness, C54_computed, C54_misfit_computed |
| C55 | A query is given the named columns of every row | the iterator as a state machine over the row reader; invariant that the column places are those of the table of the current row; rewind from any reachable state | proved | C55_rows, C55_refused, C55_rewind, C55_rewind_refuted, C55_rewind_witness, C55_witness, C55_computed |
| C56 | The older C interface delivers the rows of a file | calls as a fold over the row reader, simulated by the list of rows (any counts and buffers); sessions by composing with C36_columns | proved | C56_calls, C56_places, C56_overrun, C56_poll, C56_missing, C56_bitfields, C56_session, C56_session_poll, C56_wrong_count, C56_witness, C56_lost_refuted, C56_overrun_refuted, C56_texts |
| C57 | The ODB file written from a query's results holds those results | the output object as a state machine over the modelled writer; session invariant of C49 extended by the row buffer, the widths and the missing values; resizing by replacing columns one by one | proved | C57_output, C57_ordinary, C57_retyped, C57_too_long, C57_witness, C57_file, C57_ambiguous_refuted |
| C58 | Reading row by row and decoding table by table give the same data | row iteration is unrolled table by table (the position reached is that of the table reader); inside a table both decoders are shown to give the latest stored value by induction over the stored rows | proved | C58_agree, C58_written, C58_results, C58_witness, C58_marker_refuted |
| C59 | Readers and frames of the C interface are windows on the data | simulation: an invariant relates every handle of the code to one of the specification and is kept by each call; cut data by an invariant on the readers | proved | C59_frames, C59_truncated, C59_data, C59_witness, C59_mode_refuted, C59_properties_refuted, C59_truncated_witness |
| C60 | The Fortran interface does what the C interface does | the saved variables are shown to hold the last value passed by induction over the program; the calls issued are compared with their documented meaning; layouts by arithmetic on addresses and C50_through | proved | C60_calls, C60_documented, C60_means_one, C60_frames, C60_replies, C60_array, C60_roundtrip, C60_elements, C60_witness, C60_elements_witness, C60_leftovers_refuted, C60_section_refuted |
| C61 | A query's rows in a buffer of doubles | an invariant ties the object to the columns and buffer in force; it is kept by every event, also refused ones; the loop over the results by induction on the columns | proved | C61_story, C61_session, C61_witness, C61_session_witness, C61_larger_buffer_refuted, C61_count_ignored_refuted, C61_wider_rows_refuted |
| C62 | Filtering a frame or file with a query | the invariant of C61 gives each row's bytes; the writer's session invariant of C49 (for arbitrary rows) gives the frames; C29 how they are grouped; the handle by induction on the reads | proved | C62_filter, C62_refuses, C62_refuses_witness, C62_stream, C62_frame, C62_one_frame, C62_ordinary, C62_witness, C62_one_witness, C62_widths_refuted |
| C63 | Verifying a split | the invariant of C44 gives the state after pass1; a second invariant (files by index, readers by rows used up) for the loop of verify; the rows read back with their codecs' missing values for the clean case | proved | C63_counts, C63_clean, C63_witness, C63_evicted_refuted, C63_extra_refuted, C63_other_file_refuted |
| C64 | The index file | C51 for the blocks and runs; the loop over the blocks is shown to be one list of rows, all of ordinary 32-bit integers, so that C36 gives the file; induction over the blocks for what the entries mean | proved | C64_index, C64_count, C64_find, C64_unique, C64_witness, C64_unique_refuted, C64_int64_refuted, C64_large_refuted |
| C65 | Compacting a file | an invariant of the copy loop for rows of the same columns gives the frames; the flag of a column is followed through gathering, optimizing, saving and loading (FlagProofs.v); C43 gives both directions of the verification | proved | C65_compact, C65_frames, C65_sound, C65_witness, C65_joined_refuted |
| C66 | The command line of a tool | the loop over the words is followed item by item of the reading; what the parser then holds is an invariant of all further calls | proved | C66_queries, C66_incomplete, C66_reading, C66_witness, C66_incomplete_witness, C66_negative_refuted, C66_retry_refuted |
| C67 | What the header tool prints | the loop over the tables is the scan of C51; the runs are built by induction on the frames; the text is cut into lines, each of which is read back at its spaces and commas | proved | C67_offsets, C67_ddl, C67_readable, C67_witness, C67_computed, C67_members_refuted, C67_names_refuted |
| C68 | The column a name in a query denotes | the count of hasColumn and the loop of column are compared; the columns told correspond place by place to those of the row, so the rule on names follows by cases; the query is that of C55 on the names that were found | proved | C68_told, C68_names, C68_rows, C68_shadowed, C68_witness, C68_computed, C68_exact_refuted |
| C69 | The listing of a file shows its rows | the exact value of a double is an integer over 2^1074, so the text is the numeral of a rounded integer; induction over the rows of the iterator; the text is cut at line breaks and tabs, and the first character of a field tells its kind | proved | C69_lines, C69_readable, C69_witness, C69_computed, C69_small_refuted, C69_bit31_refuted |
| C70 | The compare tool | the tool's calls on the parser are a history of calls, so C66_queries gives the answers; then C43 | proved | C70_compare, C70_refused, C70_witness, C70_computed, C70_missing_refuted |
| C71 | The import tool | the same with C45; the delimiter is computed and not used | proved | C71_import, C71_delimiter_refuted, C71_witness, C71_semicolon_refuted |
| C72 | The merge tool | the parser after it has read a command line (P_CommandLine), then C53 | proved | C72_merge, C72_no_output_refuted, C72_odd_refuted, C72_witness, C72_computed |
| C73 | The part of a file the sql tool looks at | the same, and the places of groups of frames (C51_parts) | proved | C73_part, C73_witness, C73_first_refuted |
| C74 | The tools that rewrite a file, from the command line on | the parser after it has read a command line, then C52, C54, C64 and C65 | proved | C74_set, C74_mdset, C74_compact, C74_index, C74_refused, C74_witness, C74_computed |
| C75 | The tools that show a file, from the command line on | the same, then C67 and C69 | proved | C75_ls, C75_offsets, C75_ddl, C75_refused, C75_witness |
| C76 | The split tool | the same, then C44 and C63 | proved | C76_split, C76_verified, C76_sort_refuted, C76_witness |
| C77 | What the sql tool is asked and where its results go | the parser after it has read a command line; induction on the text searched | proved | C77_query, C77_text, C77_odb, C77_refused, C77_witness, C77_computed, C77_dash_refuted |
<!-- end table -->

## 7. Defects found

Each has a machine-checked counterexample in the model (`*_refuted`, or the theorem named).

1. NaN after a non-NaN value is ignored by the statistics and silently corrupted; with a
   missing value the encoder converts an out-of-range double (C08, C14, C47).
2. INTEGER values outside 32 bits are truncated or undefined (C10).
3. A REAL column with -FLT_MAX but not FLT_MAX throws (C13).
4. The row writer forgets a custom missing value after the first frame (C38).
5. encode with maxRowsPerFrame = 0 does not end (C24).
6. A table with 65536 or more columns is corrupted: the row marker wraps (C25).
7. headerBufferSize below 57 overruns the buffer (C03).
8. Bitfield offsets wrap at 256 in columnInfo; `compatible` ignores bitfields (C29, C41).
9. Spans of frames without rows, of long constant strings, and of rows that leave out a
   leading column (C34); -0.0 comes back as 0.0 (C15).
10. StridedData with stride 0 or offsets of 2^31 and more (C26).
11. C API: a lowered row count, a size without a stride, a missing row count (C40).
12. The comparator accepts rows it should not (C43); pass1 ignores changed bitfield
    definitions (C49).
13. The dispatching writer overwrites, truncates and merges files for some values (C44).
14. Text import ends at a blank line without an error, corrupts integers when integers are
    not kept as doubles, and accepts negative bitfield sizes (C45).
15. C API encoder: a second array with other columns is read with stale widths, a row count
    that disagrees with the array is not noticed, negative and wide values pass (C50).
16. `odc split -sort` of a file whose first table is larger than the chunk size loses the
    whole file when the rest fits in one chunk; chunks may exceed the size (C51).
17. `odc set` on a file with a text column wider than eight bytes reads beyond the row (C52).
18. `odc merge` cuts texts longer than eight bytes, writes values under the wrong names when the columns of an input change, and accepts or refuses `e` with `e@t` depending on the order of the files (C53).
19. `odc mdset` cannot set members of a bitfield (the text is cut at every ':' first; `[ab]` reads beyond a vector), silently leaves long constant texts unchanged, and aligns quoted texts to the right (C54).
20. `TODATableIterator::rewind` keeps the column places of the last table read and the first row after it is not announced as a new data set, so a query that passes over a file twice reads the wrong columns when tables are laid out differently (C55).
21. The older C interface loses the first row of a table whose number of columns differs from the one before (it is consumed and then refused), overruns the caller's buffer when texts get longer in a later frame, and accepts a column index one too large for missing values (C56).
22. ODAOutput looks a column of texts up by its title when it has to be widened: with the titles s and s@t the query ends with AmbiguousColumnException (C57_ambiguous_refuted).
23. A row whose marker is past the last column is harmless when the rows are iterated over, and makes Table::decode read past its vectors (C58_marker_refuted).
24. C interface: whether frames are aggregated, and up to how many rows, is fixed by the first call to advance on a reader; later requests are silently ignored (C59_mode_refuted).
25. C interface: odc_frame_property_idx checks its index only on the first call; later a wrong index, any index after the end of the data, and any index in a copy whose original has moved on read through dangling iterators; odc_copy_frame of a frame that shows nothing dereferences null (C59_properties_refuted).
26. Fortran interface: the defaults of optional arguments are initialisers of local variables, which implies SAVE, so an omitted argument takes the value passed last in the program and not the documented default: after one set_data(..., column_major=.false.) all later set_data(data) calls are row major, frame%next() goes on aggregating, and column_set_data_array without data reuses an old pointer (C60_leftovers_refuted).
27. Fortran interface: array sections that are not contiguous are accepted and read as if they were (C60_section_refuted).
28. SQLSelectOutput::resetBuffer accepts a buffer larger than a row, but then every row fails its ASSERT(pos_ == end_) (C61_larger_buffer_refuted).
29. odb_select_iterator_get_next_row ignores its count argument and writes a whole row into a buffer however small (C61_count_ignored_refuted).
30. odb_select_iterator_get_next_row sets the buffer's size before the query may announce wider rows: the first wider row is lost with an exception, and the next call writes behind the buffer sized for the rows so far (C61_wider_rows_refuted).
31. Frame::filter asserts that the result is one frame "as it should have a consistent structure", but the frames of a result of more rows than fit one frame are incompatible when the longest texts of a string column differ between them: the query is carried out and then an exception is raised (C62_widths_refuted).
32. SerialTableReadHandle::openForRead returns the length of the first table only, for a frame of several (C62_stream, C62_one_witness).
33. WriterDispatchingIterator::verify reports differences for files that are right, if more files were written than may be open: files_ holds the names of the last files only, and their readers start at the first row (C63_evicted_refuted). The result is only logged; the tool succeeds.
34. verify does not notice rows too many at the end of a file (C63_extra_refuted).
35. verify takes the parameters of the template as parsed for the last table of the input, not the first: if their columns are in different orders it opens, and so empties, files of other names (C63_other_file_refuted).
36. Indexer::createIndex stores doubles in INTEGER columns whatever the settings: without integers as doubles the index holds the bit patterns (C64_int64_refuted). Offsets from 2 GiB on do not fit the format: the conversion is undefined behaviour (C64_large_refuted). The help of the tool says there is one entry for each seqno and block, but a seqno that comes back after another has several (C64_unique_refuted).
37. CompactTool::run and FixedSizeRowTool::run compare the "has missing" flags of the columns too: when a table with missing values is joined with one without, or cut, the tool fails although the copy is right (C65_compact says exactly when, C65_joined_refuted). Besides, they read the output before the writer has closed it.
38. CommandLineParser takes every word that begins with '-' for an option, so that a negative number cannot be a parameter (C66_negative_refuted); and a question that was refused leaves what it had read, so that a later one that succeeds returns the parameters twice (C66_retry_refuted).
39. DDLPrinter (odc header -ddl) compares columns without the members of bitfields: frames that differ in these only are declared as one table with the members of the first (C67_members_refuted). A column "lat@hdr" and a column "lat" are declared under the same name (C67_names_refuted). For a column of another type it throws a pointer, which no handler catches.
40. TODATable finds the column whose name is exactly the one in the query, but the iterator then looks that name up with MetaData::columnIndex, which takes "b@x" for "b" too: in a file with the columns "b" and "b@x" every query for "b", and so every "select *", ends with an error (C68_shadowed, C68_exact_refuted).
41. LSTool casts the values of integer and bitfield columns to int: for a bitfield with bit 31 set this is undefined (C69_bit31_refuted). It prints numbers with six digits after the point: anything smaller than half a millionth is listed as 0.000000 (C69_small_refuted).
42. CompareTool passes `checkMissing` to the parameter `skipTestingHaveMissing` of Comparator (CompareTool.cc:73-74, Comparator.h:40): `odc compare` does not compare whether columns have missing values, and with -dontCheckMissing it does (C70_missing_refuted).
43. ImportTool ignores the delimiter given with -d unless a query is given: run calls odbFromCSV without it (ImportTool.cc:79; C71_delimiter_refuted, C71_semicolon_refuted).
44. MergeTool makes an exception and does not throw it when -o is missing (MergeTool.cc:49-50): the result is written to a file called `<no-default>` (C72_no_output_refuted). With -S and an odd number of parameters it reads past the end of the parameters (C72_odd_refuted).
45. SQLTool ignores -length when -offset is 0, so the first block of a file cannot be queried alone; with -offset and no -length it looks at no bytes at all (SQLTool.cc:126-131; C73_first_refuted).
46. SplitTool with -sort ignores -maxopenfiles and never verifies, with or without -no_verification (SplitTool.cc:57-61; C76_sort_refuted).
47. SQLTool opens the argument of -o for text as it stands: `-f ascii -o -` writes a file named "-" instead of the standard output, and without -f it opens (creates, empties) a file of that name although the results are written as ODB, so a template leaves an empty file of its own name (SQLTool.cc:74-81, 111-115; C77_dash_refuted). A file with a query whose name contains "select" is taken as the query itself (StringTool.cc:184-186; C77_computed).
48. XYVTool writes latitude and longitude in this order below a heading that says "x/long y/lat" (XYVTool.cc:50-60; not modelled).

## 8. Wrong programs

`tools/mutate.py` applies an edit to a scratch copy of the model, rebuilds, and appends to
`seeded/LOG.jsonl` the theorems that fail.
