{
 "claims": [
  {
   "property": "C01",
   "status": "proved",
   "theorems": [
    "C01_i32",
    "C01_i64",
    "C01_double",
    "C01_string",
    "C01_strings",
    "C01_ints",
    "C01_map"
   ],
   "note": "core/DataStream.h primitives, both byte orders"
  },
  {
   "property": "C02",
   "status": "proved",
   "theorems": [
    "C02_raw",
    "C02_local",
    "C02_short",
    "C02_short_string"
   ],
   "note": "reads are local to the bytes consumed; short streams raise ODBEndOfDataStream"
  },
  {
   "property": "C03",
   "status": "proved",
   "theorems": [
    "C03_buffer_size",
    "C03_too_small",
    "C03_witness"
   ],
   "note": "same bytes for every initial size >= 57; below 57 undefined"
  },
  {
   "property": "C04",
   "status": "proved",
   "theorems": [
    "C04_header",
    "C04_witness"
   ],
   "note": "both byte orders"
  },
  {
   "property": "C05",
   "status": "proved",
   "theorems": [
    "C05_accepted",
    "C05_end",
    "C05_altered",
    "C05_witness"
   ],
   "note": "for every digest function; a frame is returned only when the stored digest equals the digest of the header body"
  },
  {
   "property": "C07",
   "status": "proved",
   "theorems": [
    "C07_integers",
    "C07_reals",
    "C07_witness"
   ],
   "note": "statistics of the codec the encoder stores in the header"
  },
  {
   "property": "C08",
   "status": "proved",
   "theorems": [
    "C08_exact",
    "C08_refuted",
    "C08_witness"
   ],
   "note": "exact characterisation; C08_refuted exhibits the defect"
  },
  {
   "property": "C09",
   "status": "proved",
   "theorems": [
    "C09_int32",
    "C09_witness"
   ],
   "note": "encode_frame then read_table and decode"
  },
  {
   "property": "C10",
   "status": "proved",
   "theorems": [
    "C10_close_values",
    "C10_close_values_witness",
    "C10_refuted"
   ],
   "note": "the true part of the property as stated, and concrete counterexamples beyond it"
  },
  {
   "property": "C11",
   "status": "proved",
   "theorems": [
    "C11_width",
    "C11_witness"
   ],
   "note": ""
  },
  {
   "property": "C12",
   "status": "proved",
   "theorems": [
    "C12_rounding",
    "C12_meaning",
    "C12_witness"
   ],
   "note": "rounding is to nearest single precision number (C12_meaning)"
  },
  {
   "property": "C13",
   "status": "proved",
   "theorems": [
    "C13_exact",
    "C13_refuted",
    "C13_witness"
   ],
   "note": ""
  },
  {
   "property": "C14",
   "status": "proved",
   "theorems": [
    "C14_double",
    "C14_witness"
   ],
   "note": ""
  },
  {
   "property": "C15",
   "status": "proved",
   "theorems": [
    "C15_exact",
    "C15_refuted",
    "C15_witness"
   ],
   "note": ""
  },
  {
   "property": "C16",
   "status": "proved",
   "theorems": [
    "C16_texts",
    "C16_too_many",
    "C16_too_many_table",
    "C16_witness",
    "C16_narrow",
    "C16_long_strings_refuted"
   ],
   "note": ""
  },
  {
   "property": "C17",
   "status": "proved",
   "theorems": [
    "C17_skip",
    "C17_witness"
   ],
   "note": ""
  },
  {
   "property": "C18",
   "status": "proved",
   "theorems": [
    "C18_byte_order"
   ],
   "note": ""
  },
  {
   "property": "C19",
   "status": "proved",
   "theorems": [
    "C19_roundtrip",
    "C19_witness",
    "C19_computed"
   ],
   "note": ""
  },
  {
   "property": "C47",
   "status": "proved",
   "theorems": [
    "C47_refuted",
    "C47_never",
    "C47_witness",
    "C13_exact",
    "C14_double"
   ],
   "note": "undefined behaviour for concrete columns; the other columns are covered by C13_exact / C14_double"
  },
  {
   "property": "C06",
   "status": "proved",
   "theorems": [
    "C06_tables",
    "C06_reader",
    "C06_witness",
    "C06_unknown_size_refuted",
    "C06_aggregated_loss"
   ],
   "note": "for a handle that knows its size; C06_unknown_size_refuted shows the assumption is needed"
  },
  {
   "property": "C27",
   "status": "proved",
   "theorems": [
    "C27_concat",
    "C27_tiling",
    "C27_encoded",
    "C27_witness",
    "C27_computed"
   ],
   "note": ""
  },
  {
   "property": "C28",
   "status": "proved",
   "theorems": [
    "C28_aggregate",
    "C28_witness"
   ],
   "note": ""
  },
  {
   "property": "C29",
   "status": "proved",
   "theorems": [
    "C29_complete",
    "C29_too_large",
    "C29_witness"
   ],
   "note": ""
  },
  {
   "property": "C30",
   "status": "proved",
   "theorems": [
    "C30_encoded",
    "C30_witness"
   ],
   "note": ""
  },
  {
   "property": "C33",
   "status": "proved",
   "theorems": [
    "C33_iterators",
    "C33_witness",
    "C33_restart"
   ],
   "note": "each iterator call is one atomic step (mutex); iterators at the end are not advanced"
  },
  {
   "property": "C35",
   "status": "proved",
   "theorems": [
    "C35_properties",
    "C35_witness"
   ],
   "note": ""
  },
  {
   "property": "C39",
   "status": "proved",
   "theorems": [
    "C39_column_index",
    "C39_witness"
   ],
   "note": ""
  },
  {
   "property": "C42",
   "status": "proved",
   "theorems": [
    "C42_compatible",
    "C42_witness",
    "C42_repeated_refuted",
    "C42_bitfields_refuted"
   ],
   "note": "for distinct column names; counterexamples for repeated names"
  },
  {
   "property": "C20",
   "status": "proved",
   "theorems": [
    "C20_rows",
    "C20_transparent",
    "C20_witness",
    "C20_computed"
   ],
   "note": ""
  },
  {
   "property": "C21",
   "status": "proved",
   "theorems": [
    "C21_subset",
    "C21_projection",
    "C21_untouched",
    "C21_witness"
   ],
   "note": "for every frame content, well formed or not"
  },
  {
   "property": "C22",
   "status": "proved",
   "theorems": [
    "C22_accepted",
    "C22_refused",
    "C22_select",
    "C22_witness"
   ],
   "note": ""
  },
  {
   "property": "C23",
   "status": "proved",
   "theorems": [
    "C23_roundtrip",
    "C23_pieces",
    "C23_rows",
    "C23_witness",
    "C23_computed"
   ],
   "note": ""
  },
  {
   "property": "C24",
   "status": "proved",
   "theorems": [
    "C24_terminates",
    "C24_zero_refuted",
    "C24_witness"
   ],
   "note": "terminates for m>0; C24_zero_refuted: never for m=0 with rows"
  },
  {
   "property": "C25",
   "status": "proved",
   "theorems": [
    "C19_roundtrip",
    "C20_transparent",
    "C25_refuted"
   ],
   "note": "fewer than 65536 columns is a hypothesis of C19_roundtrip (valid_table); C25_refuted shows it is needed"
  },
  {
   "property": "C46",
   "status": "proved",
   "theorems": [
    "C46_frames",
    "C46_witness"
   ],
   "note": ""
  },
  {
   "property": "C26",
   "status": "proved",
   "theorems": [
    "C26_fill",
    "C26_fill_refused",
    "C26_slice",
    "C26_slices",
    "C26_new_value",
    "C26_large_offset_refuted",
    "C26_zero_stride_refuted",
    "C26_witness"
   ],
   "note": "stride >= element size > 0, fewer than 2^31-1 rows; counterexamples otherwise"
  },
  {
   "property": "C31",
   "status": "proved",
   "theorems": [
    "C31_threads",
    "C31_terminates",
    "C31_progress",
    "C31_race_free",
    "C31_completes",
    "C31_failure",
    "C31_zero_threads_refuted",
    "C31_witness",
    "C31_computed",
    "C31_failure_witness"
   ],
   "note": "threads are interleaved at single memory accesses; taking a table is one step (mutex); sequentially consistent memory, justified by C31_race_free"
  },
  {
   "property": "C48",
   "status": "proved",
   "theorems": [
    "C48_memory",
    "C48_witness"
   ],
   "note": ""
  },
  {
   "property": "C32",
   "status": "proved",
   "theorems": [
    "C32_isolated",
    "C32_seek_read",
    "C32_exclusive",
    "C32_progress",
    "C32_witness"
   ],
   "note": "handles of a ThreadSharedDataHandle; mutex steps interleaved"
  },
  {
   "property": "C34",
   "status": "proved",
   "theorems": [
    "C34_span",
    "C34_frame",
    "C34_no_rows_refuted",
    "C34_long_constant_refuted",
    "C34_leading_missing_refuted",
    "C34_witness",
    "C34_computed"
   ],
   "note": "under the stated conditions; counterexamples outside them"
  },
  {
   "property": "C41",
   "status": "proved",
   "theorems": [
    "C41_offsets",
    "C41_roundtrip",
    "C41_capi",
    "C41_wraps_refuted",
    "C41_witness"
   ],
   "note": "offset modulo 256, exact for everything the C API accepts"
  },
  {
   "property": "C36",
   "status": "proved",
   "theorems": [
    "C36_roundtrip",
    "C36_columns",
    "C36_witness",
    "C36_computed",
    "C36_int64"
   ],
   "note": ""
  },
  {
   "property": "C37",
   "status": "proved",
   "theorems": [
    "C37_frames",
    "C37_split",
    "C37_full",
    "C37_flush",
    "C37_interrupted",
    "C36_witness",
    "C36_computed"
   ],
   "note": ""
  },
  {
   "property": "C38",
   "status": "proved",
   "theorems": [
    "C38_forgotten",
    "C38_refuted"
   ],
   "note": "the intended property (the value is honoured in all frames) is false: C38_refuted; C38_forgotten is the general statement of the defect"
  },
  {
   "property": "C40",
   "status": "proved",
   "theorems": [
    "C40_decode",
    "C40_reuse",
    "C40_roundtrip",
    "C40_witness",
    "C40_computed",
    "C40_mixed_witness",
    "C40_lowered_rows_refuted",
    "C40_size_refuted",
    "C40_stride_refuted",
    "C40_no_rows_refuted"
   ],
   "note": "odc_decode_threaded with its decoder (CDecoder.v) on memory: positions of every byte, reuse of the decoder, and the round trip from the encoder; four refutations."
  },
  {
   "property": "C43",
   "status": "proved",
   "theorems": [
    "C43_sound",
    "C43_complete",
    "C43_numbers",
    "C43_self",
    "C43_symmetric",
    "C43_witness",
    "C43_computed",
    "C43_infinity_refuted",
    "C43_integers_refuted",
    "C43_int64_refuted",
    "C43_frames_refuted"
   ],
   "note": "Comparator over the row reader (Comparator.v, RowReader.v): no difference found implies agreeing rows, agreeing rows imply none found; four refutations of stronger readings."
  },
  {
   "property": "C49",
   "status": "proved",
   "theorems": [
    "C49_copy",
    "C49_bitfields",
    "C49_ordinary",
    "C49_witness",
    "C49_bitfields_refuted"
   ],
   "note": "pass1 over the row reader and writer (Copy.v); C49_ordinary gives the hypothesis for rows of ordinary values; one refutation of the stronger reading."
  },
  {
   "property": "C44",
   "status": "proved",
   "theorems": [
    "C44_split",
    "C44_open",
    "C44_number",
    "C44_numerals",
    "C44_text",
    "C44_witness",
    "C44_witness_split",
    "C44_replaced_refuted",
    "C44_fraction_refuted",
    "C44_offset_refuted",
    "C44_values_refuted",
    "C44_directory_refuted"
   ],
   "note": "pass1 of the dispatching writer over a model of files opened for writing or appending (Dispatcher.v); DispatchSpec.v states names and values independently of the template parser; verify() is not modelled."
  },
  {
   "property": "C45",
   "status": "proved",
   "theorems": [
    "C45_import",
    "C45_refused",
    "C45_witness",
    "C45_refused_witness",
    "C45_blank_refuted",
    "C45_integers_refuted",
    "C45_empty_refuted",
    "C45_members_refuted"
   ],
   "note": "TextReaderIterator and odbFromCSV (Csv.v) over the modelled writer and reader; eckit's string-to-number translators and unQuote are parameters; values are as C49_ordinary needs (32-bit integers, finite reals that are not markers of missing values, no -0.0 in DOUBLE columns). CsvSpec.v states texts, declarations and values independently of the parser."
  },
  {
   "property": "C50",
   "status": "proved",
   "theorems": [
    "C50_encode",
    "C50_inside",
    "C50_reads",
    "C50_buffer",
    "C50_bitfields",
    "C50_roundtrip",
    "C50_through",
    "C50_again_refuted",
    "C50_reuse",
    "C50_witness",
    "C50_computed",
    "C50_rows_refuted",
    "C50_rejected_refuted",
    "C50_wide_refuted",
    "C50_negative_refuted",
    "C50_buffer_witness",
    "C50_columns",
    "C50_settings",
    "C50_calls_witness"
   ],
   "note": "the C API encoder as a state machine over memory (CEncoder.v); places of values in CEncSpec.v; MemoryHandle of eckit is assumed to write what fits and return the count; memory of the caller is assumed readable where it said data is."
  },
  {
   "property": "C51",
   "status": "proved",
   "theorems": [
    "C51_rows",
    "C51_cut",
    "C51_files",
    "C51_encoded",
    "C51_blocks",
    "C51_parts",
    "C51_chunks",
    "C51_sizes",
    "C51_index",
    "C51_index_rows",
    "C51_lost_refuted",
    "C51_witness",
    "C51_computed",
    "C51_lost_computed",
    "C51_size_refuted",
    "C51_tool"
   ],
   "note": "the loops over the tables of a file with the iterator of TablesReader (Scan.v); counts and sizes are 64-bit; the values of seqno in createIndex are taken as given (the SQL engine is not modelled), and its index file is written by the row writer of C37."
  },
  {
   "property": "C52",
   "status": "proved",
   "theorems": [
    "C52_set",
    "C52_exists",
    "C52_unknown",
    "C52_parse",
    "C52_tool",
    "C52_text",
    "C52_witness",
    "C52_computed",
    "C52_wide_refuted"
   ],
   "note": "ODAUpdatingIterator and SetTool (Setter.v) over the modelled row reader and writer; eckit's string-to-double translator is a parameter; strtoul is modelled for the two characters it is given. A name missing only from a later table raises after part of the output has been written; the theorem asks for the names in all tables."
  },
  {
   "property": "C53",
   "status": "proved",
   "theorems": [
    "C53_merge",
    "C53_cut",
    "C53_exists",
    "C53_clash",
    "C53_none",
    "C53_witness",
    "C53_computed",
    "C53_long_refuted",
    "C53_order_refuted",
    "C53_changing_refuted"
   ],
   "note": "doMerge over the modelled row reader and writer (Merge.v), for Reader inputs (the -S variant goes through the SQL engine). C53_cut says what is written for cells of any width; C53_merge is the case of eight-byte cells, in which nothing is lost."
  },
  {
   "property": "C54",
   "status": "proved",
   "theorems": [
    "C54_tables",
    "C54_misfit",
    "C54_no_type",
    "C54_two_values",
    "C54_cut",
    "C54_untouched",
    "C54_values",
    "C54_encoded",
    "C54_members_refuted",
    "C54_text",
    "C54_table",
    "C54_witness",
    "C54_computed",
    "C54_misfit_computed"
   ],
   "note": "MDSetTool::run and parseUpdateList (MdSet.v) over the modelled table reader and header writer; eckit's string-to-double translator is a parameter. Headers of 2 GiB or more are excluded, as is changing between integer and other types while integers are read as integers, and -0.0 as a value. C54_values is for frames made by the encoder; C54_tables, C54_cut and C54_untouched for any frames."
  },
  {
   "property": "C55",
   "status": "proved",
   "theorems": [
    "C55_rows",
    "C55_refused",
    "C55_rewind",
    "C55_rewind_refuted",
    "C55_rewind_witness",
    "C55_witness",
    "C55_computed"
   ],
   "note": "TODATableIterator (Query.v) over the modelled row reader; the SQL engine above it (parsing, evaluation, joins) is not modelled. Columns of a width of less than one double (which no encoder writes) are excluded."
  },
  {
   "property": "C56",
   "status": "proved",
   "theorems": [
    "C56_calls",
    "C56_places",
    "C56_overrun",
    "C56_poll",
    "C56_missing",
    "C56_bitfields",
    "C56_session",
    "C56_session_poll",
    "C56_wrong_count",
    "C56_witness",
    "C56_lost_refuted",
    "C56_overrun_refuted",
    "C56_texts"
   ],
   "note": "odccapi.cc reading and writing (OldApi.v) over the modelled row reader and writer; not the odb_select_* functions, which need the SQL engine. atof is a parameter. Rows without columns, which next() reports as the end, are excluded, as are names of bitfield columns used twice."
  },
  {
   "property": "C57",
   "status": "proved",
   "theorems": [
    "C57_output",
    "C57_ordinary",
    "C57_retyped",
    "C57_too_long",
    "C57_witness",
    "C57_file",
    "C57_ambiguous_refuted"
   ],
   "note": "ODAOutput over the modelled writer (OdaOut.v), from the calls the SQL engine makes (prepare, updateTypes, output) on; the instance for DispatchingWriter and the engine itself are not modelled."
  },
  {
   "property": "C58",
   "status": "proved",
   "theorems": [
    "C58_agree",
    "C58_written",
    "C58_results",
    "C58_witness",
    "C58_marker_refuted"
   ],
   "note": "Relates the two modelled readers (RowReader.v, Table.v with Reader.v). C58_written and C58_results compose it with the writers of C36 and C57, whose witnesses meet their hypotheses."
  },
  {
   "property": "C59",
   "status": "proved",
   "theorems": [
    "C59_frames",
    "C59_truncated",
    "C59_data",
    "C59_witness",
    "C59_mode_refuted",
    "C59_properties_refuted",
    "C59_truncated_witness"
   ],
   "note": "Model CFrames.v (handles, memoised aggregation mode, memoised property iterators), specification FramesSpec.v. The refutations show that the stated exceptions are needed."
  },
  {
   "property": "C60",
   "status": "proved",
   "theorems": [
    "C60_calls",
    "C60_documented",
    "C60_means_one",
    "C60_frames",
    "C60_replies",
    "C60_array",
    "C60_roundtrip",
    "C60_elements",
    "C60_witness",
    "C60_elements_witness",
    "C60_leftovers_refuted",
    "C60_section_refuted"
   ],
   "note": "Model Fortran.v (the SAVEd local variables are its state), specification FortranSpec.v; composed with the C models of C40, C50 and C59. The refutations are the two ways in which the documentation is not kept."
  },
  {
   "property": "C61",
   "status": "proved",
   "theorems": [
    "C61_story",
    "C61_session",
    "C61_witness",
    "C61_session_witness",
    "C61_larger_buffer_refuted",
    "C61_count_ignored_refuted",
    "C61_wider_rows_refuted"
   ],
   "note": "Model SelectOut.v (memory byte by byte, exceptions keep the changes made before them), specification SelectSpec.v. The SQL engine is eckit's: what it does is any sequence of announcements and rows. The refutations are what users of the caller's buffer run into."
  },
  {
   "property": "C62",
   "status": "proved",
   "theorems": [
    "C62_filter",
    "C62_refuses",
    "C62_refuses_witness",
    "C62_stream",
    "C62_frame",
    "C62_one_frame",
    "C62_ordinary",
    "C62_witness",
    "C62_one_witness",
    "C62_widths_refuted"
   ],
   "note": "Model Filter.v (on SelectOut.v, Writer.v and Reader.v), specification FilterSpec.v. The SQL engine is eckit's: a query is any sequence of announcements and rows. C62_refuses needs no assumption about the query. C62_ordinary shows that rows of ordinary values meet filterable; C62_widths_refuted is the exception mentioned."
  },
  {
   "property": "C63",
   "status": "proved",
   "theorems": [
    "C63_counts",
    "C63_clean",
    "C63_witness",
    "C63_evicted_refuted",
    "C63_extra_refuted",
    "C63_other_file_refuted"
   ],
   "note": "Model Verify.v (on Dispatcher.v, Comparator.v and RowReader.v), specification VerifySpec.v. C63_counts is for any files found, C63_clean for those the split has just written. The rows have the columns' usual missing values, the same column names in all tables, and integers are read as doubles. The three refutations are the last sentence of the property."
  },
  {
   "property": "C64",
   "status": "proved",
   "theorems": [
    "C64_index",
    "C64_count",
    "C64_find",
    "C64_unique",
    "C64_witness",
    "C64_unique_refuted",
    "C64_int64_refuted",
    "C64_large_refuted"
   ],
   "note": "Model Index.v (on Scan.v, Writer.v and Copy.v), specification IndexSpec.v. The SQL engine is not modelled: the statement select seqno is any function from the bytes of a block to a list of integers. The refutations are the help text (C64_unique_refuted) and the last sentence of the property."
  },
  {
   "property": "C65",
   "status": "proved",
   "theorems": [
    "C65_compact",
    "C65_frames",
    "C65_sound",
    "C65_witness",
    "C65_joined_refuted"
   ],
   "note": "Model Compact.v (on Copy.v and Comparator.v), specification CompactSpec.v. Integers are read as doubles, and the missing values are the default ones. That the verification sees the whole copy is assumed: the tool still has the output file open then."
  },
  {
   "property": "C66",
   "status": "proved",
   "theorems": [
    "C66_queries",
    "C66_incomplete",
    "C66_reading",
    "C66_witness",
    "C66_incomplete_witness",
    "C66_negative_refuted",
    "C66_retry_refuted"
   ],
   "note": "Model CommandLine.v, specification CommandLineSpec.v. optionArgument is modelled for texts only: its numeric instances convert with eckit's Translator."
  },
  {
   "property": "C67",
   "status": "proved",
   "theorems": [
    "C67_offsets",
    "C67_ddl",
    "C67_readable",
    "C67_witness",
    "C67_computed",
    "C67_members_refuted",
    "C67_names_refuted"
   ],
   "note": "Model HeaderTool.v (on Scan.v), specification HeaderToolSpec.v. The printing of numbers is that of iostreams; an eckit Offset and a Length print as their number. The verbose output (no option) is not modelled."
  },
  {
   "property": "C68",
   "status": "proved",
   "theorems": [
    "C68_told",
    "C68_names",
    "C68_rows",
    "C68_shadowed",
    "C68_witness",
    "C68_computed",
    "C68_exact_refuted"
   ],
   "note": "Model SqlTable.v (on Query.v), specification SqlTableSpec.v. The engine itself, with SQLTable's map of columns, is eckit's: that map is taken as a list of columns with distinct names, and what happens when a file has a name twice is not described."
  },
  {
   "property": "C69",
   "status": "proved",
   "theorems": [
    "C69_lines",
    "C69_readable",
    "C69_witness",
    "C69_computed",
    "C69_small_refuted",
    "C69_bit31_refuted"
   ],
   "note": "Model LsTool.v, specification LsSpec.v. The printing of a double is that of iostreams with fixed and six digits, correctly rounded (as glibc does). The command line of the tool and its -o option are not modelled."
  },
  {
   "property": "C70",
   "status": "proved",
   "theorems": [
    "C70_compare",
    "C70_refused",
    "C70_witness",
    "C70_computed",
    "C70_missing_refuted"
   ],
   "note": "Model ToolMain.v on CommandLine.v and Comparator.v, specification ToolSpec.v. Path names are taken as they are."
  },
  {
   "property": "C71",
   "status": "proved",
   "theorems": [
    "C71_import",
    "C71_delimiter_refuted",
    "C71_witness",
    "C71_semicolon_refuted"
   ],
   "note": "Model ToolMain.v on CommandLine.v and Csv.v, specification ToolSpec.v. With another query than 'select *;' the SQL engine imports the text: not modelled."
  },
  {
   "property": "C72",
   "status": "proved",
   "theorems": [
    "C72_merge",
    "C72_no_output_refuted",
    "C72_odd_refuted",
    "C72_witness",
    "C72_computed"
   ],
   "note": "Model ToolMore.v on CommandLine.v and Merge.v. What is done with the selections of -S is not modelled. The remaining hypotheses of C72_merge are those of C53_witness."
  },
  {
   "property": "C73",
   "status": "proved",
   "theorems": [
    "C73_part",
    "C73_witness",
    "C73_first_refuted"
   ],
   "note": "Model ToolMore.v; PartFileHandle is taken to give the stated part of the file. What the query then does: C55, C68."
  },
  {
   "property": "C74",
   "status": "proved",
   "theorems": [
    "C74_set",
    "C74_mdset",
    "C74_compact",
    "C74_index",
    "C74_refused",
    "C74_witness",
    "C74_computed"
   ],
   "note": "Model ToolRest.v on CommandLine.v, Setter.v, MdSet.v, Compact.v and Index.v. An output that is also the input is not modelled. The remaining hypotheses are those of C54_witness, C64_witness and C65_witness."
  },
  {
   "property": "C75",
   "status": "proved",
   "theorems": [
    "C75_ls",
    "C75_offsets",
    "C75_ddl",
    "C75_refused",
    "C75_witness"
   ],
   "note": "Model ToolRest.v on CommandLine.v, LsTool.v and HeaderTool.v. The output of header without options is not modelled. The remaining hypotheses are those of C67_witness."
  },
  {
   "property": "C76",
   "status": "proved",
   "theorems": [
    "C76_split",
    "C76_verified",
    "C76_sort_refuted",
    "C76_witness"
   ],
   "note": "Model ToolRest.v on CommandLine.v, Dispatcher.v and Verify.v. What -sort does (the SQL engine orders the rows of chunks, see C51_chunks) is a parameter of the model."
  },
  {
   "property": "C77",
   "status": "proved",
   "theorems": [
    "C77_query",
    "C77_text",
    "C77_odb",
    "C77_refused",
    "C77_witness",
    "C77_computed",
    "C77_dash_refuted"
   ],
   "note": "Model SqlOut.v on CommandLine.v. The execution of the query is not modelled: what the output does with the results is C57, for a Writer. That eckit passes the configured output file to buildOutput, and that its Regex looks anywhere in the text, is taken from eckit."
  }
 ]
}