{
 "C01": "DataStream read/write of every type (Stream.v), both byte orders; induction on values and lists",
 "C02": "the same reads on arbitrary bytes; locality lemmas (StreamLocal.v)",
 "C03": "serializeHeader with its grow-and-retry loop on a buffer of given capacity (Header.v); the length of a header is bounded (HeaderSize.v), capacity monotone",
 "C04": "Header, MetaData, Column and codec save/load; structural round trip",
 "C05": "Header::load on arbitrary bytes, digest a parameter; inversion of the load",
 "C06": "Table::readTable on truncated and padded files, TablesReader; prefix/suffix lemmas",
 "C07": "Codec::gatherStats over a column; invariant by induction (GatherProofs.v)",
 "C08": "the same with NaN and signed zeros (NanProofs.v); exact characterisation and counterexample",
 "C09": "one column through encode, read, decode (Api.v): all codecs and CodecOptimizer",
 "C10": "the integer codecs beyond 32 bits; counterexamples",
 "C11": "missing integers: the IntegerMissing codecs",
 "C12": "REAL columns: rounding to single precision, proved nearest (FpNearest.v)",
 "C13": "REAL columns with missing values: the two marker values",
 "C14": "DOUBLE columns: bit for bit",
 "C15": "the columns for which an optimised codec may be chosen",
 "C16": "string codecs: tables of strings, long strings",
 "C17": "Codec::skip against Codec::decode; case analysis over codecs",
 "C18": "every definition is parameterised by the byte order of the file",
 "C19": "encodeFrame, readTable, Table::decode composed (Roundtrip.v)",
 "C20": "Table::decode as loop over rows; invariant against a forward-fill specification (RowSpec.v)",
 "C21": "the same loop with fewer columns; simulation for arbitrary content (ProjectProofs.v)",
 "C22": "decoding and the position of the data handle",
 "C23": "encode with maxRowsPerFrame; induction on the remaining rows",
 "C24": "the loop itself, with the non-terminating case",
 "C25": "row markers of two bytes; arithmetic and a table with 65536 columns",
 "C26": "StridedData over byte memory (Strided.v); pointwise lemmas",
 "C27": "TablesReader over concatenations of frames",
 "C28": "ReaderImpl::next, aggregation with a row limit (AggregateProofs.v)",
 "C29": "MetaData::compatible as the rule for aggregation",
 "C30": "encodedData: slices of the file",
 "C31": "decode with worker threads pulling tables; small-step interleaving at single memory accesses, invariant over schedules (ThreadProofs.v)",
 "C32": "ThreadSharedDataHandle; invariant over interleaved operation sequences",
 "C33": "TablesReader iterators sharing the reader; invariant over interleavings",
 "C34": "Table::span, decodeSpan, Span; decoded values as a set (SpanProofs.v, SpanTable.v)",
 "C35": "properties of frames and of aggregates",
 "C36": "WriterBufferingIterator and ReaderIterator; simulation over every call sequence",
 "C37": "explicit flush, close, and frame boundaries; the same simulation",
 "C38": "custom missing values in the writer; general statement of the defect",
 "C39": "columnIndex: names and names with table",
 "C40": "odc_decode_threaded and its decoder object in memory (CDecoder.v); index arithmetic, and composition with C19",
 "C41": "FrameImpl::columnInfo, bitfield offsets",
 "C42": "column selection by name in decode targets",
 "C43": "Comparator over two row readers; case analysis, floating-point monotonicity (FpCompare.v)",
 "C44": "WriterDispatchingIterator over a model of named files; invariant over rows",
 "C45": "TextReaderIterator, odbFromCSV; induction on lines, then the copy loop of C49",
 "C46": "encode failing in the middle; frames as independent pieces",
 "C47": "CodecOptimizer on infinities with missing values",
 "C48": "Table::decode writing to arrays in memory (MemDecode.v); simulation with the list decoder",
 "C49": "pass1: rows of one file copied to another, columns changing on the way; simulation",
 "C50": "C API encoder: histories of calls, array layouts, transposed copies; invariant of histories, then encode() of the values at the places",
 "C51": "the loops over TablesReader's iterator equal folds over the sequential read; invariant of groups of frames for the chunks",
 "C52": "updating iterator in front of pass1; simulation against rows with the assignments carried out (SetSpec.v), then C49's session invariant",
 "C53": "inputs as row iterators, output row buffer kept between rounds (invariant: zero after the first double of each cell), C49's session invariant for the writer",
 "C54": "headers as functions of the loaded columns; load after save (inverse lemmas for load); decoding with changed codecs by simulation (C54_untouched) and by re-reading the encoder's rows with the new codec (C54_values)",
 "C55": "the iterator as a state machine over the row reader; invariant that the column places are those of the table of the current row; rewind from any reachable state",
 "C56": "calls as a fold over the row reader, simulated by the list of rows (any counts and buffers); sessions by composing with C36_columns",
 "C57": "the output object as a state machine over the modelled writer; session invariant of C49 extended by the row buffer, the widths and the missing values; resizing by replacing columns one by one",
 "C58": "row iteration is unrolled table by table (the position reached is that of the table reader); inside a table both decoders are shown to give the latest stored value by induction over the stored rows",
 "C59": "simulation: an invariant relates every handle of the code to one of the specification and is kept by each call; cut data by an invariant on the readers",
 "C60": "the saved variables are shown to hold the last value passed by induction over the program; the calls issued are compared with their documented meaning; layouts by arithmetic on addresses and C50_through",
 "C61": "an invariant ties the object to the columns and buffer in force; it is kept by every event, also refused ones; the loop over the results by induction on the columns",
 "C62": "the invariant of C61 gives each row's bytes; the writer's session invariant of C49 (for arbitrary rows) gives the frames; C29 how they are grouped; the handle by induction on the reads",
 "C63": "the invariant of C44 gives the state after pass1; a second invariant (files by index, readers by rows used up) for the loop of verify; the rows read back with their codecs' missing values for the clean case",
 "C64": "C51 for the blocks and runs; the loop over the blocks is shown to be one list of rows, all of ordinary 32-bit integers, so that C36 gives the file; induction over the blocks for what the entries mean",
 "C65": "an invariant of the copy loop for rows of the same columns gives the frames; the flag of a column is followed through gathering, optimizing, saving and loading (FlagProofs.v); C43 gives both directions of the verification",
 "C66": "the loop over the words is followed item by item of the reading; what the parser then holds is an invariant of all further calls",
 "C67": "the loop over the tables is the scan of C51; the runs are built by induction on the frames; the text is cut into lines, each of which is read back at its spaces and commas",
 "C68": "the count of hasColumn and the loop of column are compared; the columns told correspond place by place to those of the row, so the rule on names follows by cases; the query is that of C55 on the names that were found",
 "C69": "the exact value of a double is an integer over 2^1074, so the text is the numeral of a rounded integer; induction over the rows of the iterator; the text is cut at line breaks and tabs, and the first character of a field tells its kind",
 "C70": "the tool's calls on the parser are a history of calls, so C66_queries gives the answers; then C43",
 "C71": "the same with C45; the delimiter is computed and not used",
 "C72": "the parser after it has read a command line (P_CommandLine), then C53",
 "C73": "the same, and the places of groups of frames (C51_parts)",
 "C74": "the parser after it has read a command line, then C52, C54, C64 and C65",
 "C75": "the same, then C67 and C69",
 "C76": "the same, then C44 and C63",
 "C77": "the parser after it has read a command line; induction on the text searched"
}