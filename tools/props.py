import json
P=[]
def p(id,title,statement,quant,why,anchors):
    P.append(dict(id=id,title=title,statement=statement,quantifier=quant,why_tests_cant=why,anchors=anchors))
S="src/odc/"
p("C01","Stream primitives round-trip in both byte orders",
  "Any integer, double, string, vector of strings/ints or string map written to an ODB data stream is read back equal, in native and in foreign byte order, consuming exactly the bytes that were written and leaving the bytes that follow untouched.",
  "every value of every primitive type, every string/vector/map, both byte orders, every trailing content",
  "unbounded value, length and suffix space; tests sample a few literals",
  [S+"core/DataStream.h: DataStream::read, DataStream::write, OtherByteOrder::swap"])
p("C02","A read never runs past the end of a stream",
  "Reading a primitive (of a non-negative size) from a stream either returns exactly the next bytes or raises the end-of-stream error when fewer bytes remain; it never returns data taken from beyond the end.",
  "every stream content, every position, every primitive",
  "all truncation points of all contents",
  [S+"core/DataStream.h: DataStream::readBytes"])
p("C03","Encoded header bytes do not depend on the configured header buffer size",
  "The header serialiser terminates and produces the same bytes whatever initial header buffer size is configured, provided that size is at least the 57 bytes of the fixed part; a smaller setting is outside what the code can handle (it makes the serialiser write outside its buffer).",
  "every metadata, properties, sizes and initial buffer size",
  "needs every buffer size / header size pair; the loop's termination is not testable",
  [S+"core/Header.cc: serializeHeaderInternal", S+"ODBAPISettings.cc: headerBufferSize"])
p("C04","Header round-trip",
  "A frame header written for a set of columns, properties, row count and data size, in either byte order, is loaded back with the same row count, data size, properties, and for every column the same name, type, bitfield definition, codec, missing-value flag, min, max, missing value and string table.",
  "every column list, property map, codec state, row count, data size, both byte orders",
  "unbounded metadata space",
  [S+"core/Header.cc: Header::load, serializeHeaderInternal", S+"core/Column.h: load/save", S+"core/MetaData.h: load/save", S+"codec/String.h: load/save"])
p("C05","A corrupt header is never accepted",
  "Loading a frame succeeds only if the magic number is right, the format version is supported, and the digest stored in the header equals the digest of the header body; in every other case an error is raised and no table is returned.",
  "every byte sequence presented as input",
  "all corruptions of all headers",
  [S+"core/Header.cc: readMagic, loadAfterMagic, load"])
p("C06","Truncation is detected at every crash point",
  "If a file made of complete frames is cut after any number of bytes (as by a crash of the writer), reading it returns exactly the frames that are wholly contained in the remaining bytes, unaltered and in order, and then either signals a clean end (only when the cut falls on a frame boundary) or raises an error; it never returns a partial or altered frame. This needs a data handle that knows how many bytes it holds: with one that does not (size reported as 0) a frame cut inside its data part is returned as if it were complete, which a concrete file shows. With aggregation the error can be raised before whole tables already collected are handed out.",
  "every list of frames, every cut position",
  "one test per byte position of one file cannot cover all files",
  [S+"core/Table.cc: readTable", S+"core/Header.cc: readMagic, load", S+"core/TablesReader.cc: ensureTable"])
p("C07","Column statistics are exact",
  "After any sequence of values free of NaN has been fed to a numeric column, its recorded minimum and maximum are the smallest and largest non-missing values and its missing flag is set exactly when some value equals the missing value.",
  "every sequence of double values without NaN and every missing value",
  "all sequences and orders",
  [S+"core/Codec.cc: Codec::gatherStats"])
p("C08","When NaN data survives in DOUBLE columns",
  "A DOUBLE column containing a NaN is decoded bit-for-bit exactly when its first non-missing value is a NaN or it holds two non-missing non-NaN values that differ; otherwise (for example {1.0, NaN}) the frame is silently wrong or the encoder runs into undefined behaviour. This is a defect of the code: the wanted property 'NaN data is never silently replaced' is refuted by a concrete column.",
  "every double column, including ones with NaN",
  "depends on the position of NaN relative to the other values: every order matters",
  [S+"core/Codec.cc: Codec::gatherStats", S+"codec/CodecOptimizer.h: setOptimalCodecs", S+"codec/Constant.h: CodecConstant"])
p("C09","Integer columns round-trip exactly (32-bit range)",
  "Any INTEGER or BITFIELD column whose values are integers of the 32-bit signed range (missing values included) is encoded without error and decoded bit-for-bit, whatever the distribution of the values, in both integer representations (as doubles and as 64-bit integers).",
  "every list of 32-bit integers with or without missing values",
  "the codec choice depends on min, max and missing flag of the whole column; all boundary combinations",
  [S+"codec/CodecOptimizer.h: setOptimalCodecs", S+"codec/Integer.h", S+"codec/IntegerMissing.h"])
p("C10","Integers outside the 32-bit range survive when the column spans less than 65535",
  "An INTEGER or BITFIELD column with values up to 2^52 in magnitude whose non-missing values differ by less than 65535 is encoded without error and decoded exactly. Beyond that the encoder neither refuses nor preserves the data: concrete columns show silent truncation (int64 mode), rounding of neighbours above 2^53, and undefined behaviour (double mode).",
  "every list of 64-bit integers",
  "depends on the range of the whole column",
  [S+"codec/Integer.h: CodecIntegerDirect::encode", S+"codec/CodecOptimizer.h"])
p("C11","Integer columns occupy the documented width",
  "An encoded integer value occupies 0 bytes in a constant column, 1 byte when the column range fits one byte (or one byte less the marker when values are missing), 2 bytes when it fits two bytes, and 4 bytes otherwise.",
  "every integer column in the 32-bit range",
  "all ranges and missing flags",
  [S+"codec/CodecOptimizer.h", S+"codec/Integer.h", S+"codec/IntegerMissing.h"])
p("C12","REAL columns lose precision only by rounding to single precision",
  "Whenever encoding a REAL column free of NaN succeeds, every value is decoded as itself, or as itself rounded to the nearest single-precision number, and missing values (and only values equal to the missing value) decode as the missing value.",
  "every list of non-NaN doubles",
  "marker collisions depend on the whole value set",
  [S+"codec/Real.h: ShortRealBase, CodecLongReal::gatherStats", S+"codec/CodecOptimizer.h"])
p("C13","Which REAL columns can be encoded",
  "Encoding a REAL column free of NaN succeeds exactly when (a) it is not a constant infinity with missing values and (b) all its non-missing values are equal, or none of them rounds to the single-precision number the format reserves for missing in that column (FLT_MIN if the column contains FLT_MAX, else -FLT_MAX). So some columns of ordinary single-precision numbers are refused (with an error, never silently altered).",
  "every list of single-precision values",
  "fails only for particular combinations of extreme values",
  [S+"codec/Real.h", S+"codec/CodecOptimizer.h"])
p("C14","DOUBLE columns are bit-exact",
  "A DOUBLE column free of NaN and of negative zero, and that is not a constant infinity with missing values, is encoded without error and decoded bit-for-bit, including infinities, subnormals and missing values.",
  "every list of doubles without NaN and negative zero",
  "all value combinations select different codecs",
  [S+"codec/Real.h: CodecLongReal", S+"codec/Constant.h", S+"codec/IntegerMissing.h: CodecRealConstantOrMissing", S+"codec/CodecOptimizer.h"])
p("C15","When the sign of zero survives in DOUBLE columns",
  "A NaN-free DOUBLE column containing negative zero is decoded bit-for-bit exactly when it holds two non-missing values that differ numerically or all its values are negative zero; otherwise the sign of some zero is lost (and nothing else changes).",
  "every list of doubles with negative zeros",
  "depends on the codec chosen for the whole column",
  [S+"codec/Constant.h", S+"codec/IntegerMissing.h"])
p("C16","STRING columns round-trip",
  "A STRING column with fewer than 65536 distinct values decodes to the same text (up to the first NUL) for every row, whatever the width and the number of distinct values; a column with more distinct values makes the encoder raise an error, never produce wrong text. (Exception, shown by a concrete table: with the non-default setting that enables the long constant string codec, a wide column of only empty texts is loaded with a wrong width.)",
  "every list of fixed-width strings of any width and any length",
  "the string table is built incrementally; all duplicate patterns and widths",
  [S+"codec/String.h", S+"codec/Constant.h", S+"codec/CodecOptimizer.h"])
p("C17","Skipping a value consumes the same bytes as decoding it",
  "For every codec and stream content, skipping a value leaves the stream where decoding it would; hence columns not requested never disturb the ones that are.",
  "every codec state, stream content, byte order",
  "all codecs times all contents",
  [S+"codec/*.h: decode, skip", S+"core/DataStream.h: advance"])
p("C18","Data written in foreign byte order decodes identically",
  "A frame written in either byte order is decoded to the same values; the byte order is recognised from the frame itself.",
  "every table, both byte orders",
  "needs every codec and value in foreign order",
  [S+"core/Header.cc: loadAfterMagic", S+"core/DataStream.h: OtherByteOrder", S+"codec/*.h"])
p("C19","Frame encode/decode round-trip",
  "Encoding a table with the API and reading the resulting bytes gives one frame with the same column names, types, bitfields and row count (properties as given plus the encoder tag), and decoding all columns gives back every cell, up to the documented per-type conversion.",
  "every table (any number of rows, 1..65535 columns, any mix of types, any cell values in the per-type domain)",
  "interaction of all codecs, row compression and header for all tables",
  [S+"core/Encoder.cc: encodeFrame", S+"core/Table.cc: readTable, decode"])
p("C20","Row compression is transparent",
  "For every well-formed row stream, the decoded value of column c in row r is the value last stored for column c at or before row r (the column's missing value when none has been stored): leaving out the unchanged leading columns of a row never changes what is decoded.",
  "every sequence of row markers and stored values",
  "all marker sequences: the forward fill is lazy and depends on marker history",
  [S+"core/Table.cc: Table::decode", S+"core/Encoder.cc: encodeFrame"])
p("C21","Decoding a subset of columns is a projection",
  "Decoding any subset of the columns in any order gives for each requested column exactly what decoding all columns gives for it, and writes nothing beyond the requested rows and elements.",
  "every frame, every subset and order of columns, every larger-than-needed target",
  "exponentially many subsets",
  [S+"core/Table.cc: Table::decode", S+"core/DecodeTarget.cc"])
p("C22","Column lookup when decoding",
  "A requested name selects the column with that full name if there is one, else the first column whose name before '@' equals it; unknown names, a name requested twice, and tables with duplicated column names raise an error instead of decoding.",
  "every list of column names and every request",
  "all name combinations",
  [S+"core/Table.cc: columnLookup, simpleColumnLookup, decode"])
p("C23","Splitting into frames preserves the rows",
  "Encoding n rows with at most m>0 rows per frame, when each group of rows can be stored, emits one frame if n<=m and ceil(n/m) frames otherwise, each but the last of exactly m rows and none larger; the i-th table read from the file has the columns of the input and decodes to the i-th group of rows, and the groups concatenated in order are the input rows.",
  "every n, m>0, schema and data",
  "all n/m combinations",
  [S+"api/Odb.cc: encode", S+"api/StridedData.h: slice"])
p("C24","Encoding terminates exactly when a frame may hold a row",
  "The encode call terminates for every schema, data and maximum rows per frame m>0; with m=0 and at least one row it never ends (it writes empty frames for ever).",
  "every schema, data and m, including m=0",
  "non-termination cannot be observed by a test",
  [S+"api/Odb.cc: encode"])
p("C25","Row markers do not wrap below 65536 columns",
  "Tables with fewer than 65536 columns are decoded as written, whatever columns change from one row to the next; with more columns the two byte row marker wraps and the reader misreads the frame (concrete table).",
  "every column count",
  "tests use few columns",
  [S+"core/Encoder.cc: encodeFrame"])
p("C26","Strided fill and slice touch exactly what they should",
  "Filling rows (source, final] of a strided array copies the source element into exactly those elements, for every element size and every stride not smaller than the element size, and changes no other byte; all the specialised variants agree; slices of slices are slices. (Arrays of fewer than 2^31-1 rows: an offset of 2^31 or more gives a wrong address, and with stride 0 the fill does not end.)",
  "every memory content, element size, stride, row range",
  "all stride/size combinations and adjacent memory",
  [S+"api/StridedData.h: fill, slice, get"])
p("C27","Concatenated ODB streams read as the concatenation of their frames",
  "Reading the concatenation of encoded frames gives exactly those frames in order; their offsets and lengths tile the input without gap or overlap.",
  "every list of frames",
  "unbounded lists and contents",
  [S+"core/TablesReader.cc", S+"core/Table.cc: readTable", S+"api/Odb.cc: Frame::offset, Frame::length"])
p("C28","Aggregated reading preserves the rows",
  "With aggregation, the reader returns frames whose underlying tables, concatenated, are exactly the tables of the file in order; each frame contains only tables compatible with its first table; a frame ends only at the end of the data, at an incompatible table, or when the next table would exceed the row limit.",
  "every sequence of tables, every row limit",
  "all sequences and limits",
  [S+"api/Odb.cc: ReaderImpl::next", S+"core/MetaData.cc: compatible"])
p("C29","Aggregated frames respect the row limit",
  "With a non-negative row limit no returned frame has more rows than the limit; a single table larger than the limit raises an error rather than being returned or skipped.",
  "every sequence of tables, every limit",
  "all sequences",
  [S+"api/Odb.cc: ReaderImpl::next"])
p("C30","encodedData returns exactly the source bytes",
  "The encoded data of a frame is byte-for-byte the slice of the input occupied by its tables, and reading it again yields the same frame.",
  "every input and frame",
  "unbounded",
  [S+"api/Odb.cc: FrameImpl::encodedData", S+"core/Table.cc: readEncodedData"])
p("C31","Multi-threaded decoding equals serial decoding",
  "Decoding a frame with any number n>=1 of threads, under every interleaving, decodes every table exactly once into its own row range, never has two threads access the same byte, always ends, and the result is that of serial decoding; when a table cannot be decoded, the call throws an exception of one of the tables. (With n=0 and several tables the call succeeds and decodes nothing.)",
  "every number of tables, threads and every schedule",
  "schedules cannot be enumerated by tests",
  [S+"api/Odb.cc: FrameImpl::decode"])
p("C32","Shared data handles are isolated",
  "When several readers share one underlying file handle, each read returns the bytes at that reader's own position, under every interleaving of reads and seeks of the other readers.",
  "every number of handles, operations and interleavings",
  "all interleavings",
  [S+"core/ThreadSharedDataHandle.cc: read, seek, skip, position"])
p("C33","Table iterators are independent and complete",
  "Any number of iterators over one reader, advanced in any interleaving, each see every table of the file exactly once and in order, and each table is parsed from the file once.",
  "every interleaving of advances over every file",
  "all interleavings",
  [S+"core/TablesReader.cc: ensureTable, ReadTablesIterator"])
p("C34","The span of a frame is its set of values",
  "The span reported for the columns of a frame contains exactly the distinct values that decoding those columns gives, over all the tables of the frame, for constant and non-constant columns, and its offset and length are those of the frame. This needs a first row that stores the columns (as the encoder writes), integers that fit in 64 bits, no NaN and no constant string longer than 8 bytes: concrete frames without rows, with a long constant string, and with a row writer's leading missing values show the claim false otherwise.",
  "every frame of any number of tables and every list of requested columns",
  "all tables",
  [S+"core/Table.cc: span, decodeSpan", S+"core/Span.cc"])
p("C35","Frame properties merge with first table winning",
  "The properties of an aggregated frame contain exactly the keys occurring in its tables, each with the value of the first table that defines it.",
  "every list of property maps",
  "unbounded maps",
  [S+"api/Odb.cc: FrameImpl::properties"])
p("C36","Row-wise write then read returns the same rows",
  "Rows of storable values written one by one with a Writer (default missing values), with explicit flushes anywhere, and read back row by row are the same rows in the same order, for every number of rows, every row buffer size, every mix of columns, and integers represented as doubles or as 64-bit integers on either side; this does not depend on what uninitialised memory of the reader holds.",
  "every sequence of rows and flushes, every buffer size, every column list and setting",
  "flush boundaries times row contents",
  [S+"WriterBufferingIterator.cc: writeRow, doWriteRow, flush, close", S+"ReaderIterator.cc: next, readBuffer, initRowBuffer"])
p("C37","Row-wise writer frame sizes and completeness",
  "A finished file is a sequence of frames of 1 to the buffer size rows, ending where the buffer was full, at explicit flushes and at the end; without flushes all but the last have exactly that many rows; every row is in exactly one frame. At any moment before closing, what has been written is whole frames holding all rows but the last fewer than a buffer.",
  "every sequence of writes and flushes, every moment before the close",
  "all row counts and buffer sizes",
  [S+"WriterBufferingIterator.cc: flush, close"])
p("C38","A custom missing value set on a writer column is forgotten after the first frame",
  "Setting a column's missing value is safe only while everything fits in one frame: every flush that writes a frame silently restores the type's default missing value in the columns, while the row the next frame is compared with still holds the custom one, so that leading cells equal to the custom missing value come back as the default missing value.",
  "every writer state; every flush",
  "appears only after the first flush and for particular values",
  [S+"WriterBufferingIterator.cc: flush, allocBuffers", S+"core/Column.h: resetCodec", S+"core/MetaData.h: resetCodecs"])
p("C39","Column name matching",
  "Looking up a column by name succeeds exactly when one and only one column has that full name or has it as the part before an '@'; no match and several matches raise distinct errors.",
  "every list of names",
  "all name combinations, including names that are prefixes of each other",
  [S+"core/MetaData.cc: columnIndex, columnNameMatches, hasColumn"])
p("C40","C API decode layouts",
  "Decoding a frame through the C API succeeds with every positive number of threads and every schedule, reports the number of rows of the frame and leaves the value of row r and column c at the position the layout gives it: in the row-major array at r rows plus the widths of the columns before; in the column-major array in column-long runs of 8-byte words; in an array of the caller at r strides. The value is the one the C++ API decodes (for an encoded frame: the one encoded), the width, height and address reported are those of the array, no other byte except temporaries changes, and the decoder can be used again for a frame of no more rows. The array must have room, and the number of rows and the height must agree for wide column-major columns; concrete requests are served wrongly otherwise: a lowered row count, an element size set without an array, an array without a stride.",
  "every shape, layout, mix of shared and own arrays, thread count and schedule",
  "all shapes and schedules",
  [S+"api/odc.cc: odc_decode_threaded, fill_in_decoder, odc_decoder_defaults_from_frame, odc_decoder_set_data_array, odc_decoder_column_set_data_array"])
p("C41","Bitfield member offsets",
  "The column descriptions of a frame give back the names, types and bitfield members (names and sizes) given to the encoder; the offset reported for a member is the sum of the sizes of the members before it modulo 256, hence the true offset for every bitfield the C API accepts (at most 32 bits); a concrete wider definition is reported with a wrong offset.",
  "every bitfield definition",
  "wide definitions are not tested",
  [S+"api/Odb.cc: FrameImpl::columnInfo"])
p("C42","Compatible tables have the same columns",
  "Two tables without repeated column names are aggregated exactly when they have the same set of column names with the same types and widths, in any order. Repeated names defeat the check ({a,b} is accepted against {a,a}), and the layout of bitfields is not compared.",
  "every pair of column lists",
  "all pairs, including duplicated names",
  [S+"core/MetaData.cc: compatible"])
p("C43","Comparing two files",
  "Comparing two files finds no difference only if both are read to their ends and have equally many rows with the same column names (and types, bitfields and missing flags, unless excluded), missing values in the same places, equal texts, and finite numbers that differ by less than 1e-9 (absolutely if one of them is at most 1e-9, else relative to the larger; REAL values in single precision). It finds none whenever the rows agree in this way, with the largest double below 1e-9 as the bound, in particular when a file whose numbers are finite is compared with itself. If it finds none it finds none with the files in the other order (when no column's type is excluded). Concrete files show what does not hold: a file with an infinity or a NaN differs from itself, distinct integers can be the same (all integers below 2^52 if integers are not stored as doubles), and the same rows framed differently can differ.",
  "every pair of files, every set of excluded columns and options, every pair of doubles",
  "all files and value pairs",
  [S+"Comparator.cc: compare", S+"Comparator.h: err, same, compare", S+"ReaderIterator.cc: next, isNewDataset"])
p("C44","Splitting by column values partitions the rows",
  "Splitting a file with a file name template sends every row, in order, to the file named by the row's values, and to no other: afterwards each such file holds (after what it held before, when appending) exactly the rows with its name, whole and readable, and every other file is untouched, however many files may be open at once and however often a file is closed and opened again; never more files than allowed are open. This is so for rows the writer can copy, provided that rows have equal values just if they have equal names (so it is for a template with one parameter that is a column of whole numbers or of short printable texts), that the columns before a parameter are one double wide, and that either no file has to be closed early, or the files did not exist before, or the split appends (and the directories exist). Concrete splits show what does not hold otherwise: after a file has been opened again, files that existed are appended to instead of replaced, numbers with equal integer parts share a file and lose their order, a wide string before the column gives the name of another cell, a slash takes characters with it, a NaN is undefined behaviour, a missing directory is not made when appending.",
  "every file, template, limit of open files (at least one) and state of the file system",
  "all sequences of keys with eviction and reopening, all templates",
  [S+"WriterDispatchingIterator.cc: pass1, writeRow, dispatchIndex, createIterator, generateFileName, close", S+"TemplateParameters.cc: parse", S+"ODBAPISettings.cc: writeToFile, appendToFile"])
p("C45","Text import: header, rows and values",
  "Importing a delimited text whose header declares columns NAME:TYPE or NAME:BITFIELD[a:1;b:2] and whose other lines have one field per column, with integers kept as doubles, gives a file with exactly one row per line, in order, in columns of the declared names, types and bitfield members; each cell, read in any mode, holds the value its field is the text of (NULL in any case: missing, or an empty text; texts of any length, wider than the column so far included), and the number of rows is returned. A text with a column of no or no known type, or a bitfield with a repeated member or more than 31 bits, is refused. Five ways it fails, each shown by a concrete text: a blank line silently ends the import; without integers kept as doubles integers are corrupted; empty fields, quoted delimiters and CR LF line ends are refused; a negative bitfield member size is accepted.",
  "every table text, every row count, field width, delimiter set and frame size, every memory content",
  "all texts; widths change between rows, and the row buffer is reallocated in mid-row",
  [S+"csv/TextReaderIterator.cc: parseHeader, parseBitfields, next", S+"api/Odb.cc: odbFromCSV", S+"WriterBufferingIterator.h: pass1"])
p("C46","Frames of one encode call are independent, and a failing call leaves whole frames",
  "The output of an encode call is the concatenation of the frames that encoding each group of rows alone gives; if a group cannot be encoded the call fails exactly as encoding that group alone does, after writing the frames of all groups before it and nothing else.",
  "every table, every frame size, every group that fails",
  "all slicings and failure points",
  [S+"api/Odb.cc: encode", S+"core/Encoder.cc"])
p("C47","A constant infinity with missing values is not encoded safely",
  "A REAL or DOUBLE column that holds missing values and otherwise only one value, an infinity, makes the encoder convert the difference inf - inf to an integer, which is undefined behaviour; a concrete column shows it. Every other NaN-free column avoids it.",
  "every NaN-free REAL or DOUBLE column",
  "depends on the statistics of the whole column",
  [S+"codec/CodecOptimizer.h: setOptimalCodecs"])
p("C48","Decoding into caller-supplied memory writes the decoded elements and nothing else",
  "Decoding into arrays in memory (any base, element size and stride, not overlapping) leaves in every element of every array exactly the decoded value, and changes no other byte of memory, also when decoding fails part way.",
  "every frame content, every set of non-overlapping arrays, every memory content",
  "all layouts and the memory around them",
  [S+"core/Table.cc: decode", S+"api/StridedData.h", S+"core/DecodeTarget.cc"])
p("C49","Copying a file row by row preserves all rows",
  "Reading a file and passing its rows to a new writer (pass1) gives a file with the same rows in the same order: the same cells (REAL values as single precision numbers) in columns of the same names and types, whatever the frame sizes of the two files, and also when the columns change within the file. Bitfield members are preserved too if they do not change between tables with otherwise equal columns (if they do, the first ones win: shown by a concrete file).",
  "every readable file with ordinary values, every frame size of the copy",
  "all files, with any sequence of columns and frame sizes",
  [S+"WriterBufferingIterator.h: pass1, pass1init", S+"WriterBufferingIterator.cc: writeRow, flush", S+"core/MetaData.cc: operator=, equals", S+"core/Column.cc: operator=, equals", S+"ReaderIterator.cc: next"])
p("C50","Encoding through the C API encodes the values at the stated places",
  "After any sequence of calls on an encoder of the C API, encoding either is refused with nothing written, or writes exactly what encode() writes for the values found in memory at the places configured: row r and column i of a row-major or column-major array of the given width and height (values wider than an array column spread over neighbouring ones), or of one array per column with its stride. It is refused exactly when rows, rows per frame or columns are zero, the array is too small, its rows are not whole doubles, or a column has both kinds of array or none. Only bytes of the array are read, freed copies never are, a caller's buffer is never overrun and a file that does not fit it is reported. The file gives the values back, also through the C API decoder. Bitfield members added never exceed 32 bits. Encoding the same array twice is refused (C50_again_refuted); an encoder given a second, taller array keeps the row count of the first (C50_rows_refuted); a rejected array request resets the columns (C50_rejected_refuted); array columns that do not divide the values make it read outside its copy (C50_wide_refuted); negative member sizes are accepted (C50_negative_refuted).",
  "every sequence of calls with any arguments, every memory content, fewer than 2^31 rows, array columns that divide the values",
  "all call histories, layouts and memory contents",
  [S+"api/odc.cc: odc_encoder_*, fill_in_encoder, odc_encode_to_data_handle, odc_encode_to_stream, odc_encode_to_buffer"])
p("C51","Row counts, block lists and chunks agree with the tables of the file",
  "Without decoding any value: the row count of a file is the sum of the rows of its frames, as encoded, and counts of several files add up; the block list gives the offset and length of every frame, in order, covering the whole file; the chunks used for sorted splitting are consecutive groups of whole frames that cover the file, each at most the size asked for besides its first table, provided the first table fits that size. A file cut inside a frame is refused by all of them, one cut between frames is counted up to there. The index of a block lists exactly its runs of equal sequence numbers. Counterexamples: if the first table is larger than the chunk size and the rest fits, the only chunk is empty and the file is lost; a chunk can exceed the size although every table fits.",
  "every file made of frames, every truncation, every chunk size, every sequence of sequence numbers",
  "all files and cut points; the loss depends on the sizes of all tables",
  [S+"RowsCounter.cc: fastRowCount", S+"tools/CountTool.cc: rowCount, run", S+"Indexer.cc: offsetsOfBlocks, createIndex", S+"tools/SplitTool.cc: getChunks", S+"core/TablesReader.cc"])
p("C52","Setting columns to constants changes these columns and nothing else",
  "The set tool, given a list of assignments NAME=NUMBER or NAME=0x<bytes>, writes a file with the rows of the input in the same order, columns of the same names and types, in which each named column holds the value of the last assignment to it and every other column what it held, also when the columns and their positions change within the file. A name that designates no column of the first table, or several, is refused. The text of the assignments is understood as written, hexadecimal values byte by byte from the least significant. Counterexample: with a column wider than eight bytes the row handed to the writer is too short.",
  "every list of assignments, every readable file whose values take eight bytes each, every frame size of the result",
  "all files with any sequence of columns; all assignment texts",
  [S+"ODAUpdatingIterator.cc", S+"ConstantSetter.h", S+"tools/SetTool.cc: parseUpdateList, run", S+"WriterBufferingIterator.h: pass1"])
p("C53","Merging files puts their rows side by side",
  "The merge tool (without SQL) writes as many rows as the shortest input has; row k has the columns and values of row k of every input, in the order of the inputs, whatever the frame sizes of the inputs and of the result. If an input has no rows nothing is written. A column whose name, with or without its table, is that of a column of an earlier input is refused. Of values wider than eight bytes only the first eight bytes are kept, followed by zeros, so longer texts are cut (C53_cut, C53_long_refuted); whether \"e\" and \"e@t\" may be merged depends on the order of the files; if the columns of an input change, later values are written under the names of the first table.",
  "every list of readable files with unchanging columns and ordinary values, every frame size of the result",
  "all combinations of files, their lengths and frame sizes",
  [S+"tools/MergeTool.cc: merge, doMerge", S+"core/MetaData.cc: operator+=, hasColumn", S+"WriterBufferingIterator.cc: data, next, allocBuffers"])
p("C54","Rewriting headers changes what was asked for and nothing else",
  "The mdset tool, given a list of NAME, NAME:TYPE, NAME=VALUE and NAME:TYPE=VALUE, writes one frame per frame of the input: the same byte order, properties, row count and data bytes, and the same columns, except that a named column has the type and, if its codec is a constant one, the minimum and maximum asked for (the last word counts). A reader of the result finds in the columns about which nothing was said exactly what it found before; in a constant column given a value, that value in every cell that was not missing, and missing cells stay missing. A name that calls no column or several, or a value for a column that is not constant, is refused (as is a word that is no type), after the frames before it have been written; a file cut short is rewritten up to its last whole frame and reported. Numbers are numbers; a quoted text of at most eight characters is aligned to the right. Exceptions: a long constant text keeps its value; members of bitfields are never set; two values for one column are taken as none.",
  "every argument of the described form, every file made of frames of any origin (whose tables of texts are as wide as their longest entry), every truncation; for the values: every table that can be encoded, both byte orders, both settings",
  "all files, arguments and cut points; the header is rewritten without decoding, so that the data agree with it holds only if no codec depends on what is changed",
  [S+"tools/MDSetTool.cc: run, parseUpdateList", S+"StringTool.cc: translate, cast_as_double, isInQuotes", S+"core/Header.cc: serializeHeader", S+"core/Column.cc: type", S+"core/TablesReader.cc"])
p("C55","A query is given the named columns of every row",
  "An SQL query over a file is handed, for each row of the file in order and until the same end (clean, cut short or damaged), the cells of the columns it asked for by name, each with that column's own width and missing value, also when the tables of the file have their columns in different places, of different widths or with other missing values; the engine is told when they change. A file in which some table lacks such a column, or has several of that name, is refused with a user error when the first row of that table is reached, the rows before it having been delivered. Exception: after rewind() the first table is read with the column places of the last table seen, so a query that goes over the file again (a join) gets wrong values unless all tables have the asked columns at the same place (C55_rewind, C55_rewind_refuted).",
  "every file, every list of names, every number of steps before a rewind",
  "all files whose tables differ in layout, and all moments at which the iterator can be rewound",
  [S+"sql/TODATableIterator.cc: next, updateMetaData, columnIndex, rewind", S+"sql/TODATable.cc: iterator", S+"ReaderIterator.cc: next, dataOffset, isNewDataset"])
p("C56","The older C interface delivers the rows of a file",
  "Through odb_read_iterator_*, the k-th call of get_next_row is about the k-th row of the file: if the count passed is the number of its columns, exactly that row is stored at the start of the caller's buffer and nothing behind it is touched, otherwise code 2 is returned and the buffer left alone; a change of columns is announced in *new_dataset; after the last row every call returns 1. Each value of a delivered row is at the offset and of the size the interface gives for its column. Rows written through odb_write_iterator_* are read back by a caller with room for the rows as written, and a row with a wrong count is refused. Texts describing bitfield members can be passed from a reader to a writer. Exceptions: a row refused with code 2 is gone, so the usual caller, who asks for the number of columns before each call, loses the first row of every table that has another number of columns than the one before (C56_poll, C56_lost_refuted); if texts are longer in a later frame its buffer is overrun (C56_overrun, C56_overrun_refuted); get_missing_value of the column after the last reads beyond the columns (C56_missing); a member name not followed by ':' is ignored.",
  "every file, every sequence of calls with any counts and buffers, every list of rows written in any frame size",
  "all files with changing tables and all sequences of calls",
  [S+"odccapi.cc: odb_read_iterator_get_next_row, odb_read_iterator_get_missing_value, odb_write_iterator_set_next_row, odb_write_iterator_set_bitfield, get_bitfield", S+"ReaderIterator.cc", S+"WriterBufferingIterator.cc"])
p("C57","The ODB file written from a query's results holds those results",
  "Writing the results of a query to an ODB file gives one row for each row of results, in order and whatever the frame size, with the titles and types of the result columns, the members of bitfields, and the values; a missing number becomes the format's missing value, a missing text the empty text. When the texts get wider during the query, what was written before stays and the rows go on in wider columns. A column that changes its title or type during the query is refused, as is a text longer than its column. (If the title of a text column also designates another column, s and s@t, the query fails as soon as the texts get wider.)",
  "every list of columns, every sequence of results and announcements of types, every frame size, both settings",
  "all sequences of results and changes of types; the row buffer is reused between rows and replaced at every flush",
  [S+"sql/ODAOutput.cc: initUpdateTypes, output, outputNumber, outputString", S+"WriterBufferingIterator.cc: flushAndResetColumnSizes, setColumn, setBitfieldColumn, data, next, allocBuffers"])
p("C58","Reading row by row and decoding table by table give the same data",
  "For any file, if iterating over its rows reaches the end, then reading it table by table reaches the end too, sees the same tables with the same columns and as many rows, and decoding any choice of columns of a table gives exactly the values the iteration gives for its rows (a value never stored is the missing value in both). In particular a file written row by row, or from a query's results, gives back the values written when its tables are decoded with the column interface. This supposes that no stored row claims to begin past the last column: such a file can be iterated over while decoding it is undefined.",
  "every file, row limit, choice of columns, target array large enough, both integer settings, any contents of uninitialised memory",
  "two independent decoders (one carries the last row over, the other fills columns backwards) must agree on every sequence of repeated leading columns",
  [S+"ReaderIterator.cc: loadHeaderAndBufferData, initRowBuffer, readBuffer, next", S+"core/Table.cc: readTable, readEncodedData, decode", S+"core/TablesReader.cc: ensureTable", S+"WriterBufferingIterator.cc", S+"sql/ODAOutput.cc"])
p("C59","Readers and frames of the C interface are windows on the data",
  "A program that uses only live handles gets, whatever frames and readers it holds and in whatever order it calls them, the answers of a simple model: the frames of a reader together deliver every table of its data exactly once and in order, one by one or grouped as the first call to advance asked for; a frame shows what it was last advanced to, and questions about rows, columns, members of bitfields and properties are answered about that, never about another frame; a table larger than the limit is an error and is skipped; at the end every frame of the reader is told so. Nothing it does is undefined, provided that no frame that shows nothing is copied and that properties asked for by position exist and are asked of a frame not copied since. Data cut inside a frame is never reported as complete.",
  "every sequence of calls, any number of readers and frames over any intact (or, for the last sentence, cut) data, every limit",
  "interleavings of calls on several frames of several readers, with memoised state in each handle",
  [S+"api/odc.cc: odc_reader_t, odc_frame_t, odc_open_*, odc_close, odc_new_frame, odc_free_frame, odc_next_frame, odc_next_frame_aggregated, odc_copy_frame, odc_frame_row_count, odc_frame_column_count, odc_frame_column_attributes, odc_frame_bitfield_attributes, odc_frame_properties_count, odc_frame_property_idx, odc_frame_property", S+"api/Odb.cc: ReaderImpl::next, Frame"])
p("C60","The Fortran interface does what the C interface does",
  "Every procedure of the Fortran interface makes the C call it stands for: columns, members and properties are counted from one, texts lose their trailing blanks, the extents of an array give rows and columns. An optional argument left out has its documented value, unless an earlier call of the same procedure passed it another value: then that value is used again. Programs on readers and frames are told what C59 says. A table given as a contiguous array is encoded, read and decoded so that what was in data(r, c) is found in data(r, c), or in data(c, r) where row major layout was asked for, with texts of several doubles in neighbouring elements, whatever the number of threads.",
  "every sequence of calls on any number of objects, every shape, layout, table, earlier history of optional arguments",
  "local variables that keep their values between calls make the effect of a call depend on the whole history of the program",
  [S+"api/odc.f90: frame_next, decoder_initialise, decoder_set_data_array, decoder_data_array, decoder_column_set_data_array, decoder_decode, encoder_set_data_array, encoder_column_set_data_size, encoder_column_set_data_array, encoder_add_column, encoder_encode, fortranise_cstr", S+"api/odc.cc", "docs/content/reference/f90-reference.rst"])
p("C61","A query's rows in a buffer of doubles",
  "Each row of a SELECT is put into the buffer in force (the output's own, or the one the caller handed over last) with every value at the offset of its column: numbers as they are, missing ones as the missing value of the column's type whatever the source used, texts in full and padded with zeros; the columns, offsets, row size and count reported are those announced by the query, and isNewDataset is true exactly for the first row after columns were announced. A row is put out exactly if its results fit their columns and the buffer is exactly one row large; otherwise an exception is raised, the row is not counted and isNewDataset does not change. No byte outside the buffer ever changes. Through the older C interface, for a query whose rows all have one width, the calls give the rows one after another, and 1 for ever after the last.",
  "every sequence of announcements, buffers and rows, good and bad, every memory, every sequence of calls",
  "the offset of every value, the flag and the safety of the buffer depend on the whole history of announcements, buffers and failed rows",
  [S+"sql/SQLSelectOutput.cc: resetBuffer, output, outputNumber, outputString, updateTypes", S+"SelectIterator.cc: next, setOutputRowBuffer", S+"odccapi.cc: odb_select_iterator_get_next_row, odb_select_iterator_get_row_buffer_size_doubles", S+"sql/Types.cc: sqlToOdbType"])
p("C62","Filtering a frame or file with a query",
  "filter() writes exactly the rows of the query, in order, and returns their number; read back, every row has columns of the titles, types and widths announced for it (bitfields with the members of some row of such columns) and the values put out (missing numbers as the format's missing value, texts in full), whatever the frames they were spread over and also when columns are announced anew between rows. If it returns, every row had a value for each column, every text fitted its column and every column was of a known type: otherwise it raises an exception. Frame::filter feeds the query the encoded bytes of the frame's tables one after another, whatever lengths are read. It returns the empty frame for a query without rows, and one frame with all rows if what was written reads as one frame, which is so if all rows have columns of the same titles and types, each eight bytes wide; otherwise it raises an exception (and this happens for columns of wider strings, though the titles, types and widths are the same for all rows).",
  "every query (as a sequence of announcements and rows), every number of rows per frame, every schedule of reads, every settings of the reader, every frame of every file",
  "where the output is split into frames, and whether they read back as one, depends on the number and the values of all rows; the reads of the query engine are any sequence of lengths",
  [S+"api/Odb.cc: filter, FrameImpl::filter, SerialTableReadHandle", S+"WriterBufferingIterator.h: pass1", S+"Select.cc: begin", S+"SelectIterator.h: isNewDataset, columns, data"])
p("C63","Verifying a split",
  "The split tool with verification reads the input again and compares each row with the next row of the file it belongs to. If no more files were written than may be open at a time, the number of rows reported is that of the input, and the number of differences that of the rows whose counterpart in the files, as they are then, is absent, has other names or types of columns, or does not agree as the compare tool has it (missing values as such, texts, numbers within its tolerance); the files are not changed. If the split is of values that can be checked (finite numbers, texts that are not empty), then it reports no differences. With more files than may be open it reports differences in files that are right; rows too many in a file are not noticed; and if the tables of the input have their columns in different orders it may empty a file that the split has not touched.",
  "every file, template and routing of rows to files, every state of the files when they are verified, every limit on open files, every content of the memory of the readers",
  "what is compared depends on the whole history of the split: which row went to which file, at which place, which files were open at the end, under which index",
  [S+"WriterDispatchingIterator.cc: verify, pass1, close", S+"tools/SplitTool.cc: split", S+"Comparator.cc: compare"])
p("C64","The index file",
  "Indexing a data file (smaller than 2 GiB, integers handled as doubles) writes a file with the INTEGER columns block_begin, block_length, seqno and n_rows, which any reader reads back exactly: block after block of the data file, in order, one row for each run of consecutive rows with the same seqno. So the begin and length in a row cut exactly one block out of the data file, and that block has rows with that seqno; for every seqno in every block there is such a row; and the n_rows for a seqno add up to the number of rows of the data file that have it. There is one row for each seqno and block, as the tool's help says, if the rows of a block are grouped by seqno (otherwise there are several). It does not hold without integers as doubles, nor beyond 2 GiB.",
  "every data file, every sequence of seqnos in it, every buffer size and properties of the index, every settings of the reader, every content of its memory",
  "the runs, the places of the blocks and the cells of the index must all fit for arbitrary many blocks and values, and come back from a file that is split in frames anywhere",
  [S+"Indexer.cc: createIndex, offsetsOfBlocks", S+"tools/IndexTool.cc: usage, run", S+"core/MetaData.h: addColumnPrivate", S+"WriterBufferingIterator.cc: next, writeRow"])
p("C65","Compacting a file",
  "The compact tool (and fixrowsize, which does the same) rewrites a file. If the tables of the file all have the same columns, the copy has the same rows, in frames of exactly the number of rows the writer buffers, all but the last: whatever the tables of the original. The verification that follows succeeds only if the copy has all rows with the same values (numbers within 1e-9). Conversely, for files of finite numbers, missing values and texts, it succeeds exactly if the columns of the file are flagged as having missing values where the frames of the copy have them; so it fails on a right copy when a table with missing values has been joined with one without, or cut in two of which only one has them.",
  "every file, every way its rows are in tables, every buffer size, settings, properties and content of memory",
  "the outcome depends on how the tables of the file and the frames of the copy overlap, for arbitrarily many of both",
  [S+"tools/CompactTool.cc: run", S+"tools/FixedSizeRowTool.cc: run", S+"WriterBufferingIterator.h: pass1", S+"Comparator.cc: compare", S+"core/Codec.cc: gatherStats"])
p("C66","The command line of a tool",
  "Every command line has exactly one reading as parameters, options and options with an argument (exactly one up to a last option whose argument is missing). Whatever is asked of the command line parser, in whatever order and however often, and of copies of it, it answers from the reading in which exactly the options registered before the first question take an argument: the parameters are the words that neither begin with '-' and go on nor follow such an option, in order; an option is set if it occurs as an option; its argument is the one given last, or else the default. If the last word is an option whose argument is missing, every question is refused.",
  "every command line, every set of registered options, every history of calls on the parser and its copies",
  "command lines and histories of calls are unbounded, and the parser keeps state between the calls",
  [S+"CommandLineParser.cc: CommandLineParser, registerOptionWithArgument, parameters, optionIsSet, optionArgument, parseCommandLine, argv"])
p("C67","What the header tool prints",
  "With -offsets, odc header prints for every frame of a file, in order, one line of four decimal numbers: its offset, its length in bytes, its rows and its columns. With -ddl, it declares one table for every maximal run of successive frames whose columns have the same names, types and widths, with the columns of the first. The declarations printed for a list of tables determine the names of the columns (up to the name of the table), their types and the members of bitfields, for names without spaces, commas and line breaks.",
  "every file made of frames, every table name and path, every list of columns",
  "the runs depend on all frames of the file, and that a text can be read in one way only is a statement about all pairs of lists of columns",
  [S+"tools/ODAHeaderTool.cc: OffsetsPrinter, DDLPrinter, HeaderTool::run", S+"core/MetaData.cc: equals", S+"core/Column.cc: equals"])
p("C68","The column a name in a query denotes",
  "A file that begins with the five bytes of ODB is a table of the SQL engine, which is told of every column of its first row the name, index, type, size, missing value and bitfield members. A name in a query denotes the column that has it; where there is none, the only column whose name is this one, an @ and more; where there are several of these the name is refused, and otherwise it is not a name of the table. A query for names that denote columns sees in every row the value of the column with the name that was found, whatever the order of the columns in later tables, if no other column's name continues it with an @; if one does, the query is refused.",
  "every list of columns with distinct names, every name, every file and every list of names in a query",
  "the names a user may write and the names of columns a file may have are unbounded, and the rule must hold in every table of the file",
  [S+"sql/TODATable.cc: ODAFactory, populateMetaData, hasColumn, column", S+"sql/TODATableIterator.cc: columnIndex, updateMetaData", S+"core/MetaData.cc: columnIndex"])
p("C69","The listing of a file shows its rows",
  "odc ls prints one line for every row of a file, in order, with the values of the columns separated by tabs, and a line with the names of the columns before the first row and wherever the columns (their names, types or widths) change; it returns the number of rows. A missing value is a dot, an integer is printed exactly, a real number to the nearest millionth, a text between quotes. If reading fails, the rows before are listed. Two files with the same listing have the same rows, numbers up to a millionth, if names begin with letters and no text contains tabs and line breaks.",
  "every file, every row whose integers fit in 32 bits and whose numbers are finite; every pair of files with the same listing",
  "the layout depends on all rows before, decimal rounding must be right for every double, and that a text can be read in one way only is a statement about all pairs of files",
  [S+"tools/LSTool.cc: printData", S+"IteratorProxy.h: isMissing, string", S+"core/MetaData.cc: operator=="])
p("C70","The compare tool",
  "odc compare ends normally only if every row of the first file agrees with the corresponding row of the second (in the sense of C43) but for the values of the columns given to -excludeColumns and the types of those given to -excludeColumnsTypes (names separated by commas, wherever the options stand on the command line; of an option given twice the last counts), and it does whenever the rows agree within the largest double below 1e-9. Any other number of parameters than two files, and a file that does not exist, are refused. Whether a column has missing values is compared just if -dontCheckMissing IS given: the flag does the opposite of what its name says.",
  "every command line that can be read, every pair of files, every list of excluded columns",
  "all command lines and pairs of files",
  [S+"tools/CompareTool.cc: CompareTool, run", S+"Comparator.h: Comparator", S+"Comparator.cc: compare", S+"CommandLineParser.cc"])
p("C71","The import tool",
  "odc import without -sql (or with 'select *;') writes to the file named last what the API makes of the text of the file named first with the comma as delimiter: for the text of a table (C45) one row per line with the values of the fields. The delimiter given with -d makes no difference at all, so a text with another delimiter cannot be imported by giving it, though the API can import it.",
  "every command line that can be read, every text",
  "all command lines and texts",
  [S+"tools/ImportTool.cc: ImportTool, run", S+"api/Odb.cc: odbFromCSV", S+"CommandLineParser.cc"])
p("C72","The merge tool",
  "odc merge with two or more files writes to the file named with -o (wherever that stands on the command line) the rows of the files side by side, as C53 says. Without -o nothing is refused: the result goes to a file called <no-default>. With -S, which takes a query after every file, the files and queries are taken in pairs; a file without a query is undefined behaviour.",
  "every command line that can be read, every set of files that can be merged",
  "all command lines and files",
  [S+"tools/MergeTool.cc: MergeTool, run, merge", S+"CommandLineParser.cc"])
p("C73","The part of a file the sql tool looks at",
  "odc sql with the -offset and -length of a frame or group of frames, as header -offsets or a chunk list gives them, looks at exactly the bytes of these frames, unless the offset is 0: then it looks at the whole file, whatever the length. With an offset and no length it looks at nothing.",
  "every file made of frames, every grouping of its frames, every group, every command line that can be read",
  "all files, groupings and command lines",
  [S+"tools/SQLTool.cc: SQLTool, run", S+"CommandLineParser.cc: optionArgument"])
p("C74","The tools that rewrite a file, from the command line on",
  "odc set and odc mdset take an update list, an input and an output; odc compact and odc fixrowsize an input and an output; odc index an input and, if it is given, an output, whose name is otherwise that of the input with .idx after it. The output holds what C52, C54, C65 and C64 say of the input. Options in between change nothing. Any other number of parameters is refused, and so is an input that does not exist.",
  "every command line that can be read, every set of files",
  "all command lines and files",
  [S+"tools/SetTool.cc: run", S+"tools/MDSetTool.cc: run", S+"tools/CompactTool.cc: run", S+"tools/FixedSizeRowTool.cc: run", S+"tools/IndexTool.cc: run", S+"CommandLineParser.cc"])
p("C75","The tools that show a file, from the command line on",
  "odc ls writes the listing of C69 of the one file named to the file given with -o, or to the standard output. odc header prints the lines of C67 with -offsets, even if -ddl is there too, and with -ddl alone the declarations of C67 of a table named with -table, or foo, on the file. Any other number of parameters is refused.",
  "every command line that can be read, every file",
  "all command lines and files",
  [S+"tools/LSTool.cc: LSTool, run", S+"tools/ODAHeaderTool.cc: HeaderTool::run", S+"CommandLineParser.cc"])
p("C76","The split tool",
  "odc split with an input and a template distributes the rows of the input as C44 says, with no more files open than -maxopenfiles says, or 200, and leaves all other files alone; unless -no_verification is there, it then verifies the files, and finds no differences if the rows go to no more files than may be open. With -sort, however, -maxopenfiles and -no_verification change nothing, and nothing is ever verified.",
  "every command line that can be read, every file and template as in C44 and C63, every other content of the disk",
  "all command lines, files and templates",
  [S+"tools/SplitTool.cc: SplitTool, run, split", S+"CommandLineParser.cc: optionArgument"])
p("C77","What the sql tool is asked and where its results go",
  "odc sql takes the words after its name, with blanks between them, as the query if the first of them has select in it in any mixture of cases; otherwise the first names a file with the query and the others are ignored. Text results (format ascii or wide, or no format and no -o) go to the file named with -o or to the standard output. With -o and the format odb, or none, the results are written as ODB to the file named, or split if the name has parameters in braces; a brace that is not closed is refused. ODB without -o and a command line without a query are refused before any file is opened, any other format only after the file was opened. Exceptions: -o - is the standard output for ODB but a file named - for text, and without a format a file with exactly the name given is opened for text besides, even if that name is a template.",
  "every command line that can be read, every set of files",
  "all command lines, queries and names",
  [S+"tools/SQLTool.cc: SQLTool, run", S+"sql/SQLOutputConfig.cc: buildOutput", S+"StringTool.cc: isSelectStatement", S+"TemplateParameters.cc: parse"])
with open('/verif/properties.jsonl','w') as f:
    for x in P: f.write(json.dumps(x)+"\n")
print(len(P))
