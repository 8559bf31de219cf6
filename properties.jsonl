{"id": "C01", "title": "Last writer wins, byte by byte", "statement": "On the default buffer, after any history of WriteAt, Write and Update (U plus filling the returned slice) calls, reading at an offset returns as its first byte the byte stored there by the most recent call that covered the offset, the original byte if no call covered it, and nothing if the offset was never defined.", "quantifier": "every initial byte content, every finite history of writes with arbitrary non-negative offsets and lengths (overlapping in any way), every offset", "why_tests_cant": "The journal splits and reorders entries depending on how earlier writes overlap; the number of overlap patterns is unbounded.", "anchors": ["query/base/base.go: BaseImpl.WriteAt, BaseImpl.Write, BaseImpl.U, BaseImpl.D, BaseImpl.R, BaseImpl.writerR"]}
{"id": "C02", "title": "A range read returns current bytes", "statement": "ReadAt(p, off) on the default buffer delivers, for every position it fills, the byte a one-byte read of that position delivers (no stale byte from an overwritten journal entry).", "quantifier": "every buffer state reachable by writes, every offset and length", "why_tests_cant": "Staleness appears only for particular overlap orders of journal entries (a short write inside an older long one).", "anchors": ["query/base/base.go: BaseImpl.ReadAt, BaseImpl.R, BaseImpl.writerR"]}
{"id": "C03", "title": "Updating a range leaves everything else alone", "statement": "Updating size bytes at off (the U call followed by filling the slice it returns) sets exactly the positions off..off+size-1 to the new bytes; every other position of the buffer reads as before.", "quantifier": "every buffer state, every off >= 0, size >= 0, every data of that size, every other position", "why_tests_cant": "The update splits existing journal entries in three places; whether the split loses or duplicates bytes depends on an unbounded arrangement of entries.", "anchors": ["query/base/base.go: BaseImpl.U, BaseImpl.D, Diffs.insert"]}
{"id": "C04", "title": "Flatten preserves content", "statement": "Flatten on an in-memory buffer leaves the byte at every defined position unchanged, turns undefined gaps below the length into zero, keeps LenBuf, and leaves an empty journal.", "quantifier": "every in-memory buffer state, every position", "why_tests_cant": "Must hold for any number and overlap of journal entries.", "anchors": ["query/base/base.go: BaseImpl.Flatten, BaseImpl.FlattenWithLen, BaseImpl.LenBuf"]}
{"id": "C05", "title": "After Flatten, range reads are exact", "statement": "After Flatten, reading at any offset below the length returns the whole remaining content up to the end, and a second Flatten changes nothing.", "quantifier": "every in-memory buffer state, every offset", "why_tests_cant": "Unbounded journal shapes.", "anchors": ["query/base/base.go: BaseImpl.Flatten, BaseImpl.R"]}
{"id": "C06", "title": "Dedup is invisible", "statement": "Dedup never changes the byte read at any position nor the reported length; it only removes journal entries that a later entry covers completely.", "quantifier": "every buffer state and position", "why_tests_cant": "Deletion depends on all pairs of entries; a chain of covering entries of any length must keep its last member.", "anchors": ["query/base/base.go: BaseImpl.Dedup"]}
{"id": "C07", "title": "MergeDiffs is invisible", "statement": "MergeDiffs joins touching journal entries without changing the byte read at any position.", "quantifier": "every buffer state and position", "why_tests_cant": "Wrong only for particular triples of entries whose merge order differs from their write order.", "anchors": ["query/base/base.go: BaseImpl.MergeDiffs, BaseImpl.mergeDiffs, BaseImpl.mergeDiffsOf, Diff.MergeStable"]}
{"id": "C08", "title": "MergeDiffs terminates with separated entries", "statement": "MergeDiffs always returns, and afterwards no two journal entries touch or overlap.", "quantifier": "every buffer state", "why_tests_cant": "The code loops with goto until nothing merges; termination and the final shape need a measure, not examples.", "anchors": ["query/base/base.go: BaseImpl.mergeDiffs, BaseImpl.mergeDiffsOf"]}
{"id": "C09", "title": "Inserting space moves the tail and nothing else", "statement": "Inserting size zero bytes at pos yields a buffer where positions before pos read as before, positions pos..pos+size-1 read zero and every position q >= pos+size reads what q-size read before.", "quantifier": "every in-memory buffer state, every pos and size, every position", "why_tests_cant": "Journal entries straddling pos have to be split; the result depends on how many straddle and how they overlap.", "anchors": ["query/base/base.go: BaseImpl.insertBuf, BaseImpl.insertSpace, Diffs.insert"]}
{"id": "C10", "title": "Copy without extension overlays the source range", "statement": "Copy(src, srcOff, size, dstOff, 0) makes positions dstOff..dstOff+size-1 of the destination read what srcOff..srcOff+size-1 of the source read, as far as the source is defined without a gap, and leaves every other destination position unchanged.", "quantifier": "every pair of buffers in which ranges read consistently, every srcOff, size, dstOff", "why_tests_cant": "The source is delivered in pieces whose boundaries follow its journal; the loop must reassemble any number of pieces.", "anchors": ["query/base/base.go: BaseImpl.Copy, BaseImpl.R"]}
{"id": "C11", "title": "Copy with extension opens a gap", "statement": "Copy(src, srcOff, size, dstOff, extend) with extend >= size moves the former content from dstOff on by extend and puts the source range at dstOff.", "quantifier": "every destination state, every offset and extension", "why_tests_cant": "Only states with an entry straddling dstOff show the difference.", "anchors": ["query/base/base.go: BaseImpl.Copy"]}
{"id": "C12", "title": "LenBuf is the end of the content", "statement": "LenBuf of an in-memory buffer is the least bound above every readable position, and WriteAt(p, off) with non-empty p changes it to max(old, off+len(p)).", "quantifier": "every buffer state and write", "why_tests_cant": "Quantifies over all states.", "anchors": ["query/base/base.go: BaseImpl.LenBuf, BaseImpl.WriteAt"]}
{"id": "C13", "title": "Dup gives an equal and independent buffer", "statement": "Dup of an in-memory buffer reads the same at every position, and no write to one of the two is ever visible in the other.", "quantifier": "every buffer state, every later write history on either side, every position", "why_tests_cant": "Independence is a statement about all later histories and about sharing of backing arrays.", "anchors": ["query/base/base.go: BaseImpl.Dup"]}
{"id": "C14", "title": "Sequential Write appends", "statement": "Starting from an empty buffer, the Write calls p1, p2, ..., pn produce exactly the concatenation p1 p2 ... pn, each call reporting len(pi).", "quantifier": "every list of byte strings", "why_tests_cant": "Unbounded sequences.", "anchors": ["query/base/base.go: BaseImpl.Write, BaseImpl.WriteAt"]}
{"id": "C15", "title": "ReadAt and Read obey the io contracts", "statement": "ReadAt(p, off) never reports more than len(p) bytes, reports an error when it delivers fewer, and successive Read calls deliver consecutive content without skipping.", "quantifier": "every buffer state, every len(p), every offset", "why_tests_cant": "Holds or fails depending on the relation of len(p) to the distance to the next journal boundary.", "anchors": ["query/base/base.go: BaseImpl.ReadAt, BaseImpl.Read"]}
{"id": "C16", "title": "Streamed reads return stream bytes", "statement": "On a buffer opened over a random-access stream, every non-empty slice returned by R(off, Size(n)) agrees byte for byte with the stream from off on, whatever was read before and in whatever order.", "quantifier": "every stream content, every history of read requests, every off and n", "why_tests_cant": "Read-cache entries are created, expanded, capped and sorted depending on the whole request history.", "anchors": ["query/base/base.go: BaseImpl.readerR, BaseImpl.loadBuf, BaseImpl.AddRDiff", "query/base/io.go: ReaderAt.ReadAt"]}
{"id": "C17", "title": "Load buffers are large enough", "statement": "The buffer allocated for loading a request of n bytes from a stream has at least n bytes and is a whole number of pages.", "quantifier": "every n >= 0", "why_tests_cant": "Fails only at isolated sizes above 16 MiB.", "anchors": ["query/base/base.go: calcBufSize, BaseImpl.loadBuf"]}
{"id": "C18", "title": "The no-journal buffer reads like the default buffer", "statement": "R(off, Size(n)) with n >= 1 on a NoLayer returns the same slice as on the default buffer with the same content.", "quantifier": "every buffer state, off, n >= 1", "why_tests_cant": "Two different search conditions over an unbounded journal.", "anchors": ["query/base/directreader.go: NoLayer.R", "query/base/base.go: BaseImpl.R"]}
{"id": "C19", "title": "A no-journal update is readable", "statement": "After writing n bytes through NoLayer's U(off, n), a one-byte read at every offset in the range returns the written byte and every other position is unchanged.", "quantifier": "every buffer state, off, n, data", "why_tests_cant": "Depends on spare capacity of every journal entry, which tests do not see.", "anchors": ["query/base/directreader.go: NoLayer.D, NoLayer.U, NoLayer.R"]}
{"id": "C20", "title": "The two-layer buffer keeps content when merging", "statement": "Merging one journal entry into another (Diff.Merge, used by DoubleLayer on every access) yields an entry that reads as the second over the first.", "quantifier": "every pair of entries with any capacities", "why_tests_cant": "Five code paths selected by offsets, lengths and spare capacity.", "anchors": ["query/base/base.go: Diff.Merge", "query/base/directreader.go: DoubleLayer.mergeDiffs"]}
{"id": "C21", "title": "DirectReader continues in the stream", "statement": "DirectReader reads positions below the buffer length from the buffer and position length+k from stream position k.", "quantifier": "every buffer, stream and offset", "why_tests_cant": "All offsets around the border and all stream contents.", "anchors": ["query/base/directreader.go: DirectReader.R"]}
{"id": "C22", "title": "Scalars survive encode and decode", "statement": "For each scalar type, decoding the little-endian encoding of a value gives the value back, and encoding a decoded slice gives the slice back.", "quantifier": "every value of each of the types bool, byte, int8..int64, uint8..uint64, float32/float64 (as bit patterns)", "why_tests_cant": "2^64 values per type.", "anchors": ["query/base/node.go: Node.Byte .. Node.Float64", "query/base/common.go: CommonNode.SetBool .. CommonNode.SetFloat64"]}
{"id": "C23", "title": "Set then get on a scalar node", "statement": "After SetX(v) on a scalar node of the default buffer, X() returns v, and no byte outside the node's own bytes changes.", "quantifier": "every buffer state (any journal), every node position, every value, every scalar type", "why_tests_cant": "The value goes through the journal; correctness depends on arbitrary earlier entries around the node.", "anchors": ["query/base/common.go: CommonNode.SetInt64 and siblings", "query/base/node.go: Node.Int64 and siblings"]}
{"id": "C24", "title": "Reading a conforming table follows the FlatBuffers format", "statement": "For every byte layout that the FlatBuffers format allows for a table whose vtable precedes it and has an entry for the field, the accessors find the field at table position + vtable entry, report a zero entry as absent, and return the vtable and table lengths stored.", "quantifier": "every conforming buffer, table position, vtable and field index", "why_tests_cant": "All layouts (shared vtables, gaps, any number of fields).", "anchors": ["query/base/node.go: Node.VirtualTable, Node.VirtualTableIsZero, Node.TableLen, Node.VirtualTableLen, Node.Table"]}
{"id": "C25", "title": "A field the writer did not know is absent", "statement": "Reading a field whose index is at or beyond the number of entries in the table's vtable reports the field as absent.", "quantifier": "every conforming table and every index beyond its vtable", "why_tests_cant": "Depends on the bytes that happen to follow the vtable.", "anchors": ["query/base/node.go: Node.VirtualTable"]}
{"id": "C26", "title": "A fresh table is a valid empty table", "statement": "Creating a table node writes a buffer in which the vtable length, table length and vtable offset are consistent and every field of the schema is absent.", "quantifier": "every schema table with any number of fields below the vtable limit", "why_tests_cant": "All field counts.", "anchors": ["query/base/common.go: CommonNode.Init"]}
{"id": "C27", "title": "Setting scalar fields behaves like a map", "statement": "On a freshly created table, after any sequence of scalar field assignments, reading a field returns the last value assigned to it and reports never-assigned fields as absent.", "quantifier": "every schema of scalar fields, every finite sequence of assignments in any order with repetitions, every field", "why_tests_cant": "Each first assignment shifts bytes and rewrites the vtable; histories are unbounded.", "anchors": ["query/base/common.go: CommonNode.SetFieldAt, CommonNode.insertVTable, CommonNode.FieldAt, CommonNode.InsertSpace"]}
{"id": "C28", "title": "Struct fields do not overlap", "statement": "Field i of a struct occupies exactly the bytes from the sum of the sizes of the earlier fields; distinct fields occupy disjoint ranges inside the struct's size, so writing one never changes another.", "quantifier": "every struct schema and pair of fields", "why_tests_cant": "All schemas.", "anchors": ["query/base/common.go: CommonNode.FieldAt, CommonNode.ValueInfo, CommonNode.Info"]}
{"id": "C29", "title": "Struct layout agrees with the FlatBuffers format", "statement": "The position at which a struct field is read equals the position the FlatBuffers format assigns to it (each scalar aligned to its size).", "quantifier": "every struct schema", "why_tests_cant": "Schemas whose fields need no padding hide the difference.", "anchors": ["query/base/common.go: CommonNode.FieldAt, CommonNode.Info"]}
{"id": "C30", "title": "Reported buffer length covers the data", "statement": "Len rounds the end of the data up to a multiple of eight: it is a multiple of eight, not below the end, and less than eight above it.", "quantifier": "every node", "why_tests_cant": "All residues and nested ends.", "anchors": ["query/base/common.go: CommonNode.Len"]}
{"id": "C31", "title": "List access is bounds-checked", "statement": "At(i) on a vector returns an error for every i outside 0..Count-1 and an element located inside the vector's data for every i inside.", "quantifier": "every vector, every integer i (negative ones too)", "why_tests_cant": "All counts and indexes.", "anchors": ["query/base/list.go: List.At, List.Count"]}
{"id": "C32", "title": "Vectors are read per the FlatBuffers format", "statement": "Element i of a vector of scalars or structs is found at start + i*size, and element i of a vector of tables at slot position + stored offset.", "quantifier": "every conforming vector and index", "why_tests_cant": "All lengths and offsets.", "anchors": ["query/base/list.go: List.At"]}
{"id": "C33", "title": "Select, Find and All are filter, first match and everything", "statement": "Select(f) returns exactly the elements satisfying f in order, Find(f) the first of them, All every element in order.", "quantifier": "every list and predicate", "why_tests_cant": "All lists and predicates.", "anchors": ["query/base/list.go: List.Select, List.Find, List.All"]}
{"id": "C34", "title": "SearchIndex finds the boundary", "statement": "For a predicate that is false on a prefix and true on the rest, SearchIndex(n, f) returns the first index where it is true, or n; it always stops, and only evaluates f on indexes in 0..n-1.", "quantifier": "every n and every monotone predicate", "why_tests_cant": "Binary search: all sizes and boundary positions.", "anchors": ["query/base/list.go: List.SearchIndex", "template/genny/list.go: NodeNameList.SearchIndex"]}
{"id": "C35", "title": "Swapping table elements swaps their targets", "statement": "SwapAt(i, j) on a vector of tables makes slot i refer to what slot j referred to and vice versa, leaves every other slot and all other bytes unchanged, and is its own inverse.", "quantifier": "every vector of tables, every pair of indexes", "why_tests_cant": "Offsets are relative and wrap modulo 2^32.", "anchors": ["query/base/list.go: List.SwapAt"]}
{"id": "C36", "title": "Swapping fixed-size elements swaps their bytes", "statement": "SwapAt(i, j) on a vector of structs or scalars exchanges the bytes of the two elements.", "quantifier": "every vector, buffer kind and pair of indexes", "why_tests_cant": "Depends on the buffer implementation and earlier journal.", "anchors": ["query/base/list.go: List.SwapAt", "query/base/base.go: BaseImpl.U"]}
{"id": "C37", "title": "Sorting permutes", "statement": "SortBy on a vector of tables ends with the same multiset of targets as before, whatever comparison function is used, and sorted if the comparison is a strict weak order.", "quantifier": "every vector and comparison; every sequence of in-range swaps a sorting algorithm may issue", "why_tests_cant": "All inputs and all swap schedules.", "anchors": ["query/base/list.go: List.SortBy, List.SwapAt"]}
{"id": "C38", "title": "Appending fixed-size elements", "statement": "Starting from an empty list of scalars or structs, any sequence of appends followed by reads returns the appended elements in order with Count equal to their number; overwriting element k changes only element k.", "quantifier": "every element size, every sequence of appends and overwrites", "why_tests_cant": "Unbounded sequences; every append goes through the journal.", "anchors": ["query/base/list.go: List.SetAt, List.setStructAt, List.Count, List.At"]}
{"id": "C39", "title": "Appending tables", "statement": "Starting from an empty list of tables, any sequence of appends of self-contained tables yields a vector whose element i is a table with the same content as the i-th appended one.", "quantifier": "every sequence of tables", "why_tests_cant": "Each append inserts a slot, moves all data, and rewrites all earlier offsets.", "anchors": ["query/base/list.go: List.SetAt, List.setTableAt, List.movOffToTable"]}
{"id": "C40", "title": "Type-name classification", "statement": "Every FlatBuffers scalar type name is classified as a scalar of its width, a vector type as a vector of its element's class.", "quantifier": "every type name", "why_tests_cant": "The classifier strips prefixes and looks names up in a table; all strings matter.", "anchors": ["query/base/util.go: GetTypeGroup, NameToType"]}
{"id": "C41", "title": "Symbols identify names", "statement": "Registering names assigns each distinct name its own index and looking an index up returns the name; registering a name again returns the same index.", "quantifier": "every sequence of registrations", "why_tests_cant": "Unbounded registration histories.", "anchors": ["query/base/util.go: AddName, Symbol, SymbolToString, NodeFieldSynmbol, SymbolToNames"]}
{"id": "C42", "title": "Deferred name tables are all applied", "statement": "After the package initializers have run and the deferred requests have been applied, every field's recorded group is the class of its declared type under all declarations of the schema, none is pending, and the result does not depend on the order of the initializers; the root name is the first non-empty one set.", "quantifier": "every sequence of initializers, in every order", "why_tests_cant": "Go may order initializers of a package freely; all permutations matter.", "anchors": ["query/base/util.go: RequestSettingNameFields, ApplyRequestNameFields, SetRootName"]}
{"id": "C43", "title": "Parsing recovers the schema", "statement": "For every schema built from tables, structs and unions whose identifiers do not clash with keywords, parsing its text yields its declarations with field names and types in order, independent of white space and comments between tokens.", "quantifier": "every schema of the stated class, every layout", "why_tests_cant": "Infinitely many texts.", "anchors": ["fbsparser/fbs.peg", "fbsparser/parser.go: ExtractStruct, NewExtractField, SetType, SetRepeated, NewUnion"]}
{"id": "C44", "title": "Declarations do not leak into each other", "statement": "The fields of a parsed table, struct or union are exactly those written between its braces.", "quantifier": "every schema, every order of declarations", "why_tests_cant": "Shows only for certain orders of declaration kinds.", "anchors": ["fbsparser/fbs.peg: enum_decl, enum_field", "fbsparser/parser.go: NewExtractField, ExtractStruct, NewUnion"]}
{"id": "C45", "title": "Each union field gets its type field", "statement": "Finalising a schema inserts, directly before each union-typed field and nowhere else, one byte field named after it with the suffix Type, and keeps the order of all other fields, so that generated field numbers equal the vtable slots the format assigns.", "quantifier": "every schema", "why_tests_cant": "All field sequences.", "anchors": ["fbsparser/parser.go: FinilizeForFbs, isUnion"]}
{"id": "C46", "title": "Camel-case conversion", "statement": "Conversion of an identifier to camel case never fails and capitalises each underscore-separated part.", "quantifier": "every identifier the grammar accepts", "why_tests_cant": "Empty parts arise from leading, trailing or doubled underscores.", "anchors": ["fbsparser/parser.go: toCamelCase", "cmd/fbs-query/main.go: ToCamelCase"]}
{"id": "C47", "title": "Computed buffer length does not depend on map order", "statement": "The length the info package computes for a buffer is the same whatever order Go visits the nested-table map in, and it covers the end of every table, string and vector element it visited.", "quantifier": "every buffer, every option tree and every iteration order", "why_tests_cant": "Go randomises the order per run.", "anchors": ["info/info.go: FbsRootInfo.FetchAll, FetchTable, MaxLen"]}
{"id": "C48", "title": "Tree search delivers all matches in order", "statement": "FindTree delivers through its channel exactly the tree nodes satisfying the condition, each once, in depth-first order, and closes the channel, under every interleaving of producer and consumer.", "quantifier": "every tree, condition, channel capacity and schedule", "why_tests_cant": "Schedules.", "anchors": ["query/base/common.go: Tree.FindTree, Tree.findtree"]}
{"id": "C49", "title": "Dump history is streamed in order", "statement": "Every entry dumped before Finish is written to the output exactly once and in order, under every interleaving of the dumping and the streaming goroutine; nobody blocks for ever as long as the stream is being drained.", "quantifier": "every sequence of dumps and every schedule", "why_tests_cant": "Schedules.", "anchors": ["query/dump/histories.go: Histories.Dump, StreamOut, Finish"]}
{"id": "C50", "title": "Bit groups are disjoint", "statement": "The field-class tests (struct, table, union, slice, basic) return true exactly for type groups containing the corresponding bit.", "quantifier": "every integer type group", "why_tests_cant": "All bit patterns.", "anchors": ["query/base/util.go: IsFieldStruct .. IsFieldBasic", "query/base/base.go: IsMatchBit"]}
{"id": "C51", "title": "Vtable positions follow the signed offset", "statement": "For every table layout the FlatBuffers format allows, including a vtable stored after its table, the accessors find the vtable at table position minus the stored signed 32-bit offset.", "quantifier": "every buffer holding a conforming table", "why_tests_cant": "Builders that share vtables produce both directions; the offset is a 32-bit value.", "anchors": ["query/base/node.go: VirtualTable, TableLen, VirtualTableLen, preLoadVtable"]}
{"id": "C52", "title": "Creating a struct node never fails", "statement": "Creating a struct node yields a zeroed buffer of the struct's size, for every struct.", "quantifier": "every struct schema", "why_tests_cant": "Depends on the sizes of all members.", "anchors": ["query/base/common.go: CommonNode.Init"]}
{"id": "C53", "title": "A stored scalar can be read however it was written", "statement": "If the bytes of a scalar are all present in the buffer, the getter returns the value, whichever writes put them there.", "quantifier": "every buffer history, scalar type and position", "why_tests_cant": "Depends on where journal entries begin and end.", "anchors": ["query/base/node.go: Byte .. Float64", "query/base/base.go: writerR"]}
{"id": "C54", "title": "A struct member can be set through its node", "statement": "SetX(v) on the node FieldAt returns for a struct member stores v in that member.", "quantifier": "every struct, member, scalar type and value", "why_tests_cant": "All types and positions.", "anchors": ["query/base/common.go: CommonNode.FieldAt, SetBool .. SetFloat64", "query/base/node.go: NewNode2"]}
{"id": "C55", "title": "Writes through list indexes are bounds-checked", "statement": "SetAt with an index outside 0..Count and SwapAt with an index outside 0..Count-1 leave the list unchanged.", "quantifier": "every list and every pair of integers, negative ones too", "why_tests_cant": "Needs all integers; a negative index lands on bytes before the vector.", "anchors": ["query/base/list.go: List.SetAt, List.SwapAt"]}
{"id": "C56", "title": "The reported size of a list covers its elements", "statement": "After any sequence of appends the size cached in the list node is at least Count times the element size.", "quantifier": "every element size and sequence of appends", "why_tests_cant": "Off by one element only after appends to scalar lists.", "anchors": ["query/base/list.go: List.InfoSlice, List.setStructAt"]}
{"id": "C57", "title": "Extrema and sums of integer lists", "statement": "MaxInt and MinInt return a greatest and a least argument for every non-empty argument list; SumInts adds all elements in any order.", "quantifier": "every integer list", "why_tests_cant": "Unbounded lists, negative values.", "anchors": ["query/base/util.go: MaxInt, MinInt, SumInts"]}
{"id": "C58", "title": "Equal buffers read alike", "statement": "Two buffers for which Equal answers true show the same byte at every position, Equal answers true for a buffer and itself, and BufInfo reports the length LenBuf reports.", "quantifier": "every pair of buffers with any journals", "why_tests_cant": "Quantifies over all journals and positions.", "anchors": ["query/base/base.go: BaseImpl.Equal, BufInfo, LenBuf"]}
{"id": "C59", "title": "Shrinking keeps the window", "statement": "shrink(start, size) leaves a buffer that shows bytes start to start+size of the old one from position 0 on, and nothing else.", "quantifier": "every buffer, journal, start and size", "why_tests_cant": "Depends on how each journal entry lies relative to both ends of the window.", "anchors": ["query/base/base.go: BaseImpl.shrink"]}
{"id": "C60", "title": "Changes to a default buffer disturb nothing else", "statement": "Writes, updates, Flatten and insertions on a BaseImpl buffer leave every slice handed out before and every other buffer unchanged, whatever backing arrays they share, so the buffer can be reasoned about by value.", "quantifier": "every heap, every pair of buffers sharing arrays in any way, every sequence of changes", "why_tests_cant": "Aliasing bugs need a particular sharing of backing arrays and spare capacity.", "anchors": ["query/base/base.go: BaseImpl.WriteAt, D, U, Flatten, insertSpace, Copy"]}
{"id": "C61", "title": "A streamed read returns at least what was asked", "statement": "R(off, Size(n)) on a buffer over a random-access stream that has bytes off to off+n returns at least n bytes.", "quantifier": "every stream, every history of reads inside it, every off and n", "why_tests_cant": "Depends on which parts earlier reads left in the cache.", "anchors": ["query/base/base.go: BaseImpl.R, writerR, readerR, loadBuf"]}
{"id": "C62", "title": "Next continues behind the previous root", "statement": "The buffer returned by Next(skip) shows at off the byte the previous buffer shows at skip+off, for chains of any length, and the previous buffer is unchanged.", "quantifier": "every stream, every history of reads, every chain of skips", "why_tests_cant": "Chains of Next calls over partially read streams.", "anchors": ["query/base/base.go: BaseImpl.Next, NewBaseImplByIO, parent, readerR", "query/base/io.go: ReaderAt"]}
{"id": "C63", "title": "Plain readers can be streamed", "statement": "On a buffer opened over a reader that is not random access, reads that never go back return the reader's bytes.", "quantifier": "every content, every forward history of reads", "why_tests_cant": "Needs readers without ReadAt and positions past the first buffer; the tests use bytes.Reader.", "anchors": ["query/base/io.go: ReaderAt.ReadAt, ErrorMustRead", "query/base/base.go: BaseImpl.loadBuf"]}
{"id": "C64", "title": "The schema recognizer decides every text as its grammar says", "statement": "For every text the generated recognizer terminates without a panic, accepts exactly the texts the parsing expression grammar describes, and leaves exactly the captures and actions of the match, none of an abandoned attempt.", "quantifier": "every text", "why_tests_cant": "All texts; the generated code backtracks over a token array with stale entries.", "anchors": ["fbsparser/fbs.peg", "fbsparser/fbs.peg.go: Init, parse, rules"]}
{"id": "C65", "title": "No code is generated from a rejected schema", "statement": "If the parser rejects a schema, the command does not go on to generate code from declarations found before the error.", "quantifier": "every rejected schema", "why_tests_cant": "Depends on which stale tokens a failed attempt leaves.", "anchors": ["cmd/fbs-query/main.go: main", "fbsparser/fbs.peg.go: Parse, Execute"]}
{"id": "C66", "title": "C stores exactly the given bytes", "statement": "C(off, size, src) makes positions off to off+size-1 read as the first size bytes of src and leaves every other position as it was.", "quantifier": "every journal, every off and size, every src", "why_tests_cant": "Whether an entry may be replaced in place depends on which later entries overlap it.", "anchors": ["query/base/base.go: BaseImpl.C, BaseImpl.D"]}
{"id": "C67", "title": "Every generated directive is read back as written", "statement": "Each line the generator prints is split by go generate into a call of genny with one template, one output file and one argument, and genny can split that argument into pairs of a key and values.", "quantifier": "every schema of the accepted fragment and every filter", "why_tests_cant": "Quantifies over all names and types the grammar admits.", "anchors": ["cmd/fbs-query/main.go: MakeGenGennies, GennyLineTemplate"]}
{"id": "C68", "title": "The generated package registers what the schema declares", "statement": "The initializers of the generated package are exactly one per struct or table, one per slot under the number of the slot, and one per union member in order.", "quantifier": "every schema of the accepted fragment and every filter", "why_tests_cant": "Slot numbers shift behind union fields; all schemas are meant.", "anchors": ["cmd/fbs-query/main.go: MakeGenGennies", "template/genny/node.go", "template/genny/field.go", "template/genny/union-alias.go"]}
{"id": "C69", "title": "Generated files do not overwrite each other", "statement": "Two directives of one run never write the same file.", "quantifier": "every schema whose declarations have different names and whose structs have different field names", "why_tests_cant": "Depends on names that end in List or differ in case only.", "anchors": ["cmd/fbs-query/main.go: MakeGenGennies"]}
{"id": "C70", "title": "From the schema text to the tables", "statement": "After the initializers of the generated package have run in any order of its files and the pending requests are applied, every slot of every struct has its name, its type and the kind the FlatBuffers format gives it, and every union its members in order.", "quantifier": "every schema text, every order of the generated files", "why_tests_cant": "Needs all schemas and all initialization orders.", "anchors": ["cmd/fbs-query/main.go: MakeGenGennies, main", "query/base/util.go: RequestSettingNameFields, ApplyRequestNameFields, GetTypeGroup, SetAlias, SetNameIsStrunct", "fbsparser/parser.go: FinilizeForFbs"]}
{"id": "C71", "title": "Every generated accessor has a defined result type", "statement": "The result type of every generated accessor is a type the generated package defines.", "quantifier": "every schema of the accepted fragment", "why_tests_cant": "Some field types have no test schema at all.", "anchors": ["cmd/fbs-query/main.go: MakeGenGennies, ConvResultType, IsSlice, IsBasicTypeSlice"]}
{"id": "C72", "title": "Info and Len end at the last byte of the value", "statement": "Info of a stored table ends with the last byte that belongs to it through all references, and Len of a root is that end rounded up to a multiple of eight.", "quantifier": "every schema, every buffer that stores a value of it, every table in it", "why_tests_cant": "Needs all shapes of values: absent fields, empty tables, element orders in memory.", "anchors": ["query/base/common.go: Info, ValueInfo, Len, CountOfField", "query/base/list.go: InfoSlice, indexOnMaxPos, Last, All"]}
{"id": "C73", "title": "TraverseInfo shows every stored value once, under its owner", "statement": "TraverseInfo calls back once for every value stored below a table, with the position of its owner, its index there, its position and its size, each value before what is below it.", "quantifier": "every schema, every buffer that stores a value of it", "why_tests_cant": "Depends on every combination of nested vectors, tables, unions and absent fields.", "anchors": ["query/base/common.go: TraverseInfo, TraverseInfoSlice, IsLeafAt"]}
{"id": "C74", "title": "A union field leads to the member its type names", "statement": "FollowUnion yields the node of the member named by the type field before it, and nothing if the union is absent; CanFollow says which.", "quantifier": "every schema, every buffer that stores a value of it, every union field", "why_tests_cant": "Needs all unions and all type values.", "anchors": ["query/base/common.go: FollowUnion, CanFollow", "query/base/util.go: UnionAlias"]}
{"id": "C75", "title": "FieldAt yields the node of the stored field", "statement": "FieldAt of a table yields a node with the position, and for scalars, strings and vectors the size or length, of what is stored for the field, and no node for an absent field; of a struct, the position of the member.", "quantifier": "every schema, every buffer that stores a value of it, every field", "why_tests_cant": "Needs all field types at all indices.", "anchors": ["query/base/common.go: FieldAt, FetchIndex, RootCommon", "query/base/node.go: ValueInfoPosBytes, ValueInfoPosList"]}
{"id": "C76", "title": "At of a vector found through FieldAt yields the elements", "statement": "At of the node of a vector yields the node of the i-th element, and nothing outside the vector.", "quantifier": "every schema, every buffer that stores a value of it, every vector, every index", "why_tests_cant": "Needs all element types and indices.", "anchors": ["query/base/list.go: At, VLen, Last"]}
{"id": "C77", "title": "HasNext and Next walk over the roots of a buffer", "statement": "HasNext is true exactly if another root follows, and Next yields it.", "quantifier": "every buffer that holds one or more roots after each other", "why_tests_cant": "The tests walk over one stream of equal roots.", "anchors": ["template/genny/root.go: HasNext, Next", "query/base/base.go: Next"]}
{"id": "C78", "title": "AllTree links every value to the tree of its owner", "statement": "AllTree yields one tree per stored value, at its position, and the parent of each is the tree of its owner.", "quantifier": "every schema, every buffer that stores a value of it", "why_tests_cant": "Depends on which positions in the buffer coincide.", "anchors": ["query/base/common.go: AllTree, TraverseInfo, Tree"]}
{"id": "C79", "title": "A union value of a newer schema is passed over", "statement": "A type value beyond the known members of a union makes no call panic.", "quantifier": "every buffer that stores a union value with an unknown type", "why_tests_cant": "Data of newer schemas is not among the tests.", "anchors": ["query/base/common.go: Info, ValueInfo, FollowUnion"]}
{"id": "C80", "title": "Add yields the elements of both vectors, in order", "statement": "Add on a vector of tables puts the elements of the argument behind its own: the count is the sum, and every field of every element reads as before; the argument keeps its elements.", "quantifier": "all vectors put together by appending, adding and taking parts, all table types", "why_tests_cant": "Needs all build histories; the tests join two vectors once.", "anchors": ["query/base/list.go: Add, addTableList, moveOffsetToTable, movOffToTable, InsertSpace, dup"]}
{"id": "C81", "title": "The same vector can be added again", "statement": "Adding a vector that was added before, or a vector to itself, appends its elements once more.", "quantifier": "all vectors of tables", "why_tests_cant": "No test adds a vector twice.", "anchors": ["query/base/list.go: Add, addTableList, dup"]}
{"id": "C82", "title": "New with a range yields a copy of that part", "statement": "New(OptRange(i, j)) yields a vector whose elements are those from i to j of the receiver.", "quantifier": "all vectors, all element types, all ranges", "why_tests_cant": "Needs all ranges and element types; the tests take parts of one vector.", "anchors": ["query/base/list.go: New, new, atWithBegin"]}
{"id": "C83", "title": "indexOnMaxPos finds the outermost elements", "statement": "indexOnMaxPos(true) is the index of the first element that ends last, indexOnMaxPos(false) that of the first element that starts first.", "quantifier": "all non-empty vectors, all orders of elements in memory", "why_tests_cant": "Needs all orders of elements in memory.", "anchors": ["query/base/list.go: indexOnMaxPos"]}
{"id": "C84", "title": "FromByteList keeps every byte", "statement": "The vector made by FromByteList has the count and the bytes of its argument.", "quantifier": "all byte strings below 4 GiB, all indices", "why_tests_cant": "Needs all lengths and contents.", "anchors": ["query/base/list.go: FromByteList, All, At"]}
{"id": "C85", "title": "Add joins vectors of inline elements", "statement": "Add on a vector of scalars or structs puts the elements of the argument behind its own and leaves the argument as it is.", "quantifier": "all vectors built by SetAt and Add, all element sizes", "why_tests_cant": "Needs all build histories.", "anchors": ["query/base/list.go: Add, addStructList, setStructAt"]}
{"id": "C86", "title": "Equal compares the data of two nodes", "statement": "Equal is true exactly if the two nodes hold the same scalars, structs, strings, vectors and tables, wherever they are stored.", "quantifier": "all schemas, all buffers with tables of the same type, all layouts", "why_tests_cant": "Needs all pairs of values and layouts.", "anchors": ["query/base/common.go: Equal"]}
{"id": "C87", "title": "A table built field by field stores what was assigned", "statement": "Init followed by calls of SetFieldAt yields a table in which every field that was assigned holds the value assigned to it last and every other field is absent.", "quantifier": "all schemas, all tables, all orders of calls, all values including strings, vectors, tables and unions", "why_tests_cant": "Needs all orders and values; the tests build a few fixed tables.", "anchors": ["query/base/common.go: Init, SetFieldAt, IsSameType, insertVTable, InsertBuf", "query/base/base.go: Copy", "template/genny/root.go: FromBool..FromFloat64", "query/base/list.go: FromByteList"]}
{"id": "C88", "title": "WithHeader makes a root buffer of a built table", "statement": "After WithHeader the buffer starts with the offset of the table, and the table stores what it stored before.", "quantifier": "all schemas, all tables built by Init and SetFieldAt", "why_tests_cant": "Needs all built tables.", "anchors": ["template/genny/root.go: WithHeader", "query/base/common.go: InRoot", "query/base/base.go: Copy, Flatten"]}
{"id": "C89", "title": "The generated package describes its schema to the reader", "statement": "After the package generated from a schema is initialized, in whatever order its files come, the tables of names say of every table of the schema what the generic reader needs: its fields, their Go names, groups, scalar types, struct members and union members.", "quantifier": "all schemas with distinct capital names, all orders of files", "why_tests_cant": "Needs all schemas and all orders of initialization.", "anchors": ["cmd/fbs-query/main.go: makeGen", "template/genny/node.go: SetNodeNameFields", "query/base/util.go: applyRequestNameSettings"]}
{"id": "C90", "title": "From the text of a schema to reading and building its buffers", "statement": "For the package generated from the text of a schema, stored fields are found, lengths and traversals are right, and tables built field by field store what was assigned.", "quantifier": "all schema texts, all orders of files, all buffers of the schema", "why_tests_cant": "Needs all schemas together with all their buffers.", "anchors": ["cmd/fbs-query/main.go: main, makeGen", "query/base/common.go: FieldAt, SetFieldAt, NodeInfo, TraverseInfo"]}
{"id": "C91", "title": "WriteDataAll splits a vector into header and data", "statement": "After WriteDataAll the header in memory followed by the data in the file is a vector with the same elements in the same order, DataLen is the length of the data, and this stays so under SetAt, Merge and Add.", "quantifier": "all vectors of tables built by SetAt and Add, all histories of calls on the separated vector", "why_tests_cant": "Needs all histories; the tests look at one vector.", "anchors": ["query/base/list.go: SetDataWriter, WriteDataAll, DataLen, WriteElm, Merge"]}
{"id": "C92", "title": "SetAt on a separated vector appends the element", "statement": "SetAt at the end of a separated vector adds one slot to the header and the bytes of the element to the data, so that header and data show the old elements and the new one.", "quantifier": "all separated vectors, all tables, all writers", "why_tests_cant": "Needs all tables in all buffers.", "anchors": ["query/base/list.go: CommonList.SetAt, WriteElm"]}
{"id": "C93", "title": "Add joins separated vectors", "statement": "Add on separated vectors makes a separated vector of the elements of both.", "quantifier": "all separated vectors, all later calls", "why_tests_cant": "Needs all pairs of vectors and histories.", "anchors": ["query/base/list.go: CommonList.Add"]}
{"id": "C94", "title": "Inserting space moves every reference across the place", "statement": "After InsertBuf or InsertSpace on a node of a buffer with a root, the buffer stores the same value: every reference that leads across the place is increased by the size, nothing else changes, and the root is where its offset says.", "quantifier": "all buffers of all schemas, all nodes, all places between stored values, all sizes", "why_tests_cant": "Needs all arrangements of tables, vectors and vtables in a buffer.", "anchors": ["query/base/common.go: InsertSpace, InsertBuf, FindTree, movePos, movePosOnList"]}
{"id": "C95", "title": "Inserting space into a NoLayer", "statement": "InsertSpace and InsertBuf on a NoLayer move what is behind the place by the size and leave the rest; the buffer reaches to the end of the space, and with InsertBuf the space reads as zeros.", "quantifier": "all in-memory buffers, all places and sizes", "why_tests_cant": "Needs all journals.", "anchors": ["query/base/directreader.go: NoLayer.insertSpace, NoLayer.insertBuf"]}
{"id": "C96", "title": "Inserting space into a DoubleLayer", "statement": "InsertSpace and InsertBuf on a DoubleLayer move what is behind the place by the size, leave the rest, and the space reads as zeros.", "quantifier": "all in-memory buffers, all places and sizes, all capacities", "why_tests_cant": "Needs all journals and all capacities; the tests use none of these calls.", "anchors": ["query/base/directreader.go: DoubleLayer.insertSpace, DoubleLayer.insertBuf, DoubleLayer.mergeDiffs"]}
{"id": "C97", "title": "The default variant is chosen by its name", "statement": "SetDefaultBase(\"NoLayer\") makes new buffers NoLayer, SetDefaultBase(\"DoubleLayer\") makes them DoubleLayer, and every other name makes them BaseImpl.", "quantifier": "all names", "why_tests_cant": "The tests only pass NoLayer.", "anchors": ["query/base/option.go: SetDefaultBase"]}
{"id": "C98", "title": "Messages up to the level are written in order", "statement": "Of any list of messages the loggers write exactly those whose level is not above the current one, in order, each behind its letter, and change nothing else.", "quantifier": "all lists of messages, all levels", "why_tests_cant": "Needs all levels and lists.", "anchors": ["query/base/base.go: Log, SetLogLevel", "query/log/error.go: Log"]}
{"id": "C99", "title": "Log2 writes enabled messages and returns the result of its function", "statement": "Log2 returns the result of the function given with L2OptRun whatever the filter, writes the messages when level and filter enable them, and leaves the levels of the loggers as they were.", "quantifier": "all lists of options, all states of the loggers", "why_tests_cant": "Output of the logger is not looked at by any test.", "anchors": ["query/base/log.go: Log2, neoLog, L2OptFlag, L2OptF, L2OptRun, L2isEnable"]}
{"id": "C100", "title": "The search reports what satisfies the condition", "statement": "SearchInfo calls the callback for exactly the tables, numbers and strings that satisfy the condition together with all tables they belong to, every one before what it owns, with its type, index, position and size.", "quantifier": "all stored tables, all conditions, all registries", "why_tests_cant": "Needs all buffers; the tests do not call SearchInfo.", "anchors": ["query/base/common.go: SearchInfo, IsLeafAt, ValueInfo, Info", "query/base/list.go: SearchInfoSlice"]}
{"id": "C101", "title": "A position is found in everything that contains it", "statement": "Searching with the condition that the position is inside reports exactly the tables, numbers and strings of the buffer that contain the position, in order of the fields.", "quantifier": "all stored tables, all positions", "why_tests_cant": "Needs all buffers and all positions.", "anchors": ["query/base/common.go: SearchInfo, Info"]}
{"id": "C102", "title": "Unmarshal fills a Go struct", "statement": "Unmarshal of a table or struct stores the numbers and strings of its fields into the Go fields that have the name of the field as their tag, 0 for a number that is not there, and changes no other Go field; arguments that do not fit give an error.", "quantifier": "all stored tables and structs, all Go structs, all registries", "why_tests_cant": "Needs all buffers, all Go structs and all tags; the tests fill one struct.", "anchors": ["query/base/common.go: Unmarshal", "query/base/node.go: unmarshal, Byte to Float64"]}
{"id": "C103", "title": "Setting a number or struct that is there", "statement": "SetFieldAt on a field that holds a number or struct writes exactly the bytes of the new value over the old ones; the buffer still stores the same tree of values and everything else is unchanged.", "quantifier": "all buffers with a root, all tables in them, all numbers and structs", "why_tests_cant": "Needs all buffers and tables.", "anchors": ["query/base/common.go: SetFieldAt"]}
{"id": "C104", "title": "Setting a number or struct that is not there", "statement": "SetFieldAt on an absent number or struct gives the table the field with the new value; all other values are the same, moved behind the field, and all references lead to them.", "quantifier": "all buffers with a root, all tables in them, all numbers and structs", "why_tests_cant": "Needs all layouts: which references cross the place, which tables share vtables.", "anchors": ["query/base/common.go: SetFieldAt, insertVTable, InsertBuf, movePos"]}
{"id": "C105", "title": "Setting a vector or table", "statement": "SetFieldAt on a vector, string or table stores the new value, whatever its size and whether the field was there, and leaves all other values readable as before.", "quantifier": "all buffers with a root, all tables in them, all values", "why_tests_cant": "Needs all layouts and all sizes of old and new values.", "anchors": ["query/base/common.go: SetFieldAt"]}
{"id": "C106", "title": "Reading through the journal", "statement": "On a buffer whose journal has entries the field, union, vector and size functions and the traversal give what they give on the flattened buffer.", "quantifier": "all in-memory buffers with any journal, all stored tables, all registries", "why_tests_cant": "Needs all journals: which entries lie over which numbers of which table.", "anchors": ["query/base/common.go: FieldAt, FollowUnion, CanFollow, Info, Len, TraverseInfo", "query/base/list.go: At", "query/base/base.go: R"]}
{"id": "C107", "title": "Several fields set one after the other", "statement": "Any number of calls of SetFieldAt on numbers and structs that are there, without flattening in between, leave the buffer with exactly the last bytes written to every field; the same tree of values is stored, can be read through the journal, and each field read back gives its last value.", "quantifier": "all in-memory buffers with any journal, all lists of updates", "why_tests_cant": "Needs all sequences of updates on all journals.", "anchors": ["query/base/common.go: SetFieldAt", "query/base/base.go: Copy, C, R"]}
{"id": "C108", "title": "Setting a number or struct of a vector", "statement": "SetAt with a number or struct of the vector's type and an index of the vector replaces the bytes of that element and nothing else; the same tree of values is stored and can be read through the resulting journal. With the index behind the last element it appends the element and everything else is as before.", "quantifier": "all in-memory buffers with any journal, all tables in them, all vectors of numbers and structs, all elements", "why_tests_cant": "Needs all layouts and journals: which other values lie where, which references cross the place.", "anchors": ["query/base/list.go: SetAt, setStructAt, vlenTotal, InfoSlice", "query/base/base.go: Copy"]}
{"id": "C109", "title": "Setting a table of a vector", "statement": "SetAt with a table replaces that element of a vector of tables, or appends it: the vector then has the new table, the other elements and all other values are as before, and the resulting journal can be read.", "quantifier": "all in-memory buffers with any journal, all tables in them, all vectors of tables, all tables of any size", "why_tests_cant": "Needs all layouts, sizes of old and new tables, and orders of the elements in the buffer.", "anchors": ["query/base/list.go: SetAt, setTableAt, updateOffsetToTable, vlenTotal, InfoSlice", "query/base/base.go: Copy, U"]}
{"id": "C110", "title": "Exchanging elements of a vector in a document", "statement": "SwapAt with two indexes of a vector inside a document exchanges the two elements: the vector then has them in the other order, all other values are as before, and the resulting journal can be read. Other indexes are refused.", "quantifier": "all in-memory buffers with any journal, all tables in them, all vectors, all pairs of indexes", "why_tests_cant": "Needs all layouts and journals: the references are relative to the slots, so each exchange rewrites them.", "anchors": ["query/base/list.go: SwapAt, isDirectList, offsetOf", "query/base/base.go: U"]}
{"id": "C111", "title": "Sorting a vector of tables in a document", "statement": "SortBy on a vector of tables inside a document leaves a permutation of its elements that is sorted by the comparison, all other values are as before and the resulting journal can be read; IsSorted answers true exactly if no element is smaller than the one before it.", "quantifier": "all in-memory buffers with any journal, all vectors of tables in them, all comparisons, all sorting algorithms that only compare and exchange", "why_tests_cant": "Needs all sequences of exchanges that a sorting algorithm can make on all journals.", "anchors": ["query/base/list.go: SortBy, IsSorted, Less, Swap, Len, SwapAt"]}
{"id": "C112", "title": "Sequences of updates of a document", "statement": "Any sequence of calls of SetFieldAt, SetAt and SwapAt on the tables and vectors of one document leaves the buffer with the bytes and the tree of values that the calls make one after the other, without flattening in between; what a call put into the buffer, and what was there before, can be read back until a later call touches it; after Flatten the bytes of the buffer are the document.", "quantifier": "all in-memory buffers with any journal, all documents in them, all sequences of calls", "why_tests_cant": "Needs all sequences of calls on all documents and journals, in every order.", "anchors": ["query/base/common.go: SetFieldAt, FieldAt", "query/base/list.go: SetAt, SwapAt", "query/base/base.go: Copy, U, R, Flatten"]}
{"id": "C113", "title": "Filling a Go struct through a journal", "statement": "Unmarshal on a table or struct of a buffer with journal entries gives the Go fields the numbers and strings that are stored there now, so after any sequence of updates it gives what the updates put in.", "quantifier": "all in-memory buffers with any journal, all tables and structs in them, all Go structs, all sequences of updates before", "why_tests_cant": "Needs all journals: a value can lie in the bytes below, in one entry or across several.", "anchors": ["query/base/common.go: Unmarshal, FieldAt", "query/base/node.go: Unmarshal, unmarshal", "query/base/base.go: R"]}
{"id": "C114", "title": "Searching through a journal", "statement": "SearchInfo on a table of a buffer with journal entries reports exactly the tables, numbers and strings that satisfy the condition together with all their owners, at the places where they are now; so it does after any sequence of updates.", "quantifier": "all in-memory buffers with any journal, all tables in them, all conditions on something with a size, all positions, all sequences of updates before", "why_tests_cant": "Needs all journals, layouts and conditions.", "anchors": ["query/base/common.go: SearchInfo", "query/base/list.go: SearchInfoSlice", "query/base/base.go: R"]}
{"id": "C115", "title": "Comparing through journals", "statement": "Equal on tables of two buffers with journal entries tells whether the second holds the values of the first, and asked both ways whether the data is the same, wherever the bytes lie; after any sequence of updates it compares what the updates made of the tables.", "quantifier": "all pairs of in-memory buffers with any journals, all pairs of tables in them, all sequences of updates before", "why_tests_cant": "Needs all pairs of journals: each number and string can lie in the bytes below, in one entry or across several, and differently on the two sides.", "anchors": ["query/base/common.go: Equal", "query/base/base.go: R"]}
{"id": "C116", "title": "Copying between variants of buffers", "statement": "Whatever the variants of the two buffers, BaseImpl, NoLayer, DoubleLayer or DirectReader, after Copy the destination shows the bytes of the source where they were copied, its own bytes everywhere else, moved up if room was asked for, and the source shows what it showed before.", "quantifier": "all pairs of variants, all buffers and journals of each, all ranges and places", "why_tests_cant": "Needs all journals of both buffers and all ways they are split into pieces by the reads of the source.", "anchors": ["query/base/base.go: Copy, R, LenBuf", "query/base/directreader.go: NoLayer.Copy, DoubleLayer.Copy, DoubleLayer.R, NoLayer.R, DirectReader.R"]}
{"id": "C117", "title": "Reading and updating a DoubleLayer over shared arrays", "statement": "Merging the journal of a DoubleLayer in place gives what merging the values of its entries gives, also when entries lie in one array, and a reader is given what the journal says; an update is shown where it was made and nowhere else, and so is every one of a sequence of updates.", "quantifier": "all arrays, all windows of the bytes and entries in them, all reads, all sequences of updates", "why_tests_cant": "Needs all ways the windows of the entries lie in arrays: whether a merge writes into room that belongs to another entry depends on where the windows lie.", "anchors": ["query/base/directreader.go: DoubleLayer.R, DoubleLayer.U, mergeDiffs, NoLayer.U, NoLayer.D", "query/base/base.go: Diff.Merge, Include, Inner"]}
{"id": "C118", "title": "Changing the variant of a buffer", "statement": "A buffer made a NoLayer or a DoubleLayer, or duplicated, shows the bytes it showed before; a buffer made from bytes shows these whatever the default variant; and the buffer of a new list is of the variant of the list it is made beside and holds a length of 0.", "quantifier": "all variants, all buffers and journals, all default variants", "why_tests_cant": "Needs all variants against all defaults and all journals; the tests only make a BaseImpl a NoLayer or DoubleLayer.", "anchors": ["query/base/directreader.go: NewNoLayer, NewDoubleLayer, NoLayer.Dup, DoubleLayer.Dup, New, NewFromBytes", "query/base/base.go: Dup, New, NewFromBytes", "query/base/option.go: NewBase", "query/base/list.go: new, InitList"]}
{"id": "C119", "title": "Moving the offsets of a list with the option OptUseMovOff on and off", "statement": "moveOffsetToTable adds the same number to every offset of a list and leaves everything else as it is, and what it makes of the buffer does not depend on the option.", "quantifier": "all lists in all in-memory buffers with any journal, all numbers to add, both settings of the option", "why_tests_cant": "Needs all journals: one way makes one update over all offsets, the other one update per offset, which split the entries below them differently.", "anchors": ["query/base/list.go: moveOffsetToTable, oldMovOffToTable, movOffToTable", "query/base/option.go: OptUseMovOff", "query/base/base.go: U, D"]}
