# Design of the formal model of kazu/fbshelper

## Method

The Go code is modelled function by function as total, computable Gallina
functions.  Panics and error returns are values of a result type
(`res`: `Ok`, `Panic`, `OutOfFuel` in `GoLib.v`); loops that are not
structurally recursive take explicit fuel and return the distinct
out-of-fuel value.  Go slices are modelled by value as the visible bytes plus
the spare bytes up to the capacity (`gslice`); aliasing between slices is
modelled where a property depends on it, by a heap of byte arrays
(`HeapModel.v`), and `C60_by_value` proves that the by-value model of the
default buffer is exact.  Goroutines are small-step transition relations; a
path is a schedule, and theorems quantify over all paths.  Map iteration
orders, initialization orders, sort algorithms and stream behaviour that Go
leaves open are parameters that theorems quantify over.

Every area has these files in `rocq/theories`:

* `XModel.v`: definitions that follow the code, each with file and line
  numbers and a note where it simplifies.  No proofs.
* `XSpec.v`: a small specification that does not use the helpers of the model.
* `XProofs*.v`: lemmas.
* `XProps.v`: the property theorems, each closed by the lemma that proves it,
  with `Print Assumptions` beneath and an `Example` with a concrete
  non-trivial case beside it.  A theorem named `_refuted` shows by a concrete
  case that the code violates the property; one named `_partial` has
  hypotheses that the property does not have.

The independent specifications are: images (partial functions from positions
to bytes) with overlay and update for buffers; a direct reading of the
FlatBuffers format for tables, vectors and structs; lists for vectors; the
usual relation for parsing expression grammars and an abstract syntax with a
printer for schemas; the declarations of a schema for the generator; the
depth-first list of nodes and the list of dumped entries for the goroutines.

## Areas

| area | code modelled | files |
|---|---|---|
| Base | `query/base/base.go`: Diff.Include/Included/Inner/Innerd/MergeStable, Read, ReadAt, Write, WriteAt, NewBaseImpl, Dup, R, writerR, readerR (without stream), C, Copy, D, U, LenBuf, mergeDiffs, mergeDiffsOf, Flatten, Dedup, insertSpace, Diffs.minOffset, Diffs.insert | Base*.v |
| Stream | `query/base/base.go`: readerR, loadBuf, calcBufSize, AddRDiff, NewBaseImplByIO, Next, R; `query/base/io.go`: ReadAt | Stream*.v |
| Variant | `query/base/directreader.go`: DirectReader.R, NoLayer.R, DoubleLayer.R and mergeDiffs; `base.go`: Diff.Merge, calcBufSize, shrink, Equal, BufInfo | Variant*.v |
| Heap | the slicing and allocating operations of `BaseImpl` and `NoLayer.D/U` over shared arrays | Heap*.v |
| Table | `node.go`: scalar getters, VirtualTable, VirtualTableIsZero, TableLen, VirtualTableLen, Table, preLoadVtable, ValueInfoPosList, FbsString; `common.go`: setters, ValueInfo of structs, FieldAt, Len, InRoot, Init, insertVTable, SetFieldAt for scalar and struct fields, InsertBuf and movePos for a table that is not inside a root buffer; `template/genny/root.go`: FromX | Table*.v |
| List | `list.go`: At, First, Select, Find, All, VLen, InfoSlice, vlenTotal, updateOffsetToTable, setStructAt, setTableAt, SetAt, InitList, SwapAt, SortBy, SearchIndex, FromByteList, indexOnMaxPos; `common.go`: Info, InsertSpace | List*.v |
| Name | `util.go`: NameToType, TypeToGroup, GetTypeGroup, IsField*, SetAlias, AddName, Symbol, SymbolToString, NodeFieldSynmbol, SymbolToNames, IsSame*, RequestSettingNameFields, ApplyRequestNameFields, SetRootName, MaxInt, MinInt, SumInts; `common.go`: IsList; the initializers in `template/genny/node.go`, `field.go`, `union-alias.go` | Name*.v |
| Parser | `fbsparser/fbs.peg`, `fbs.peg.go` (Init, parse, all rules, Execute), `parser.go` (all actions, toCamelCase, isUnion, SearchNotTableMessage, FinilizeForFbs), the calls in `cmd/fbs-query/main.go` | Parser*.v |
| Gen | `cmd/fbs-query/main.go`: MakeGenGennies, ConvResultType, IsSlice, IsBasicTypeSlice, IsStruct; the package-level initializers of the templates | Gen*.v |
| Conc | `common.go`: FindTree and findtree; `query/dump/histories.go`: Dump, StreamOut, streamOut, Finish, StringBy | Conc*.v |
| Info | `info/info.go`: all functions | Info*.v |
| Walk | `common.go`: FetchIndex, FieldAt, Info, ValueInfo, Len, CanFollow, FollowUnion, TraverseInfo, TraverseInfoSlice, AllTree, RootCommon for all kinds of fields; `list.go`: At, Last, All, VLen, InfoSlice, indexOnMaxPos; `template/genny/root.go`: Root, HasNext, Next | Walk*.v |
| Add | `list.go`: Add, addTableList, addStructList, dup, moveOffsetToTable, movOffToTable, New with and without OptRange, new, atWithBegin, indexOnMaxPos, FromByteList, for lists outside a root buffer | Add*.v |
| Sep | `list.go`: CommonList: SetDataWriter, DataLen, WriteDataAll, At, SetAt, WriteElm, Merge, Add, for vectors of tables with inline fields | Sep*.v |
| Ins | `common.go`: Tree.Pos, findtree, FindTree, InsertSpace, InsertBuf, movePos, movePosOnList, for a node of a buffer with a root | Ins*.v |
| Equal | `common.go`: Equal for tables, structs, unions and vectors | Equal*.v |
| Build | `common.go`: Init, IsSameType, SetFieldAt for all kinds of fields of a table that is not inside a root buffer; `template/genny/root.go`: WithHeader | Build*.v |
| Layer | `directreader.go`: NoLayer.insertSpace, DoubleLayer.insertSpace, NewDoubleLayer; `option.go`: SetDefaultBase | Layer*.v |
| Log | `base.go`: Log, SetLogLevel; `log.go`: Log2, neoLog, L2isEnable and the options; `query/log/error.go`: Log | Log*.v |
| Search | `common.go`: SearchInfo; `list.go`: SearchInfoSlice | Search*.v |
| Unmarshal | `common.go`: Unmarshal; `node.go`: unmarshal | Unmarshal*.v |
| Put | `common.go`: SetFieldAt and insertVTable for a table anywhere, also inside a root buffer | Put*.v |
| Jour | reading and SetFieldAt on buffers whose journal has entries, and lists of calls of SetFieldAt; the functions are those of Walk and Put | Jour*.v |
| Elem | `list.go`: vlenTotal, updateOffsetToTable, setStructAt, setTableAt, SetAt, for vectors inside a buffer with a root | Elem*.v |
| Sort | `list.go`: SwapAt, SortBy, IsSorted for vectors inside a buffer with a root | Sort*.v |
| Doc | sequences of SetFieldAt, SetAt and SwapAt on one buffer, and Flatten after them | Doc*.v |
| Fill | Unmarshal on buffers with journal entries, and after sequences of updates | Fill*.v |
| Find | SearchInfo on buffers with journal entries, and after sequences of updates | Find*.v |
| Same | Equal on buffers with journal entries, and after sequences of updates | Same*.v |
| Mix | Copy between buffers of any two variants | Mix*.v |
| Dbl | DoubleLayer.R, DoubleLayer.U, mergeDiffs and Diff.Merge over shared arrays | Dbl*.v |
| Wrap | NewNoLayer, NewDoubleLayer, New, NewFromBytes, Dup of all variants; the buffer of `List.new` | Wrap*.v |
| Mov | `list.go`: moveOffsetToTable, oldMovOffToTable; `option.go`: OptUseMovOff | Mov*.v |
| Link | composition: schema text, generated package, tables of names, reader and builder; no code of its own | Link*.v |

`GoLib.v` has the result type, slices, bytes and little-endian codecs,
`GoLemmas.v` lemmas about them.

## Not modelled

* Everything in the repository that is not in the table above, in particular:
  tests and benchmarks.
* Sharing of bytes between the two buffers of a Copy into a DoubleLayer: the
  Mix area treats slices as values.
* The walk over a buffer that is being read from a stream.  The Walk area is
  about buffers that are flat in memory, the Jour area about buffers in memory
  whose journal has entries.
* `query/template/load.go`, `gen/` and the writing of files by the generator.
* The text/template mode of the generator, which nothing calls.
* Logging and dump calls inside other functions; their closures are only
  evaluated at debug level.  The loggers themselves are in the Log area.
  Where arguments are evaluated anyway (`FetchAll`) they are modelled.
* Integer overflow of Go's 64-bit `int`: positions are unbounded integers.
  Fields that are stored in 8, 16 or 32 bits are encoded and wrap as in Go.
* Running out of memory, and data races beyond those stated in `ConcModel.v`.

## Trusted base

* The Coq 8.16.1 kernel (the proofs use `vm_compute`, so also its virtual
  machine).
* No axioms.  `Print Assumptions` says "Closed under the global context" for
  each of the 421 theorems listed below.  `vcheck` lists seven
  `Coq.ssr.ssrunder.Under_rel.*` parameters: they belong to a library file
  of Coq that is loaded along with others, and no theorem
  depends on them.
* The correspondence between the Gallina definitions and the Go text.  It was
  made by reading; nothing here was extracted from or run against the Go code.
  `seeded/LOG.jsonl` records which deliberate errors in the definitions the
  theorems notice.
* Behaviour of code that is not in the repository, taken from its
  documentation:
  * `loncha.LastIndexOf`, `IndexOf`, `Delete`, `Contain`: last and first index,
    removal and existence by a predicate, in order.
  * flatbuffers `Get*`/`Write*`: little-endian, panic when the slice is too
    short; `GetBool` is `buf[0] == 1`.
  * Go's `copy`, `append`, slicing, maps; `sort.Slice` in AddRDiff is any
    permutation; `sort.Sort` in SortBy is any strategy of comparisons and
    in-range swaps whose contract is to end sorted.
  * `io.ReaderAt`: delivers the bytes there are, an error when fewer than
    asked; whether a full read at the end reports EOF is left open (`eof`).
  * The file given to `SetDataWriter`: an `os.File` whose operations do not
    fail, or a writer that can only append; `io.Copy` copies from the cursor to
    the end.
  * go generate: a directive is split at blanks, a word that starts with a
    double quote extends to the next one.
  * genny (cheekybits): splits its argument at blanks, `=` and `,`; expands a
    template once per combination of values; puts a value into a string
    literal with its first letter in upper case (seen in
    `/repo/example/query2`); overwrites the output file.  Its special values
    BUILTINS and NUMBERS are not modelled.
  * `reflect`: `Value.Set` and `SetBytes` panic for fields that are not exported
    or of another type; calling a method that does not exist panics.
  * Package initialization: files in any order, variables of one file in the
    order of declaration.

## Theorems

| property | status | theorems | file | Print Assumptions |
|---|---|---|---|---|
| C01 Last writer wins, byte by byte | proved | `C01_last_writer_wins` | BaseProps.v | closed |
| C02 A range read returns current bytes | partial | `C02_range_read_partial`, `C02_range_read_refuted` | BaseProps.v | closed |
| C03 Updating a range leaves everything else alone | proved | `C03_update_frame` | BaseProps.v | closed |
| C04 Flatten preserves content | proved | `C04_flatten_content` | BaseProps.v | closed |
| C05 After Flatten, range reads are exact | proved | `C05_flatten_exact` | BaseProps.v | closed |
| C06 Dedup is invisible | proved | `C06_dedup_invisible` | BaseProps.v | closed |
| C07 MergeDiffs is invisible | partial | `C07_merge_invisible_partial`, `C07_merge_refuted` | BaseProps.v | closed |
| C08 MergeDiffs terminates with separated entries | proved | `C08_merge_terminates` | BaseProps.v | closed |
| C09 Inserting space moves the tail and nothing else | partial | `C09_insert_space_partial`, `C09_insert_space_refuted`, `C09_insert_hole_refuted` | BaseProps.v | closed |
| C10 Copy without extension overlays the source range | proved | `C10_copy_overlay`, `C10_reads_current`, `C10_copy_arrays` | BaseProps.v, HeapProps.v | closed |
| C100 The search reports what satisfies the condition | partial | `C100_search_partial`, `C100_outside`, `C100_vectors_refuted`, `C100_struct_refuted`, `C100_phantom_refuted`, `C100_string_refuted`, `C100_union_refuted`, `C100_unsized_refuted`, `C100_place_refuted` | SearchProps.v | closed |
| C101 A position is found in everything that contains it | partial | `C101_position_partial`, `C101_found_partial` | SearchProps.v | closed |
| C102 Unmarshal fills a Go struct | partial | `C102_table_partial`, `C102_struct_partial`, `C102_errors`, `C102_type_refuted`, `C102_vector_refuted`, `C102_string_refuted`, `C102_uint8_refuted` | UnmarshalProps.v | closed |
| C103 Setting a number or struct that is there | proved | `C103_present` | PutProps.v | closed |
| C104 Setting a number or struct that is not there | partial | `C104_absent_partial`, `C104_shared_refuted`, `C104_gap_refuted` | PutProps.v | closed |
| C105 Setting a vector or table | partial | `C105_replaced_partial`, `C105_longer_refuted`, `C105_shorter_refuted`, `C105_table_refuted`, `C105_vector_refuted` | PutProps.v | closed |
| C106 Reading through the journal | partial | `C106_field`, `C106_union`, `C106_elements`, `C106_info_partial`, `C106_len_partial`, `C106_traverse_partial`, `C106_cut_refuted` | JourProps.v | closed |
| C107 Several fields set one after the other | proved | `C107_edits` | JourProps.v | closed |
| C108 Setting a number or struct of a vector | partial | `C108_element`, `C108_refused`, `C108_append_refuted`, `C108_wider_refuted` | ElemProps.v | closed |
| C109 Setting a table of a vector | partial | `C109_table_partial`, `C109_order_refuted`, `C109_before_refuted` | ElemProps.v | closed |
| C11 Copy with extension opens a gap | partial | `C11_copy_extend_partial`, `C11_copy_extend_refuted` | BaseProps.v | closed |
| C110 Exchanging elements of a vector in a document | partial | `C110_swap`, `C110_numbers_refuted`, `C110_negative_refuted` | SortProps.v | closed |
| C111 Sorting a vector of tables in a document | proved | `C111_sort`, `C111_compares_exist` | SortProps.v | closed |
| C112 Sequences of updates of a document | partial | `C112_calls`, `C112_written`, `C112_order_refuted` | DocProps.v | closed |
| C113 Filling a Go struct through a journal | partial | `C113_table_partial`, `C113_struct_partial`, `C113_after_partial`, `C113_letter_refuted` | FillProps.v | closed |
| C114 Searching through a journal | partial | `C114_search_partial`, `C114_position_partial`, `C114_after_partial`, `C114_swapped_refuted` | FindProps.v | closed |
| C115 Comparing through journals | partial | `C115_equal_partial`, `C115_both_partial`, `C115_after_partial`, `C115_cut_refuted` | SameProps.v | closed |
| C116 Copying between variants of buffers | partial | `C116_copy_partial`, `C116_room_partial`, `C116_double_refuted`, `C116_stream_refuted`, `C116_gap_refuted` | MixProps.v | closed |
| C117 Reading and updating a DoubleLayer over shared arrays | partial | `C117_merge_by_value`, `C117_read_by_value`, `C117_gap_free_partial`, `C117_update_partial`, `C117_runs`, `C117_plain_runs`, `C117_first`, `C117_lost_refuted`, `C117_zeros_refuted` | DblProps.v | closed |
| C118 Changing the variant of a buffer | partial | `C118_no_layer_partial`, `C118_dup_partial`, `C118_double_layer_partial`, `C118_bytes`, `C118_list_partial`, `C118_stream_refuted`, `C118_no_buffer_refuted`, `C118_list_refuted`, `C118_gap_refuted` | WrapProps.v | closed |
| C119 Moving the offsets of a list with the option OptUseMovOff on and off | partial | `C119_moved`, `C119_same_partial`, `C119_either`, `C119_empty_refuted` | MovProps.v | closed |
| C12 LenBuf is the end of the content | partial | `C12_len_buf_partial`, `C12_len_after_write`, `C12_len_buf_refuted` | BaseProps.v | closed |
| C13 Dup gives an equal and independent buffer | proved | `C13_dup_content`, `C13_dup_value`, `C13_independent`, `C13_copy_shared` | BaseProps.v, HeapProps.v | closed |
| C14 Sequential Write appends | proved | `C14_sequential_write`, `C14_write_count` | BaseProps.v | closed |
| C15 ReadAt and Read obey the io contracts | partial | `C15_reads_partial`, `C15_read_at_refuted`, `C15_read_skips_refuted` | BaseProps.v | closed |
| C16 Streamed reads return stream bytes | partial | `C16_reads_partial`, `C16_terminates`, `C16_forward`, `C16_journal`, `C16_past_end_refuted`, `C16_back_panics` | StreamProps.v | closed |
| C17 Load buffers are large enough | partial | `C17_pages`, `C17_enough_partial`, `C17_enough_iff`, `C17_enough_refuted` | VariantProps.v | closed |
| C18 The no-journal buffer reads like the default buffer | proved | `C18_same_read`, `C18_no_size_refuted` | VariantProps.v | closed |
| C19 A no-journal update is readable | partial | `C19_update_partial`, `C19_plain_runs`, `C19_spare_refuted`, `C19_panic_refuted`, `C19_order_refuted`, `C19_gap_refuted` | HeapProps.v | closed |
| C20 The two-layer buffer keeps content when merging | partial | `C20_merge_partial`, `C20_before_refuted`, `C20_lost_refuted`, `C20_spare_refuted`, `C20_read_partial`, `C20_single`, `C20_gap_refuted` | VariantProps.v | closed |
| C21 DirectReader continues in the stream | proved | `C21_direct_read` | VariantProps.v | closed |
| C22 Scalars survive encode and decode | partial | `C22_encode_decode`, `C22_little_endian`, `C22_decode_encode_partial`, `C22_bool_refuted` | TableProps.v | closed |
| C23 Set then get on a scalar node | proved | `C23_set_get`, `C23_set_own_type`, `C23_from_get` | TableProps.v | closed |
| C24 Reading a conforming table follows the FlatBuffers format | proved | `C24_conforming_access`, `C24_vector_field`, `C24_string_field` | TableProps.v | closed |
| C25 A field the writer did not know is absent | partial | `C25_unknown_absent_partial`, `C25_reads_neighbour`, `C25_unknown_absent_refuted` | TableProps.v | closed |
| C26 A fresh table is a valid empty table | proved | `C26_fresh_table`, `C26_fresh_table_len` | TableProps.v | closed |
| C27 Setting scalar fields behaves like a map | proved | `C27_fields_are_a_map` | TableProps.v | closed |
| C28 Struct fields do not overlap | partial | `C28_struct_fields_disjoint`, `C28_members_are_a_map`, `C28_value_info_refuted` | TableProps.v | closed |
| C29 Struct layout agrees with the FlatBuffers format | partial | `C29_layout_agrees_partial`, `C29_layout_refuted` | TableProps.v | closed |
| C30 Reported buffer length covers the data | proved | `C30_len_rounds_up` | TableProps.v | closed |
| C31 List access is bounds-checked | proved | `C31_at_outside`, `C31_at_inside`, `C31_at_table_inside` | ListProps.v | closed |
| C32 Vectors are read per the FlatBuffers format | proved | `C32_fixed_elements`, `C32_table_elements` | ListProps.v | closed |
| C33 Select, Find and All are filter, first match and everything | partial | `C33_queries_partial`, `C33_stale_handle_refuted` | ListProps.v | closed |
| C34 SearchIndex finds the boundary | proved | `C34_search_boundary`, `C34_search_stops` | ListProps.v | closed |
| C35 Swapping table elements swaps their targets | proved | `C35_swap_tables`, `C35_own_inverse` | ListProps.v | closed |
| C36 Swapping fixed-size elements swaps their bytes | partial | `C36_swap_fixed_refuted`, `C36_swap_zeroes` | ListProps.v | closed |
| C37 Sorting permutes | proved | `C37_sort_permutes`, `C37_sort_sorts`, `C37_insertion_sorting`, `C37_compares_exist` | ListProps.v | closed |
| C38 Appending fixed-size elements | proved | `C38_append_fixed` | ListProps.v | closed |
| C39 Appending tables | partial | `C39_append_tables_partial`, `C39_built_tables_partial`, `C39_empty_table_refuted` | ListProps.v | closed |
| C40 Type-name classification | partial | `C40_scalar_partial`, `C40_vector_scalar_partial`, `C40_uint8_refuted`, `C40_named_partial`, `C40_vector_named_partial`, `C40_struct_vector_refuted`, `C40_tail_refuted`, `C40_bytes_prefix_refuted`, `C40_panics`, `C40_short_name_refuted`, `C40_is_list`, `C40_is_not_list`, `C40_is_list_short` | NameProps.v | closed |
| C41 Symbols identify names | partial | `C41_index`, `C41_back`, `C41_injective`, `C41_unknown`, `C41_stable`, `C41_pair_partial`, `C41_same_partial`, `C41_collision_refuted`, `C41_unknown_pair_refuted`, `C41_empty_name_refuted` | NameProps.v | closed |
| C42 Deferred name tables are all applied | partial | `C42_applied`, `C42_order`, `C42_order_panic_refuted`, `C42_twice`, `C42_root` | NameProps.v | closed |
| C43 Parsing recovers the schema | partial | `C43_round_trip_partial`, `C43_layout_partial`, `C43_layout_refuted`, `C43_types_refuted`, `C43_names_refuted`, `C43_defaults_refuted` | ParserProps.v | closed |
| C44 Declarations do not leak into each other | partial | `C44_own_fields_partial`, `C44_refuted`, `C44_union_refuted`, `C44_panic_refuted` | ParserProps.v | closed |
| C45 Each union field gets its type field | partial | `C45_slots_partial`, `C45_finalize_partial`, `C45_lower_refuted`, `C45_panic_refuted`, `C45_struct_mark_refuted` | ParserProps.v | closed |
| C46 Camel-case conversion | partial | `C46_camel`, `C46_refuted`, `C46_collision_refuted` | ParserProps.v | closed |
| C47 Computed buffer length does not depend on map order | partial | `C47_order`, `C47_covers_partial`, `C47_attained`, `C47_fetch_all`, `C47_table_end_refuted`, `C47_empty_table_refuted`, `C47_absent_refuted`, `C47_vector_refuted`, `C47_child_refuted`, `C47_fetch_all_refuted`, `C47_empty_vector_refuted`, `C47_newer_refuted` | InfoProps.v | closed |
| C48 Tree search delivers all matches in order | partial | `C48_order_partial`, `C48_complete_partial`, `C48_ends`, `C48_live`, `C48_root_refuted` | ConcProps.v | closed |
| C49 Dump history is streamed in order | proved | `C49_order`, `C49_no_panic`, `C49_complete`, `C49_ends`, `C49_unstreamed_blocks`, `C49_two_streams_refuted`, `C49_dump_after_finish` | ConcProps.v | closed |
| C50 Bit groups are disjoint | proved | `C50_field_tests`, `C50_one_class` | NameProps.v | closed |
| C51 Vtable positions follow the signed offset | partial | `C51_negative_soffset_refuted` | TableProps.v | closed |
| C52 Creating a struct node never fails | partial | `C52_struct_init_partial`, `C52_struct_init_refuted` | TableProps.v | closed |
| C53 A stored scalar can be read however it was written | partial | `C53_get_after_flatten_partial`, `C53_split_scalar_refuted` | TableProps.v | closed |
| C54 A struct member can be set through its node | partial | `C54_set_member_refuted` | TableProps.v | closed |
| C55 Writes through list indexes are bounds-checked | partial | `C55_set_beyond_partial`, `C55_swap_beyond_partial`, `C55_set_negative_refuted`, `C55_swap_negative_refuted` | ListProps.v | closed |
| C56 The reported size of a list covers its elements | partial | `C56_size_refuted` | ListProps.v | closed |
| C57 Extrema and sums of integer lists | proved | `C57_max`, `C57_min`, `C57_sum_order`, `C57_sum_app` | NameProps.v | closed |
| C58 Equal buffers read alike | proved | `C58_equal_sound`, `C58_equal_self`, `C58_equal_complete_refuted`, `C58_info_length` | VariantProps.v | closed |
| C59 Shrinking keeps the window | partial | `C59_shrink_partial`, `C59_shrink_journal_partial`, `C59_shrink_drops_refuted`, `C59_shrink_tail_refuted` | VariantProps.v | closed |
| C60 Changes to a default buffer disturb nothing else | proved | `C60_slices`, `C60_buffers`, `C60_by_value`, `C60_in_place_refuted` | HeapProps.v | closed |
| C61 A streamed read returns at least what was asked | partial | `C61_whole_partial`, `C61_short_refuted` | StreamProps.v | closed |
| C62 Next continues behind the previous root | partial | `C62_next_partial`, `C62_twice_refuted`, `C62_parent_refuted`, `C62_far_panics` | StreamProps.v | closed |
| C63 Plain readers can be streamed | partial | `C63_first_partial`, `C63_second_refuted`, `C63_loop_refuted` | StreamProps.v | closed |
| C64 The schema recognizer decides every text as its grammar says | proved | `C64_terminates`, `C64_accepts`, `C64_tokens`, `C64_no_panic` | ParserProps.v | closed |
| C65 No code is generated from a rejected schema | partial | `C65_refuted` | ParserProps.v | closed |
| C66 C stores exactly the given bytes | partial | `C66_put_partial`, `C66_put_refuted` | BaseProps.v | closed |
| C67 Every generated directive is read back as written | proved | `C67_lines`, `C67_declarations` | GenProps.v | closed |
| C68 The generated package registers what the schema declares | partial | `C68_steps_partial`, `C68_panic_refuted` | GenProps.v | closed |
| C69 Generated files do not overwrite each other | partial | `C69_files_partial`, `C69_list_refuted`, `C69_case_refuted` | GenProps.v | closed |
| C70 From the schema text to the tables | partial | `C70_tables_partial`, `C70_kinds_refuted` | GenProps.v | closed |
| C71 Every generated accessor has a defined result type | partial | `C71_results_partial`, `C71_results_refuted` | GenProps.v | closed |
| C72 Info and Len end at the last byte of the value | partial | `C72_info_partial`, `C72_len_partial`, `C72_vector_refuted`, `C72_empty_refuted`, `C72_scalar_refuted`, `C72_string_refuted`, `C72_strings_refuted` | WalkProps.v | closed |
| C73 TraverseInfo shows every stored value once, under its owner | partial | `C73_traverse_partial`, `C73_phantom_refuted`, `C73_vector_refuted`, `C73_struct_refuted` | WalkProps.v | closed |
| C74 A union field leads to the member its type names | proved | `C74_union` | WalkProps.v | closed |
| C75 FieldAt yields the node of the stored field | proved | `C75_field`, `C75_member` | WalkProps.v | closed |
| C76 At of a vector found through FieldAt yields the elements | partial | `C76_elements_partial`, `C76_strings_refuted` | WalkProps.v | closed |
| C77 HasNext and Next walk over the roots of a buffer | partial | `C77_has_next_partial`, `C77_has_next_refuted`, `C77_alone_refuted`, `C77_next_stays`, `C77_next_refuted` | WalkProps.v | closed |
| C78 AllTree links every value to the tree of its owner | partial | `C78_trees_partial`, `C78_parent_refuted` | WalkProps.v | closed |
| C79 A union value of a newer schema is passed over | partial | `C79_unknown_refuted` | WalkProps.v | closed |
| C80 Add yields the elements of both vectors, in order | partial | `C80_add_tables_partial`, `C80_append_made_partial`, `C80_fields_partial`, `C80_gap_refuted` | AddProps.v | closed |
| C81 The same vector can be added again | partial | `C81_add_twice_refuted`, `C81_add_self_refuted` | AddProps.v | closed |
| C82 New with a range yields a copy of that part | partial | `C82_part_tables_partial`, `C82_part_any_partial`, `C82_part_fixed_partial`, `C82_beyond_refuted`, `C82_bytes_refuted`, `C82_gap_refuted` | AddProps.v | closed |
| C83 indexOnMaxPos finds the outermost elements | proved | `C83_first`, `C83_last` | AddProps.v | closed |
| C84 FromByteList keeps every byte | proved | `C84_byte_list` | AddProps.v | closed |
| C85 Add joins vectors of inline elements | proved | `C85_add_fixed`, `C85_reads_fixed` | AddProps.v | closed |
| C86 Equal compares the data of two nodes | partial | `C86_equal_partial`, `C86_both_partial`, `C86_longer_refuted`, `C86_string_refuted`, `C86_self_refuted`, `C86_numbers_refuted`, `C86_absent_vector_refuted`, `C86_absent_scalar_refuted` | EqualProps.v | closed |
| C87 A table built field by field stores what was assigned | partial | `C87_build_partial`, `C87_refused`, `C87_nested`, `C87_scalars`, `C87_strings`, `C87_second_refuted`, `C87_shorter_refuted`, `C87_replace_refuted`, `C87_type_refuted`, `C87_shared_refuted`, `C87_vector_refuted`, `C87_gap_refuted` | BuildProps.v | closed |
| C88 WithHeader makes a root buffer of a built table | partial | `C88_header_partial` | BuildProps.v | closed |
| C89 The generated package describes its schema to the reader | partial | `C89_describes_partial`, `C89_package`, `C89_total` | LinkProps.v | closed |
| C90 From the text of a schema to reading and building its buffers | partial | `C90_reads_partial`, `C90_builds_partial` | LinkProps.v | closed |
| C91 WriteDataAll splits a vector into header and data | partial | `C91_split_partial`, `C91_kept_partial`, `C91_fields_partial`, `C91_swapped_refuted` | SepProps.v | closed |
| C92 SetAt on a separated vector appends the element | partial | `C92_set_partial`, `C92_made_partial`, `C92_journaled_refuted`, `C92_inner_refuted`, `C92_plain_refuted` | SepProps.v | closed |
| C93 Add joins separated vectors | partial | `C93_add_partial`, `C93_cursor_refuted`, `C93_set_after_refuted` | SepProps.v | closed |
| C94 Inserting space moves every reference across the place | partial | `C94_insert_partial`, `C94_outside`, `C94_absent_refuted`, `C94_union_refuted`, `C94_own_refuted`, `C94_touching_refuted`, `C94_root_refuted`, `C94_shared_refuted` | InsProps.v | closed |
| C95 Inserting space into a NoLayer | partial | `C95_nolayer_partial` | LayerProps.v | closed |
| C96 Inserting space into a DoubleLayer | partial | `C96_end_partial`, `C96_entry_partial`, `C96_append_partial`, `C96_behind`, `C96_tail_refuted`, `C96_room_refuted`, `C96_offset_refuted`, `C96_front_refuted`, `C96_merged_refuted` | LayerProps.v | closed |
| C97 The default variant is chosen by its name | partial | `C97_nolayer`, `C97_double_refuted` | LayerProps.v | closed |
| C98 Messages up to the level are written in order | proved | `C98_base_log`, `C98_log_log` | LogProps.v | closed |
| C99 Log2 writes enabled messages and returns the result of its function | partial | `C99_result`, `C99_keeps_partial`, `C99_unflagged`, `C99_enabled`, `C99_written_refuted`, `C99_level_refuted` | LogProps.v | closed |

## What is missing or wrong

Properties with status `partial`; each note says under which hypotheses the
property holds and how the code violates it otherwise.  The refutations are
theorems.

* **C02** A range read returns current bytes: False in general: writerR does not clip an entry by later entries that start inside it. Proved for journals in which no entry starts strictly inside an earlier one.
* **C07** MergeDiffs is invisible: False in general (three-entry journal). Proved for journals without overlaps and for journals in offset order.
* **C09** Inserting space moves the tail and nothing else: Proved when at most one journal entry crosses the insertion point; false for two. Without filling, the hole shows old bytes.
* **C100** The search reports what satisfies the condition: For conditions that only accept something with a size, and values without structs, vectors of tables and absent numbers and strings, whose size is right (C72). What is in vectors of tables is never found (C100_outside, for every buffer). Refuted for members of structs, absent numbers, absent strings, unions of unknown type and conditions that accept an Info without a size (a panic in absent tables, and vectors at the place of their table).
* **C101** A position is found in everything that contains it: With the same restrictions as C100.
* **C102** Unmarshal fills a Go struct: For Go fields that fit, in buffers without a journal. No Go struct ever gives an error (C102_errors); the code panics for Go fields of another type or not exported, for vectors of numbers of more than one byte and for absent strings, and a number registered as Uint8 is skipped.
* **C104** Setting a number or struct that is not there: For buffers without a journal whose value has no structs and no absent vectors, when the code finds all references across the place (as in C94; those of the table itself are found as well) and the vtable is not shared. Refuted for shared vtables (other tables get the field too) and for references behind an absent table.
* **C105** Setting a vector or table: For vectors of the same size and tables that are not larger, in buffers without a journal, when nothing else is where the value comes; without unions. Refuted for longer vectors (no reference is moved), for shorter ones (offsets before them are overwritten), for absent tables (bytes and references move by different distances) and for absent vectors (panic).
* **C106** Reading through the journal: When no journal entry cuts a number of the structure or a reference; sizes and traversal with the restrictions of C72 and C73. Refuted for an entry that cuts the offset to a vtable: every field access panics although the bytes are the same.
* **C108** Setting a number or struct of a vector: Replacing is proved for every journal, when no other value shares bytes with the element. Appending is refuted: the bytes behind the vector move, the references to them do not. A number of another width is accepted and overwrites the next element.
* **C109** Setting a table of a vector: For tables that are not longer than the one replaced, when nothing else shares bytes with the place. Longer tables and appended ones are only computed on the sample. Refuted for longer tables when the elements are not stored in the order of their indexes: a reference is moved although its table is not (the document is no longer stored), or is not moved although its table is (the code panics).
* **C11** Copy with extension opens a gap: Proved when no destination entry crosses the copy position and extend = size; false with a crossing entry.
* **C110** Exchanging elements of a vector in a document: Proved for tables, when the slots share no byte with other values and the elements are stored behind them. Refuted for numbers, which both become zero, and for negative indexes, which are not refused.
* **C112** Sequences of updates of a document: For calls that replace numbers and structs of tables and vectors and tables of vectors that are not longer, and exchange tables; each with the conditions of C107 to C110 on the value at that moment. Refuted when an element is appended after elements were exchanged: the vector is measured wrongly and the code panics, while the other order works.
* **C113** Filling a Go struct through a journal: With the limits of C102 on the Go fields, and for values that come from one place: one journal entry or the bytes below. Refuted otherwise: after one letter of a string is set, which C108 allows, the string is read with the old letter, or the code panics.
* **C114** Searching through a journal: With the restrictions of C100; what is in vectors of tables is not found. Refuted after two tables of a vector were exchanged: the document is measured too short and is itself no longer found at places that belong to it.
* **C115** Comparing through journals: With the restrictions of C86, and for tables whose numbers outside vectors of numbers are not cut by a journal entry. Refuted otherwise: a table with an entry over one byte of a number is not equal to itself, nor to the same data without the entry.
* **C116** Copying between variants of buffers: For sources whose range reads give current bytes and, if they are a DoubleLayer, have nothing left to merge; for destinations that are a BaseImpl or NoLayer, a DoubleLayer without entries, or a DirectReader whose buffer does not grow; room only in BaseImpl and NoLayer. Refuted otherwise: room made in a DoubleLayer loses the bytes that should follow, a copy over the end of the buffer of a DirectReader moves its stream, and a DoubleLayer with a gap between entries is copied with zeros in it.
* **C117** Reading and updating a DoubleLayer over shared arrays: Merging and reading over shared arrays are proved for every journal whose first entry shares no byte with the rest. What the journal says is shown when the entries leave no gap; updates are shown when there is at most one entry before and after, sequences when they stay inside the bytes and the entry, or in the room of the bytes of a buffer without entries, or inside the first update of a buffer on nothing. Refuted otherwise: an update before the place of an earlier one loses the earlier one and brings one of its bytes up elsewhere, an update behind it shows zeros between the two.
* **C118** Changing the variant of a buffer: For a BaseImpl, a NoLayer and a DoubleLayer without gaps; into a DoubleLayer only from a BaseImpl, whose gaps are filled with zeros. Refuted otherwise: a DirectReader loses its stream as a NoLayer and when duplicated, a NoLayer made a DoubleLayer has no buffer, and neither has a new list beside one in a DoubleLayer when the default is NoLayer.
* **C119** Moving the offsets of a list with the option OptUseMovOff on and off: Proved for every list with elements whose offsets can be read. Refuted for the empty list: with the option on, which is the default, the code panics.
* **C12** LenBuf is the end of the content: Proved for histories of non-empty writes; an empty write far out moves LenBuf beyond the content.
* **C15** ReadAt and Read obey the io contracts: False as stated: the count reported by ReadAt can exceed the room given, and Read then skips bytes. Proved under the hypothesis that no read of the sequence reports more than its room: the pieces delivered follow one another and only lack bytes where the buffer has none.
* **C16** Streamed reads return stream bytes: Proved for requests inside the stream, in any order; the second read past the end returns zeros. Requests inside the stream never give wrong bytes but can panic when they go back.
* **C17** Load buffers are large enough: Whole pages always; large enough below 16 MiB; the sizes for which it is too small are characterised exactly.
* **C19** A no-journal update is readable: Proved when entries do not overlap and the update neither starts in spare capacity nor runs out of its entry; false otherwise, in four ways.
* **C20** The two-layer buffer keeps content when merging: False when the second entry starts before the first or ends in its spare capacity; DoubleLayer reads are proved for journals without gaps and false with gaps.
* **C22** Scalars survive encode and decode: Decode after encode proved for all types; encode after decode for all but bool, where byte 2 decodes to false.
* **C25** A field the writer did not know is absent: Only true beyond the end of the buffer: the vtable length is not consulted.
* **C28** Struct fields do not overlap: Layout and map behaviour of FieldAt/SetFieldAt proved; ValueInfo computes a different range.
* **C29** Struct layout agrees with the FlatBuffers format: Agrees exactly when every running sum is a multiple of the member's size; padding is not inserted.
* **C33** Select, Find and All are filter, first match and everything: Proved when the handle's cached length is the stored one; false for a handle taken before an append.
* **C36** Swapping fixed-size elements swaps their bytes: The property is false: both elements become zero, for every list on BaseImpl.
* **C39** Appending tables: Proved for tables with inline fields of which at least one is set; false for a table with no field set. Tables holding strings, vectors or tables are not covered.
* **C40** Type-name classification: Holds for every scalar but uint8 and for names that cannot be confused with a scalar; false for uint8, for names with a scalar tail, for vectors of structs; names of one byte panic.
* **C41** Symbols identify names: Names: proved. Pairs: proved for at most 65536 non-empty names; false beyond that, and unregistered names are not reported.
* **C42** Deferred name tables are all applied: Proved whenever the initializers do not panic; with a union of a one-byte name whether they panic depends on their order.
* **C43** Parsing recovers the schema: Proved for schemas of namespaces, tables, structs, unions, root types, attributes and rpc services with any layout at the places the grammar allows it; the other theorems list what is rejected or mistyped.
* **C44** Declarations do not leak into each other: Proved without enums; members of an enum leak into the next table or union.
* **C45** Each union field gets its type field: Proved when union names start with a capital letter and Go types have two characters or more; false or panicking otherwise.
* **C46** Camel-case conversion: Exact characterisation: the conversion panics on a leading, trailing or doubled underscore and capitalises otherwise.
* **C47** Computed buffer length does not depend on map order: The root Length is order-independent and covers every scalar and string; the end of a table without fields is not covered, absent fields and empty vectors are read as if present, and several valid buffers panic.
* **C48** Tree search delivers all matches in order: Exactly the matching nodes below the root, once, in depth-first order, under every schedule; the root itself is never tested.
* **C51** Vtable positions follow the signed offset: False: the offset is read as uint32. The non-negative case is C24.
* **C52** Creating a struct node never fails: Init writes four bytes into the struct; panics for smaller structs.
* **C53** A stored scalar can be read however it was written: False when a journal boundary splits the value; true after Flatten.
* **C54** A struct member can be set through its node: False for every struct member.
* **C55** Writes through list indexes are bounds-checked: Indexes beyond the end are rejected; negative ones are not.
* **C56** The reported size of a list covers its elements: False for scalars: the reported size is one element short after an append.
* **C59** Shrinking keeps the window: Proved for a buffer without a journal; with one, the window is kept unless an entry inside it ends at its end, but more than the window may be left. No code in the repository calls shrink.
* **C61** A streamed read returns at least what was asked: Proved for reads that do not overlap and stay in the first buffer; false in general.
* **C62** Next continues behind the previous root: Proved for one Next within what was read; false for two.
* **C63** Plain readers can be streamed: Only the first read works.
* **C65** No code is generated from a rejected schema: False: the command goes on after the error.
* **C66** C stores exactly the given bytes: For journals in which no entry starts strictly inside an earlier one; otherwise part of a replaced entry stays hidden.
* **C68** The generated package registers what the schema declares: For struct names that are pairwise different and types of two characters or more; a one-letter type stops the generator.
* **C69** Generated files do not overwrite each other: Unless a name is another one followed by List, or two slots get the same camel-case name.
* **C70** From the schema text to the tables: For schemas without unsigned bytes, vectors of structs and vectors of unions, and with capital names that no scalar name hides in; the kinds of the excluded types are wrong.
* **C71** Every generated accessor has a defined result type: False for byte and unsigned-byte fields, vectors of them and vectors of unions: the package does not compile.
* **C72** Info and Len end at the last byte of the value: For tables that have a field, whose strings are present, whose absent scalars do not stick out and whose vectors of tables have their farthest table last; false in each of the other cases, and for vectors of strings.
* **C73** TraverseInfo shows every stored value once, under its owner: For values without structs, absent scalars and absent vectors; absent scalars are shown as present, absent vectors panic, and members of structs are shown at wrong places.
* **C76** At of a vector found through FieldAt yields the elements: For vectors of scalars, structs and tables; all elements of a vector of strings are found at its start.
* **C77** HasNext and Next walk over the roots of a buffer: HasNext is right only if nothing follows and the buffer is padded; Next never gets anywhere on buffers without a reader, and the root it makes has no name.
* **C78** AllTree links every value to the tree of its owner: One tree per value, each linked to the first tree at the position of its owner, for values as in C73; another value at the same position takes the children.
* **C79** A union value of a newer schema is passed over: False: Info and Len panic.
* **C80** Add yields the elements of both vectors, in order: For tables whose fields are stored inline and which have no gap at their end; with a gap, which an absent eight-byte scalar leaves, elements are lost.
* **C81** The same vector can be added again: False in both cases.
* **C82** New with a range yields a copy of that part: For ranges inside vectors of gapless inline tables, and of inline elements of at least four bytes without journal; false for tables with gaps, and short byte vectors and ranges beyond the end panic.
* **C86** Equal compares the data of two nodes: For tables with everything present and without vectors of scalars, up to further elements at the end of vectors of the second node; of strings one byte is compared, vectors of numbers are not, absent vectors equal any, absent scalars panic.
* **C87** A table built field by field stores what was assigned: For tables outside a root buffer with at most one reference field assigned, once, whose value is in a flattened buffer with its vtable right before it, or is a vector with its size; a second reference, a shorter string, a replaced union, a shared vtable and a vector taken from a table are stored wrongly.
* **C88** WithHeader makes a root buffer of a built table: For the tables of C87.
* **C89** The generated package describes its schema to the reader: For fields of scalar, struct, table and union types, vectors of scalars, structs and tables, and strings; unsigned bytes and vectors of unions are misclassified (C70), vectors of strings misread (C72, C76).
* **C90** From the text of a schema to reading and building its buffers: Under the conditions of C89 and of C72, C73 and C87.
* **C91** WriteDataAll splits a vector into header and data: For tables with inline fields. Refuted for vectors whose elements changed places: SwapAt and SortBy are undone, because the data is written in the order of the elements while the slots keep their old meaning.
* **C92** SetAt on a separated vector appends the element: For merged tables that fill their buffer, a file as writer, and a vector that was not joined. Refuted for tables with journal entries (they are written at a wrong offset), for tables inside a larger buffer (the buffer is written from its start), and for writers without WriteAt (nothing is written).
* **C93** Add joins separated vectors: If the file of the argument was rewound before. Refuted otherwise: right after WriteDataAll its cursor is at the end and Add fails; and SetAt on the joined vector loses elements.
* **C94** Inserting space moves every reference across the place: Proved for buffers without a journal whose value has no structs, distinct starts and offsets that share no byte with anything else, when the root lies before the place and below 65536 and every reference across the place is one the code finds. Refuted for references behind an absent table, struct or union (absent numbers do no harm), of tables reached through a union, of the node itself, of tables that begin where an empty vector ends, for the root offset, and for vtables shared across the place.
* **C95** Inserting space into a NoLayer: Proved with at most one journal entry across the place; with two C09_insert_space_refuted refutes it for the buffer underneath.
* **C96** Inserting space into a DoubleLayer: Proved without a journal at the end of the buffer, and for a single journal entry that reaches the end of the buffer, inside it when its capacity is enough or used up, and at its end. Refuted without a journal in front of the end (for every buffer), for entries with less room than the test assumes, for entries whose offset is not 0 when the position exceeds their capacity (panic, universal), for entries behind the place and for journals of more than one entry.
* **C97** The default variant is chosen by its name: The name NoLayer is proved; DoubleLayer selects BaseImpl because the code compares with a misspelt name.
* **C99** Log2 writes enabled messages and returns the result of its function: The result is proved. Messages are never written (refuted for every call), and the level of the base logger becomes that of the log package (refuted for every call that passes the filter). The function given is assumed to leave the loggers alone.

## Mutation testing

`seeded/LOG.jsonl` has one line per deliberate error made in a scratch copy of
the model: the definition, the edit, the claim it should break, the theorems
that stopped being provable, and the theorems that were added or tightened
because an error went unnoticed.
