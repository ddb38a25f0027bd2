{"id": "C01", "title": "Heap sort returns a sorted permutation", "statement": "mr_hsort(array,count,...) leaves in the array exactly the elements that were there before, ordered so that no element compares greater than its successor, whenever the comparator is a total preorder.", "quantifier": "every array content and length, every total preorder comparator", "why_tests_cant": "There are infinitely many arrays and comparators; a wrong heap boundary only shows for particular lengths/positions.", "anchors": ["src/mr_hsort.c: mr_hsort, sift"]}
{"id": "C02", "title": "Heap sort is safe with any comparator", "statement": "Whatever the comparator answers (even inconsistent answers), mr_hsort never touches an element outside the array, terminates, and leaves a permutation of the original elements.", "quantifier": "every array and every comparator function, including non-transitive and asymmetric ones", "why_tests_cant": "User supplied comparators are arbitrary functions; tests use a few well-behaved ones.", "anchors": ["src/mr_hsort.c: mr_hsort, sift"]}
{"id": "C03", "title": "Binary search in a sorted collection is exact", "statement": "On an array strictly sorted by the comparator, lookup reports a match iff an equal element is present, returns that element, and otherwise the reported position splits the array into smaller and greater elements; all probes stay inside the array.", "quantifier": "every sorted array, every key, every total order comparator", "why_tests_cant": "All array sizes and key positions must be covered, including empty arrays and both ends.", "anchors": ["src/mr_ic.c: mr_ic_sorted_array_find_idx, mr_ic_sorted_array_find", "src/metaresc.c: mr_get_enum_by_value"]}
{"id": "C04", "title": "Sorted-array collection behaves as a first-wins set", "statement": "After any sequence of add/del/find calls the sorted-array collection answers every find exactly like a mathematical set in which the first added representative of a key wins, and foreach visits the members in strictly increasing order.", "quantifier": "every history of add/del/find, every total order comparator", "why_tests_cant": "A history property: an error in shifting elements appears only after a particular order of insertions and deletions.", "anchors": ["src/mr_ic.c: mr_ic_sorted_array_add, mr_ic_sorted_array_del, mr_ic_sorted_array_find, mr_ic_sorted_array_foreach"]}
{"id": "C05", "title": "Bulk indexing keeps the first of equal elements", "statement": "mr_ic_index on a sorted-array collection yields a strictly increasing array with the same keys as the input array, and for each key the representative is the one with the smallest position in the input.", "quantifier": "every input array and total preorder comparator", "why_tests_cant": "Depends on stability of index sort and de-duplication for all arrays.", "anchors": ["src/mr_ic.c: mr_ic_sorted_array_index", "src/mr_hsort.c: mr_hsort"]}
{"id": "C06", "title": "Hash collection behaves as a first-wins set", "statement": "After any sequence of add/del/find calls the hash collection answers every find like a first-wins set, provided equal keys have equal hash values; probing always terminates and stays inside the table.", "quantifier": "every history, every hash function compatible with the comparator (including constant hash), every key including the zero key", "why_tests_cant": "Open addressing with back-shift deletion breaks only for particular cluster shapes and wrap-arounds.", "anchors": ["src/mr_ic.c: mr_ic_hash_add, mr_ic_hash_del, mr_ic_hash_find, mr_ic_hash_index_add, mr_ic_hash_reindex"]}
{"id": "C07", "title": "Hash collection element counter", "statement": "The public items_count of a hash collection equals the number of elements visited by foreach after any history of add/del.", "quantifier": "every history of add/del starting from an empty collection; indexing over arrays", "why_tests_cant": "Counter drift shows only in particular histories (repeated zero keys).", "anchors": ["src/mr_ic.c: mr_ic_hash_add, mr_ic_hash_del, mr_ic_hash_index, mr_ic_hash_foreach"]}
{"id": "C08", "title": "Unsorted and static collections answer like a first-wins set and convert without loss", "statement": "The unsorted-array and static-array collections give the same answers as a first-wins set, and the automatic conversion to another representation on growth loses and invents no element.", "quantifier": "every history of operations crossing conversion boundaries any number of times", "why_tests_cant": "Conversions happen at specific sizes, and interplay with earlier deletions is a history property.", "anchors": ["src/mr_ic.c: mr_ic_unsorted_array_add, mr_ic_unsorted_array_del, mr_ic_unsorted_array_find, mr_ic_static_array_add, mr_ic_static_array_del, mr_ic_static_array_find"]}
{"id": "C09", "title": "Collections are interchangeable", "statement": "For any history of operations on keys, the sequence of answers does not depend on which of the supported collection kinds was chosen.", "quantifier": "every pair of collection kinds and every history of operations", "why_tests_cant": "Quantifies over pairs of implementations and unbounded histories.", "anchors": ["src/mr_ic.h: mr_ic_add, mr_ic_del, mr_ic_find", "src/mr_ic.c"]}
{"id": "C10", "title": "Red-black tree keeps its balance invariants", "statement": "After any history of insertions and deletions the tree stored in the node pool is a binary search tree without adjacent red nodes and with equal black height on all paths.", "quantifier": "every history of add/del on the pool-based red-black tree, every total order comparator", "why_tests_cant": "Rebalancing cases depend on deep shapes; the number of histories is unbounded.", "anchors": ["src/mr_btree.c: mr_rbtree_add, mr_rbtree_del, mr_rbtree_is_valid"]}
{"id": "C11", "title": "AVL tree keeps its balance invariants", "statement": "After any history of insertions and deletions the tree stored in the node pool is a binary search tree whose balance marks equal the actual height differences, which never exceed one.", "quantifier": "every history of add/del on the pool-based AVL tree, every total order comparator", "why_tests_cant": "Same as red-black: rebalancing cases depend on deep shapes.", "anchors": ["src/mr_btree.c: mr_avltree_add, mr_avltree_del, mr_avltree_is_valid"]}
{"id": "C12", "title": "Tree collections behave as a first-wins set", "statement": "After any history, find/add/del on red-black and AVL collections answer exactly as a first-wins set, including the pool compaction performed on deletion.", "quantifier": "every history of add/del/find", "why_tests_cant": "Pool compaction moves an unrelated node on every deletion; aliasing mistakes show only for special layouts.", "anchors": ["src/mr_btree.c: mr_tree_find, mr_tree_add, mr_tree_del", "src/mr_ic.c: mr_ic_rbtree_add, mr_ic_avltree_add, mr_ic_tree_find"]}
{"id": "C13", "title": "Tree descent never overflows its path buffer", "statement": "In trees produced by any history the depth of a search path never exceeds the fixed capacity of the traverse record.", "quantifier": "every history producing up to 2^31-1 nodes", "why_tests_cant": "Overflow would need billions of insertions to be observed.", "anchors": ["src/mr_btree.c: mr_tree_find, mr_tree_walk, mr_tree_next", "src/mr_protos.h: mr_tree_traverse_t"]}
{"id": "C14", "title": "Tree walk visits all elements in order", "statement": "Walking the tree visits every element exactly once in increasing order.", "quantifier": "every reachable tree", "why_tests_cant": "Explicit-stack traversal correctness depends on all shapes.", "anchors": ["src/mr_btree.c: mr_tree_walk, mr_tree_next", "src/mr_ic.c: mr_ic_tree_foreach"]}
{"id": "C15", "title": "Bit-field write then read returns the value", "statement": "Storing a value into a bit field and reading it back gives the value truncated to the width of the field, sign-extended for signed base types.", "quantifier": "every memory content, every offset bit 0..7, every width the code supports, every value, signed and unsigned", "why_tests_cant": "8 x 128 x 2^128 x memory contents combinations.", "anchors": ["src/metaresc.c: mr_load_bitfield_value, mr_save_bitfield_value"]}
{"id": "C16", "title": "Bit-field write leaves neighbours intact", "statement": "Storing into a bit field modifies no bit outside [shift, shift+width) and touches no byte outside those holding the field.", "quantifier": "every memory content, shift, width, value", "why_tests_cant": "The space of memory contents is unbounded.", "anchors": ["src/metaresc.c: mr_load_bitfield_value"]}
{"id": "C17", "title": "Bit-field geometry detection", "statement": "Given the bytes of a structure in which exactly the bits of a contiguous field are set, initialisation recovers exactly the byte offset, bit shift and width.", "quantifier": "every structure size and every contiguous bit range", "why_tests_cant": "Unbounded structure sizes and positions.", "anchors": ["src/metaresc.c: mr_fd_init_bitfield_params"]}
{"id": "C18", "title": "Decimal print/parse round trip of integers", "statement": "Printing any (signed or unsigned) integer up to 128 bits in decimal and parsing the text gives the same value, and the text fits in the fixed print buffer.", "quantifier": "all 2^128 unsigned and signed values", "why_tests_cant": "2^128 values.", "anchors": ["src/mr_stringify.c: mr_uintmaxtostr, mr_stringify_int128, mr_stringify_uint128", "src/metaresc.c: mr_strtouintmax"]}
{"id": "C19", "title": "Integer parser consumes a maximal numeral and nothing else", "statement": "mr_strtouintmax never reads past the terminator, its end pointer stays within the string, the consumed text is an optional blank/sign/prefix followed by the longest run of digits valid in the base, and the value is the numeral's value modulo 2^128; text that is not a numeral consumes nothing.", "quantifier": "every zero-terminated string and base 0, 8, 10, 16", "why_tests_cant": "Unbounded strings.", "anchors": ["src/metaresc.c: mr_strtouintmax"]}
{"id": "C20", "title": "JSON string quoting round trip", "statement": "Any zero-free byte string quoted by the JSON writer is read back by the JSON reader as the same byte string; the quoted text contains no unescaped quote or control byte.", "quantifier": "every byte string without NUL", "why_tests_cant": "Unbounded strings; escape interplay between neighbours.", "anchors": ["src/json_save.c", "src/json_load.y: json_unquote_str", "src/mr_stringify.c: mr_ra_printf_quote_string"]}
{"id": "C21", "title": "C-initialiser string quoting round trip", "statement": "A zero-free byte string quoted by the CINIT writer is read back by the CINIT reader as the same byte string exactly when no character written as an octal escape is followed by an octal digit (the reader's %o swallows it, which is a defect).", "quantifier": "every byte string without NUL", "why_tests_cant": "Unbounded strings; escape interplay between neighbouring bytes.", "anchors": ["src/cinit_save.c: cinit_printf_string", "src/cinit_load.y: cinit_unquote_str"]}
{"id": "C22", "title": "Scheme string quoting round trip", "statement": "Any zero-free byte string quoted by the SCM writer is read back by the SCM reader as the same byte string.", "quantifier": "every byte string without NUL", "why_tests_cant": "Unbounded strings; escape interplay between neighbouring bytes.", "anchors": ["src/scm_save.c", "src/scm_load.y: scm_unquote_str"]}
{"id": "C23", "title": "XML text quoting round trip", "statement": "Any zero-free byte string written as XML text is read back as the same byte string, and the escaped text contains no markup characters.", "quantifier": "every byte string without NUL", "why_tests_cant": "Unbounded strings; escape interplay between neighbouring bytes.", "anchors": ["src/xml_save.c: xml_quote_string, xml_unquote_string"]}
{"id": "C24", "title": "XML unquoting terminates in bounds on any text", "statement": "xml_unquote_string terminates and stores at most as many bytes as the text has on every text whose escapes are closed (a semicolon or NUL within 9 bytes of each &, and &#x followed by one or two hex digits and a semicolon, or by no number). On other text it can loop forever storing bytes past the buffer (&#x41,;) or overrun its local array: both shown by refutation theorems.", "quantifier": "every input text, including malformed entities", "why_tests_cant": "Unbounded malformed inputs.", "anchors": ["src/xml_save.c: xml_unquote_string", "src/xml1_load.y"]}
{"id": "C25", "title": "Character literal round trip", "statement": "Each of the 256 characters printed as a CINIT or SCM character literal is read back as the same character.", "quantifier": "all characters and both formats", "why_tests_cant": "Locale independent proof over the whole domain, composed with the unquoting functions' proofs.", "anchors": ["src/cinit_save.c: cinit_printf_char", "src/cinit_load.y", "src/scm_save.c: scm_printf_char", "src/scm_load.y"]}
{"id": "C26", "title": "Child lists keep insertion order", "statement": "Adding a child to a node appends it to the end of that node's child list and leaves all other child lists unchanged, provided no addition is for a proper ancestor of the node below which the current run of additions takes place; an addition that violates this goes wrong exactly when the node met on the way up from the last-child cache is not the last child, and then drops children.", "quantifier": "every history of node creation / child addition", "why_tests_cant": "The last-child cache is history dependent.", "anchors": ["src/metaresc.c: mr_add_child, mr_last_child_for_parent, mr_add_ptr_to_list"]}
{"id": "C27", "title": "Depth-first traversal visits every node exactly once", "statement": "Traversal of a saved graph from a root, or from a node whose children are entered, calls the pre-order handler and the post-order handler exactly once per reachable non-reference node, properly nested, with the correct depth; references are leaves. Started at a leaf below another node it leaves the subtree.", "quantifier": "every node forest built by the library, every start node", "why_tests_cant": "Unbounded shapes.", "anchors": ["src/mr_save.c: mr_ptrs_dfs_impl"]}
{"id": "C28", "title": "XDR integer round trip", "statement": "Every integer, bool, char, enum value encoded to XDR decodes to the same value with the documented number of bytes (multiple of four).", "quantifier": "every value of every width", "why_tests_cant": "2^128 values.", "anchors": ["src/xdr.c: xdr_int8_t, xdr_uint8_t, xdr_int64_t, xdr_uint64_t, _xdr_uint128_t, xdrra_getlong, xdrra_putlong"]}
{"id": "C29", "title": "XDR string and opaque round trip with padding", "statement": "Every string or char array encoded in XDR is padded to a multiple of four and decodes to the same bytes.", "quantifier": "every byte string", "why_tests_cant": "Unbounded lengths.", "anchors": ["src/xdr.c: xdr_save_string, xdr_load_string, xdrra_putbytes, xdrra_getbytes"]}
{"id": "C30", "title": "XDR decoder rejects truncated input", "statement": "Decoding a proper prefix of an encoding fails instead of reading outside of the buffer or succeeding with partial data.", "quantifier": "every encoded value and every truncation point", "why_tests_cant": "Crash/truncation points are unbounded.", "anchors": ["src/xdr.c: xdrra_getlong, xdrra_getbytes, xdr_load_inner and the load handlers"]}
{"id": "C31", "title": "Integer expression arithmetic", "statement": "An integer expression (numbers, enumerator names, + - * / % | & ^ and signs) stores the exact value when that value and all intermediate ones fit in 128 bits and no divisor is zero, and never stores another value without wrapping arithmetic; with wrapping arithmetic sums, differences and products are exact modulo 2^128 for all operands. Division and modulo by zero are reported by the functions (the CINIT grammar ignores the report: refuted there).", "quantifier": "every expression tree, every enumerator table, every operand", "why_tests_cant": "2^256 operand pairs.", "anchors": ["src/mr_value.c: mr_value_add, mr_value_sub, mr_value_mul, mr_value_div, mr_value_mod"]}
{"id": "C32", "title": "Bitmask enum print/parse round trip", "statement": "Any value of an enum of up to 64 bits, printed as a name, as an or-list of names with a numeric remainder or as a number, parses back to the same value, whether quoted, embedded in a longer text or read as an expression. Setting up an enum of eight bytes overflows a signed shift (recorded as refuted).", "quantifier": "every enum description with distinct names and every value of its width", "why_tests_cant": "Unbounded enum descriptions.", "anchors": ["src/mr_stringify.c: mr_stringify_bitmask", "src/mr_value.c: mr_load_bitmask"]}
{"id": "C33", "title": "Multi-dimensional arrays are saved element by element in row-major order", "statement": "Saving an array with extents d1..dk visits exactly its d1*..*dk elements, each once, in increasing address order, if and only if d1*..*dk = d1^k (so for every one-dimensional array and for equal extents); it is refuted for all other shapes, e.g. int[2][3]. A size field limits a one-dimensional array to the elements that fit. Collecting the extents of a declaration preserves the number of elements.", "quantifier": "every number of dimensions and every extents", "why_tests_cant": "Extents are unbounded; test programs only use a few (square) shapes.", "anchors": ["src/mr_save.c: mr_save_array"]}
{"id": "C34", "title": "Array load stays inside the destination", "statement": "Loading a textual array writes only elements inside the declared array; element i of the text goes to element i of the array; excess elements are rejected.", "quantifier": "every number of dimensions, extents and number of given values", "why_tests_cant": "Extents and inputs are unbounded.", "anchors": ["src/mr_load.c: mr_load_array"]}
{"id": "C35", "title": "Struct load: positional and designated values", "statement": "Loading a struct from a list of values behaves like C initialisers: a named value goes to the named field, an unnamed one to the field following the previously assigned one; a name the struct does not have is accepted only for an anonymous field.", "quantifier": "every struct description and list of named/unnamed values", "why_tests_cant": "Combinatorial mixes of named and positional values.", "anchors": ["src/mr_load.c: mr_load_struct, mr_load_struct_next_field"]}
{"id": "C36", "title": "Growable arrays never lose data", "statement": "Appending elements keeps all earlier elements, size never exceeds the allocated size, an allocation failure leaves the array unchanged, and the allocation count is logarithmic in the number of appends.", "quantifier": "every history of appends with any pattern of allocation failures", "why_tests_cant": "Failure schedules are unbounded.", "anchors": ["src/metaresc.c: mr_rarray_allocate_element, mr_rarray_append"]}
{"id": "C37", "title": "String hash and comparison agree", "statement": "The name comparison used by all lookups is a total order, equal names have equal hash values, and it distinguishes exactly different names regardless of hash collisions.", "quantifier": "every pair/triple of strings", "why_tests_cant": "Hash collisions are infeasible to enumerate.", "anchors": ["src/metaresc.c: mr_hashed_string_cmp, mr_hashed_string_get_hash", "src/mr_extra.c: mr_hash_str, mr_hash_block"]}
{"id": "C38", "title": "XML document reader", "statement": "mr_read_xml_doc returns a prefix of the input stream that ends exactly where the second top-level tag closes (for documents of processing instructions, elements and text, nested to any depth), or fails; the result does not depend on what follows; its buffer is never overrun for streams below 2^30 characters (beyond, the int size overflows). Comments are not recognised (refuted).", "quantifier": "every input stream of any length", "why_tests_cant": "Unbounded streams; buffer doubling boundaries.", "anchors": ["src/metaresc.c: mr_read_xml_doc"]}
{"id": "C39", "title": "Type name normalisation", "statement": "A type name made of words and blanks normalises to its words that are no C qualifiers or tag keywords, in order and separated by single blanks, so names differing only in qualifiers, tag keywords and blanks normalise to the same name; on every string normalisation ends inside the string and never grows it; it is idempotent if the white space is blanks and tabs (false with a line feed). A trailing star and the blanks before it are taken off a pointer type's name (reading before the string if nothing else is left).", "quantifier": "every type name string", "why_tests_cant": "Unbounded strings.", "anchors": ["src/metaresc.c: mr_normalize_type"]}
{"id": "C40", "title": "Type registry sorting", "statement": "Type descriptors are ordered by producer priority, keeping the relative order inside each producer, without loss or duplication.", "quantifier": "every list of descriptors", "why_tests_cant": "Unbounded lists.", "anchors": ["src/metaresc.c: mr_sort_td"]}
{"id": "C41", "title": "One-time initialisation under concurrency", "statement": "Whatever the interleaving of threads calling any entry point first, the registry is initialised exactly once and no call returns before initialisation is complete.", "quantifier": "any number of threads and every interleaving", "why_tests_cant": "Schedules cannot be enumerated by tests.", "anchors": ["src/metaresc.c: mr_conf_init"]}
{"id": "C42", "title": "Union-discriminator classification", "statement": "A type is classified as usable union discriminator iff following first members leads to an integer/string type, regardless of the order in which types are processed, also for recursive types; classification always terminates.", "quantifier": "every finite type graph and every processing order", "why_tests_cant": "Graph shapes and orders are unbounded.", "anchors": ["src/metaresc.c: mr_type_is_union_discriminator"]}
{"id": "C43", "title": "Cross references are resolved to the numbered object", "statement": "After a successful load every pointer given as reference equals the address of the node carrying that number, and every content reference equals the pointer held by that node; a reference to a number that no node has leaves the pointer NULL and does not make the load fail (mr_set_crossrefs only warns).", "quantifier": "every list of loaded nodes with references", "why_tests_cant": "Unbounded graphs.", "anchors": ["src/mr_load.c: mr_set_crossrefs"]}
{"id": "C44", "title": "Field lookup by offset", "statement": "Whatever the fields of a structure and their order, registration sorts them into a permutation in which mr_get_fd_by_offset answers NULL exactly when no field has the offset, and otherwise gives a field with it: the largest one, so zero-size fields never shadow a later field (by shift, width, size among bit-fields).", "quantifier": "every struct description sorted by offset and every offset", "why_tests_cant": "Unbounded structs.", "anchors": ["src/mr_save.c: mr_get_fd_by_offset", "src/metaresc.c: mr_fd_offset_cmp_sorting"]}
{"id": "C45", "title": "Deep copy is faithful and disjoint", "statement": "Let a node table describe a structure in memory (the nodes form a tree, areas are disjoint, references hold the address of the node they name, all pointers into an area are known). If all allocations succeed, the structure itself is no pointer or string and no pointer is opaque, mr_copy_recursively succeeds and yields an isomorphic structure: every byte has its counterpart, pointers between areas lead to the counterparts (shared and cyclic pointers are preserved), all areas but the first are in new blocks, nothing else changes, and no allocated block can be reached from both. If an allocation fails, all new blocks are released and only the destination's bytes have changed, provided no pointer refers to the structure itself or to an inner element of an array. Releasing the copy releases exactly the new blocks.", "quantifier": "every finite object graph", "why_tests_cant": "Graph shapes are unbounded.", "anchors": ["src/mr_extra.c: mr_copy_recursively"]}
{"id": "C46", "title": "Deep free releases every block once", "statement": "Let a node table describe a structure whose areas are the beginnings of allocated blocks. mr_free_recursively succeeds, releases exactly the allocated blocks that can be reached from the structure by following pointers, each once, and never reads a released block; all other blocks are unchanged.", "quantifier": "every finite object graph with sharing and cycles", "why_tests_cant": "Graph shapes are unbounded.", "anchors": ["src/mr_extra.c: mr_free_recursively"]}
{"id": "C47", "title": "Struct comparison is a total order compatible with hash", "statement": "mr_cmp_structs is antisymmetric and returns 0 iff the two saved structures are structurally equal (same table layout, equal values, all NaNs one value); it is transitive as long as no complex number has NaN in its imaginary part only; structurally equal structures without negative zeros, and with enumerations of their detected size, have equal mr_hash_struct, which is the recursive hash of the tree of values.", "quantifier": "every pair/triple of values of any registered type", "why_tests_cant": "Value domains are unbounded.", "anchors": ["src/mr_extra.c: mr_cmp_structs, mr_hash_struct"]}
{"id": "C48", "title": "Anonymous union extraction", "statement": "Flattening of anonymous unions moves the members of each union, in order, into a separate description, leaving the other fields in order, for arbitrarily nested unions.", "quantifier": "every field list with well nested union markers", "why_tests_cant": "Unbounded nesting.", "anchors": ["src/metaresc.c: mr_anon_unions_extract"]}
{"id": "C49", "title": "Char array load never overruns", "statement": "Loading text into a fixed char array writes only inside its declared size, stores the text cut to that size and terminates it if there is room; text for a char array behind a pointer is never cut.", "quantifier": "every text and every declared size", "why_tests_cant": "Unbounded sizes.", "anchors": ["src/mr_load.c: mr_get_char_array", "src/xdr.c: xdr_char_array_"]}
{"id": "C50", "title": "Renumbering gives unique increasing ids", "statement": "After renumbering, traversal order ids start at one, are consecutive and unique, and every reference still designates the same node.", "quantifier": "every node forest", "why_tests_cant": "Unbounded shapes.", "anchors": ["src/mr_save.c: mr_renumber_node, mr_post_process"]}
{"id": "C51", "title": "Unquoting is memory safe", "statement": "On any literal, well formed or not, followed by one more byte, the JSON, CINIT and SCM unquote functions terminate, read only inside the text and store at most as many characters as the literal has, so the length+1 byte buffer is enough.", "quantifier": "every text and literal length, all three formats", "why_tests_cant": "Arbitrary malformed escapes interplay with sscanf lookahead; lengths are unbounded.", "anchors": ["src/json_load.y: json_unquote_str", "src/cinit_load.y: cinit_unquote_str", "src/scm_load.y: scm_unquote_str"]}
{"id": "C52", "title": "Removal of empty nodes is a bottom-up prune", "statement": "mr_remove_empty_nodes ends; the resulting tree is the original one with exactly the dead nodes (childless, unreferenced, no reference, of an omissible type, below a structured node) dropped bottom-up, in the same order, renumbered 1, 2, 3, ...; references keep their targets; nodes with data are never lost.", "quantifier": "every node tree", "why_tests_cant": "The pass rewires the links of the tree it is traversing; shapes are unbounded.", "anchors": ["src/mr_save.c: mr_remove_empty_node, mr_remove_empty_nodes"]}
{"id": "C53", "title": "XDR whole-value round trip", "statement": "Decoding the XDR encoding of any saved value (structs, unions, arrays, strings, references, pointers to blocks and opaque data, recursive types) gives the same tree of values, flags and reference indices and consumes exactly the bytes written; different values have different encodings. Refuted for opaque pointers of size zero and for pointers to several char arrays.", "quantifier": "every type registry, type, value of any depth and length, and surrounding bytes", "why_tests_cant": "Unbounded nesting, recursive types and sizes.", "anchors": ["src/xdr.c: mr_xdr_save, mr_xdr_load, xdr_save_handler, xdr_load_handler"]}
{"id": "C54", "title": "XDR decoder on arbitrary bytes", "statement": "Decoding arbitrary bytes never reads outside of the stream or writes outside of the destination and always ends; accepted bytes give a value of the type. Refuted for char arrays of a fixed size and resizable arrays, whose sizes are taken from the stream unchecked.", "quantifier": "every byte sequence below 2^32 bytes, every type", "why_tests_cant": "All byte sequences and recursive types.", "anchors": ["src/xdr.c: xdr_load_inner, xdr_char_array_, xdr_load_string, xdr_load_array, xdr_load_pointer"]}
{"id": "C55", "title": "Text output is complete or absent", "statement": "Whatever sequence of output calls a saver makes and whichever allocation fails, the resulting string is either the whole text with its terminator or NULL; a truncated text is never returned.", "quantifier": "all sequences of output calls, all allocation failure patterns, all contents of fresh memory", "why_tests_cant": "each position of an allocation failure and each history of growth would need its own test", "anchors": ["src/mr_stringify.c: mr_ra_append_char, mr_ra_append_string", "src/mr_message.c: mr_ra_printf", "src/json_save.c: mr_json_save"]}
{"id": "C56", "title": "Adding a type descriptor again", "statement": "mr_add_type on a descriptor that is already in the list leaves the list unchanged when another descriptor follows it. For the last element of the list (the first descriptor ever added) the guard does not recognise it and the list becomes cyclic, so the registration walk never ends.", "quantifier": "every list of descriptors and every descriptor in it; every number of steps of the walk", "why_tests_cant": "Non-termination and every list length.", "anchors": ["src/metaresc.c: mr_add_type", "src/metaresc.c: mr_sort_td", "src/metaresc.c: mr_conf_init"]}
{"id": "C57", "title": "A failed load releases what it allocated", "statement": "Loading never touches memory outside of live objects; if any value is rejected or any allocation fails, every block allocated by the load is released exactly once and every pointer of the destination is NULL.", "quantifier": "every consistent union-free type description, every parsed tree that gives each pointer one value, every pattern of failing allocations and scalars", "why_tests_cant": "Failure can occur at any of unboundedly many allocations and values.", "anchors": ["src/mr_load.c: mr_load", "src/mr_load.c: mr_load_pointer_postponed"]}
{"id": "C58", "title": "Loaded pointers own disjoint blocks", "statement": "The values under a pointer are loaded in a row into a block of its own; before references are set no two pointers point to the same block and every allocated block is pointed to; null, empty and reference pointers are NULL.", "quantifier": "every consistent union-free type description and every parsed tree", "why_tests_cant": "Unbounded graphs and nesting.", "anchors": ["src/mr_load.c: mr_load_pointer_postponed", "src/mr_load.c: mr_load_string"]}
{"id": "C59", "title": "A saved structure is one tree", "statement": "After a successful mr_save the node table is one tree below node 1: no node is met twice, the nodes are numbered from 1 in traversal order, and every node of the table belongs to the tree except the characters of strings.", "quantifier": "every consistent type description without size fields on pointers, every memory with any sharing and cycles", "why_tests_cant": "Pointers may form arbitrary graphs of any size.", "anchors": ["src/mr_save.c: mr_save", "src/mr_save.c: resolve_pointer", "src/mr_save.c: resolve_matched", "src/mr_save.c: move_nodes_to_parent"]}
{"id": "C60", "title": "A saved structure shows the data reachable", "statement": "The tree made by mr_save shows the fields of structures, the elements of arrays in use, the member of a union in use, and behind every pointer that is not NULL either its content or a numbered node, itself part of the tree, with the address and type the pointer leads to. Only pointers, strings and functions are marked NULL.", "quantifier": "every consistent type description without size fields on pointers, every memory", "why_tests_cant": "Nodes are moved and matched depending on the order in which an arbitrary graph is met.", "anchors": ["src/mr_save.c: mr_save", "src/mr_save.c: mr_save_inner", "src/mr_save.c: mr_post_process"]}
{"id": "C61", "title": "What is shared is saved once", "statement": "Two contents of pointers never stand for the same value (pointers, arrays and bit-fields left out), and of the strings with the same characters in memory all but one are references.", "quantifier": "every consistent type description without size fields on pointers, every memory", "why_tests_cant": "Unbounded sharing patterns.", "anchors": ["src/mr_save.c: mr_cmp_ptrdes", "src/mr_save.c: resolve_matched", "src/mr_save.c: resolve_void_ptr_and_strings"]}
{"id": "C62", "title": "JSON documents come back", "statement": "Every numbered tree of nodes (references into the tree, known member names, values with a representation) is printed by mr_json_save as a text without character 0 that the JSON lexer and grammar accept; the parsed table has the same shape with every node at the index given by its public number, and the same names, integers, booleans, NULLs, texts and references; floating point texts arrive unchanged unless they are integer numerals.", "quantifier": "every tree of any size and depth, every ctype isprint with isprint 0 = false", "why_tests_cant": "Unbounded trees; nesting, commas, indentation and the lexer longest match interact for every text.", "anchors": ["src/json_save.c: mr_json_save", "src/json_save.c: json_pre_print_node", "src/json_save.c: json_post_print_node", "src/json_load.l", "src/json_load.y"]}
{"id": "C63", "title": "An accepted JSON text is one numbered tree", "statement": "Whatever text the JSON parser accepts, the table is one well-formed tree below the NULL node, node i having public number i in the order of the text, values only at nodes without children, all names known; the text determines the result.", "quantifier": "every text, every set of known names", "why_tests_cant": "All texts, including adversarial ones.", "anchors": ["src/json_load.l", "src/json_load.y", "src/lexer.h"]}
{"id": "C64", "title": "CINIT documents come back", "statement": "Every numbered tree of nodes (references into the tree, member names that are known identifiers and not reserved by the lexer, values with a representation, known types of pointers) is printed by mr_cinit_save as a text without character 0 that the CINIT lexer and grammar accept; the parsed table has the same shape with every node at the index given by its public number, and the same names, cast types, integers, bitmask values, characters, strings, NULLs, reference attributes and numbers of referenced nodes.", "quantifier": "every tree of any size and depth, every ctype isprint with isprint 0 = false, every floating point implementation", "why_tests_cant": "Unbounded trees; attributes, casts, operators and the lexer's longest match interact for every text.", "anchors": ["src/cinit_save.c: mr_cinit_save", "src/cinit_save.c: cinit_pre_print_node", "src/cinit_save.c: cinit_post_print_node", "src/cinit_load.l", "src/cinit_load.y"]}
{"id": "C65", "title": "An accepted CINIT text is one numbered table", "statement": "Whatever text the CINIT parser accepts, nodes are numbered from 1 with parents before their children, only nodes without members have a value or are NULL, all names and types are known, the nodes form one well-formed tree if no node with a reference attribute has members, and the text determines the result (operator precedence included).", "quantifier": "every text, every set of known names, types and enumerators", "why_tests_cant": "All texts, including adversarial ones; ambiguity of a grammar cannot be tested away.", "anchors": ["src/cinit_load.l", "src/cinit_load.y", "src/lexer.h"]}
{"id": "C66", "title": "SCM documents come back", "statement": "Every numbered tree of nodes (references into the tree, member names that are known identifiers and not reserved by the lexer, values with a representation, no void nodes and no pointers without children that are not NULL) is printed by mr_scm_save as a text without character 0 that the SCM lexer and grammar accept; the parsed table has the same shape with every node at the index given by its public number, and the same names, integers, characters, strings, quoted enumerators, function names or addresses, NULLs, reference attributes and numbers of referenced nodes.", "quantifier": "every tree of any size and depth, every ctype isprint with isprint 0 and isprint 10 false, every floating point implementation", "why_tests_cant": "Unbounded trees; the writer looks back at the last character of its own output to decide on white space, and white space is significant for the lexer and the grammar.", "anchors": ["src/scm_save.c: mr_scm_save", "src/scm_save.c: scm_pre_print_node", "src/scm_save.c: scm_post_print_node", "src/scm_load.l", "src/scm_load.y"]}
{"id": "C67", "title": "An accepted SCM text is one numbered table", "statement": "Whatever text the SCM parser accepts, nodes are numbered from 1 with parents before their children, only nodes without members have a value or are NULL, all names are known, the nodes form one well-formed tree if no node with a reference attribute has members, and the text determines the result.", "quantifier": "every text, every set of known names", "why_tests_cant": "All texts, including adversarial ones; ambiguity of a grammar cannot be tested away.", "anchors": ["src/scm_load.l", "src/scm_load.y", "src/lexer.h"]}
{"id": "C68", "title": "XML1 documents come back", "statement": "Every numbered tree of nodes (references into the tree, names that are known identifiers, values with a representation, children only below structures, arrays and pointers that are not NULL) is printed by mr_xml1_save as a text without character 0 that the XML1 lexer and grammar accept; the parsed table has the same shape with every node at the index given by its public number, and the same names, texts of values, NULLs, reference attributes and numbers of referenced nodes.", "quantifier": "every tree of any size and depth, every ctype isprint with isprint 0 false, every buffer content", "why_tests_cant": "Unbounded trees and texts; the lexer takes the text after a tag as part of the tag's token, so that indentation, values and nesting interact.", "anchors": ["src/xml_save.c: mr_xml1_save", "src/xml_save.c: xml1_pre_print_node", "src/xml_save.c: xml1_post_print_node", "src/xml1_load.l", "src/xml1_load.y"]}
{"id": "C69", "title": "An accepted XML1 text is one numbered table", "statement": "Whatever text the XML1 parser accepts, nodes are numbered from 1 with parents before their children, every node has a name the library knows, no type and a text for its value, the nodes form one well-formed tree if no node with a reference attribute has others inside, and the text determines the result.", "quantifier": "every text, every set of known names", "why_tests_cant": "All texts, including adversarial ones; ambiguity of a grammar cannot be tested away.", "anchors": ["src/xml1_load.l", "src/xml1_load.y", "src/lexer.h"]}
{"id": "C70", "title": "The discriminator selects the member it means", "statement": "For any table of types whose discriminator flags are those of mr_type_is_union_discriminator, cyclic types included, mr_union_discriminator_by_type ends; it uses the value of the first scalar of the discriminator field (through arrays, pointers, first members of structures; NULL counts as no value), and returns the override for that value, else the member with that index or name (for enumerations the name in the meta text), else the first member; NULL only for a union without members, and only existing members.", "quantifier": "every table of types, memory, union with overrides, field descriptor and address", "why_tests_cant": "Termination over cyclic types and all combinations of pointer levels, arrays, nesting and overrides are unbounded.", "anchors": ["src/mr_save.c: mr_union_discriminator_by_type", "src/mr_save.c: mr_union_discriminator_by_idx", "src/mr_save.c: mr_union_discriminator_by_name", "src/mr_save.c: mr_ud_override_value"]}
{"id": "C71", "title": "Cached union members are those the final tree gives", "statement": "While mr_save adds nodes, resolves unions and moves matched nodes under new parents, every call of mr_union_discriminator ends, and the member it returned - found by search or in the cached records of any ancestor - is the member which the nearest node with the discriminator field gives in the tree at the end of saving. Records of (union, member) are never duplicated. NULL for too many records needs 256^sizeof(index type) distinct records. Moving siblings along with the matched node breaks the claim.", "quantifier": "every sequence of steps (nodes, unions, matches of nodes without siblings), every set of types, every set of cached records, every capacity of the small set", "why_tests_cant": "The cache, its two representations and the moves interact over arbitrarily long histories and deep trees; a stale record shows only for particular orders of saving.", "anchors": ["src/mr_save.c: mr_union_discriminator", "src/mr_save.c: mr_ud_find", "src/mr_save.c: mr_ud_add", "src/mr_save.c: mr_check_ud", "src/mr_save.c: resolve_matched", "src/mr_save.c: move_nodes_to_parent"]}
{"id": "C72", "title": "Saving ends", "statement": "mr_save comes to an end with a complete node table, without reading or writing outside it, for all data whose pointers and size fields can be read and whose pointers lead to finitely many addresses, whatever cycles the pointers form; the depth of the recursion has a bound that does not depend on the data but on the types and the extents of arrays.", "quantifier": "every table of types without structures that contain themselves, every memory, every root descriptor; pointers without size fields", "why_tests_cant": "Termination on arbitrary cyclic and shared graphs, with nodes that are moved between parents while the loop over the table runs, is not covered by running examples.", "anchors": ["src/mr_save.c: mr_save", "src/mr_save.c: mr_save_inner", "src/mr_save.c: mr_save_pointer_content", "src/mr_save.c: mr_post_process"]}
{"id": "C73", "title": "The tree validators accept exactly the valid trees", "statement": "mr_rbtree_is_valid (mr_avltree_is_valid) returns true exactly when the pool holds one binary search tree of all its nodes with strictly increasing keys, at most MR_PATH_SIZE levels and correct colours (balance marks); on any contents of the pool, cyclic or with links outside, it ends without reading outside the pool; every tree made by the public functions is accepted.", "quantifier": "all pools of nodes, comparators, allocation results and histories of operations", "why_tests_cant": "The set of damaged pools is infinite; tests feed the validator only correct trees.", "anchors": ["src/mr_btree.c:229-311", "src/mr_btree.c:460-507", "src/mr_btree.c:655-709"]}
{"id": "C74", "title": "mr_tree_next is a cursor in the sorted keys", "statement": "After mr_tree_find any sequence of calls of mr_tree_next with any directions visits the keys as a cursor in the sorted list would: from a key found to its neighbour, from a key not found to the neighbour of the gap where it would be, and off for good after either end; no access outside the pool or the path.", "quantifier": "all search trees of at most 62 levels, keys, directions and initial contents of the path", "why_tests_cant": "Tests call it in one direction only; changes of direction depend on the marks left in the path by earlier calls.", "anchors": ["src/mr_btree.c:86-113", "src/mr_btree.c:115-146"]}
{"id": "C75", "title": "Overrides without a type get the type of the nearest discriminators", "statement": "mr_udo_init ends without access outside its arrays for every graph of types, cyclic or not. It changes no override that has a type; an override without type gets the type T exactly when the discriminators nearest to its field, on all ways outwards through enclosing types, exist and have type T. The result does not depend on the order of the types when no array of overrides is shared. Registered types do not disturb each other (refuted: mr_ptr_t encloses every type).", "quantifier": "all collections of type descriptors, orders and arrays of overrides", "why_tests_cant": "Tests have one fixed set of types; cycles, several enclosing types and disagreement between them are unbounded in number.", "anchors": ["src/mr_udo_init.c:36-236", "src/metaresc.c:1212-1239", "src/metaresc.c:1959-1969"]}
{"id": "C76", "title": "Loading a tree that fits its type succeeds and stores every value in its place", "statement": "If the tree of values fits the type (every scalar is accepted by its handler, the values of a structure name different fields, an array gets no more values than it has elements, pointers lead to values of the pointed type) and every allocation succeeds, mr_load returns true. Afterwards every node has a place: the root at the start of the destination, members at the offset of their field, elements at their index, what a pointer leads to at the start of a block of its own. Scalars were stored at their place and not overwritten, texts can be read back with the final zero, null pointers are null, references lead to the place of the node they name or share its pointer.", "quantifier": "all type environments, trees, layouts and reference graphs", "why_tests_cant": "Tests load a handful of types; combinations of nesting, designators, postponed pointers and references in any order are unbounded.", "anchors": ["src/mr_load.c:134-186", "src/mr_load.c: mr_load, mr_load_struct, mr_load_array, mr_load_pointer_postponed, mr_load_string"]}
{"id": "C77", "title": "Saving to JSON and loading the text makes a copy of the data", "statement": "Data of types without unions that mr_save accepts is printed by the JSON writer as a text that the JSON parser accepts, and loading any parse of it with the same type into a large enough block succeeds when allocations do. The loaded memory is a copy: starting at the roots, members of structures and array elements in use are at their offsets inside allocated memory, pointers and strings that were NULL are NULL, every other typed pointer leads to the copy of what it led to with the same type (through cycles and references), a void pointer leads to the copy of something at its address or is NULL when nothing that was saved is there, texts have the same characters, and every scalar was stored from the node that was parsed from what was printed for it. Strings that shared their text share it in the copy, unless an array of characters in the copy is that text.", "quantifier": "all type descriptions, memories, pointer graphs (cyclic ones included) and texts within the stated conditions", "why_tests_cant": "Round trip tests use a few dozen data structures; the claim joins four stages over all pointer graphs, and depends on node numbering, references and postponed loading agreeing for every one of them.", "anchors": ["src/mr_save.c: mr_save", "src/json_save.c: mr_json_save", "src/json_load.y", "src/mr_load.c: mr_load"]}
{"id": "C78", "title": "Declarations of fields get the descriptors C means by them", "statement": "From the text of a field's declaration and what the compiler reports about it, mr_detect_type gives the descriptor that C means: a registered structure, union, enumeration or function type with any mix of qualifiers, tag keywords, blanks and stars becomes that type, a pointer to it, a pointer to a pointer to it or (three and more stars) a void pointer; one to four extents in brackets, or the compiler's word that it is an array, make it an array of that element type with these extents and the size of all elements together; basic types and pointers to them get the descriptor of the standard name of the type; a name that is not registered makes the field opaque, or a void pointer if the compiler says that it is a pointer. Sizes given by the compiler are kept; a basic type without one gets its size. (False for arrays of pointers to pointers, which get the descriptor of arrays of pointers.)", "quantifier": "all registries of types with different names, all declarations, all numbers of stars and extents", "why_tests_cant": "Tests contain a few hundred declarations in one spelling each; the claim is about every spelling, every registry and every number of stars and extents.", "anchors": ["src/metaresc.c: mr_detect_type", "src/metaresc.c: mr_detect_structured_type", "src/metaresc.c: mr_fd_detect_field_type", "src/metaresc.c: mr_type_is_an_array"]}
{"id": "C79", "title": "Validated field descriptors are consistent", "statement": "mr_validate_stype leaves a descriptor whose type, second type and type descriptor agree as it is, turns any other one into an opaque field (a pointer into a void pointer), changes nothing but the two types and finds nothing to do when it is repeated; after mr_validate_td all fields of a structure or union are consistent; whatever the declaration, what mr_detect_type leaves is consistent and mr_type_base is the type of the type descriptor; a field made opaque by hand keeps what it was as its second type.", "quantifier": "all registries, all descriptors, all declarations", "why_tests_cant": "Inconsistent descriptors come from declarations and registries that test suites do not have; the claim covers every combination of types and masks.", "anchors": ["src/metaresc.c: mr_validate_stype", "src/metaresc.c: mr_validate_td", "src/metaresc.c: mr_detect_type", "src/metaresc.c: mr_type_void_fields_impl"]}
{"id": "C80", "title": "YAML documents: what is saved is loaded", "statement": "For every tree of saved nodes the events mr_yaml_save gives to the emitter form a well-formed stream, and mr_yaml_load given these events builds a tree of the same shape without the void nodes: every node has the name (if it is a member of a mapping), the value, the NULL and reference flags of the node it comes from, and every reference number leads to exactly one loaded node, the copy of the node referred to, provided that this node got an anchor (it is marked as referenced, not NULL and not a reference itself) or there are no void nodes in the tree. (False without the proviso: void nodes are numbered but not written, so numbers after them are shifted.)", "quantifier": "all trees of nodes with up to 2^31-1 nodes, all names known to the string table, all values whose text libyaml accepts", "why_tests_cant": "Tests save a few structures per type; the claim covers all shapes of trees, all numbers and all places of references, NULL pointers and void nodes.", "anchors": ["src/yaml_save.c: mr_yaml_save", "src/yaml_save.c: yaml_print_node", "src/yaml_save.c: yaml_emit_field", "src/yaml_load.c: mr_yaml_load", "src/yaml_load.c: yaml_add_node"]}
{"id": "C81", "title": "YAML streams accepted by the loader", "statement": "Every well-formed event stream that mr_yaml_load accepts gives one tree whose nodes are numbered in the order of the events; names are those of scalar keys in the stream and known to the string table, values are those of scalars and are only at leaves that are no references, and nothing is dropped: the events that begin a node are as many as nodes and names together. Every document without anchors and aliases, whose keys are scalars known to the string table, is accepted.", "quantifier": "all well-formed event streams, all depths and lengths", "why_tests_cant": "Tests load documents written by the library itself and a few by hand; the claim is about every stream a YAML parser can deliver.", "anchors": ["src/yaml_load.c: mr_yaml_load", "src/yaml_load.c: yaml_add_node", "src/yaml_load.c: add_missed_crossrefs"]}
{"id": "C82", "title": "XML2 documents: what is saved is loaded", "statement": "For every numbered tree of nodes mr_xml2_save makes a libxml2 document with one element per node, nested as the nodes. From this document, and from any that differs only in the layout that a formatted print and a parser introduce, mr_xml2_load makes a tree of the same shape in which every node is at the index that is its public number, with the name, the text of the value, the NULL flag, the reference and the number that were saved. (False for texts with bytes above 127 that libc does not print, e.g. UTF-8 in the C locale: each byte is written as a character reference and comes back as two bytes.)", "quantifier": "all trees of nodes below 2^32 nodes, all values, all texts whose characters above 127 are printable, all layouts", "why_tests_cant": "Tests compare a few structures after a round trip in one locale; the claim covers all shapes of trees, all texts, all numbers up to 2^32 (printed with %d, hence negative from 2^31) and all layouts.", "anchors": ["src/xml_save.c: mr_xml2_save", "src/xml_save.c: xml2_save_node", "src/xml2_load.c: mr_xml2_load", "src/xml2_load.c: mr_load_xml_property"]}
{"id": "C83", "title": "XML2 documents accepted by the loader", "statement": "mr_xml2_load accepts a libxml2 document if and only if every element has a name known to the library, the properties ref_idx, ref and ref_content are numbers possibly followed by white space, and references have no elements inside. The nodes then form a tree with the shape of the elements, numbered in the order of the opening tags; each has the name of its element, as text the content of the first node inside that is not an element, and NULL, reference flags and numbers (modulo 2^32) according to the properties. (One would expect the text to be that of the text nodes; a comment in front of it is taken instead.)", "quantifier": "all libxml2 documents, any depth, any properties", "why_tests_cant": "Tests load documents the library wrote; the claim says what happens with every document, in particular which are rejected.", "anchors": ["src/xml2_load.c: mr_xml2_load", "src/xml2_load.c: mr_load_xml_property", "src/metaresc.c: mr_add_child"]}
{"id": "C84", "title": "Strings with a shared text are reordered by the traversal", "statement": "After mr_reorder_strings the tree of descriptors and its numbering are unchanged. Of the strings that share a text, the first in the traversal holds it and is no reference; every other one, and every pointer that was a content reference to the text, is a content reference to it. Each string reads the text it read before, and no other descriptor changes. (One would expect that the target of every reference also stays marked as referenced; this holds if no plain reference leads to a string that is the target of content references, otherwise not.)", "quantifier": "all tables with a numbered tree where content references of strings and pointers lead to strings that are no references; any number of strings and of texts", "why_tests_cant": "The function is called for few data structures in one test; the claim is about every order in which the strings with a text, their holder and pointers to it can occur in the tree.", "anchors": ["src/mr_save.c: mr_reorder_strings_visitor", "src/mr_save.c: mr_reorder_strings"]}
{"id": "C85", "title": "XDR stream on a resizable array", "statement": "Words and byte blocks written to an XDR stream on a resizable array are stored one after the other, words in network byte order; a write that fails for lack of memory changes neither the array nor the position. Reading at the position where a write began gives back its value. A read whose position is not behind the end of the data never leaves the data, succeeds if and only if there are enough bytes, and does not move the stream otherwise. (One would expect this for every position that xdr_setpos accepts, and that bytes returned by xdr_inline are consumed; both are false.)", "quantifier": "all sequences of writes and all outcomes of allocations up to 2^32 bytes; all streams and lengths", "why_tests_cant": "Tests serialise a few structures with successful allocations; the claim is about all sequences, every pattern of failing allocations and every position.", "anchors": ["src/xdr.c: xdrra_getlong", "src/xdr.c: xdrra_putlong", "src/xdr.c: xdrra_getbytes", "src/xdr.c: xdrra_putbytes", "src/xdr.c: xdrra_setpostn", "src/xdr.c: xdrra_inline", "src/metaresc.c: mr_rarray_append"]}
{"id": "C86", "title": "Names of functions and their cache", "statement": "As long as the dynamic linker's answers do not change, mr_serialize_func returns for every function the name that the linker gives to exactly this address and that it resolves back to it, and NULL if there is none; this holds with the cache switched on or off between calls and whatever allocations fail. With successful allocations the cache holds one entry per function asked for. (One would expect right names also after libraries are loaded or unloaded; that is false with the cache.)", "quantifier": "all dynamic linkers, all sequences of calls and all outcomes of allocations", "why_tests_cant": "Tests ask for a few functions once; the claim is about all histories of a process-wide cache.", "anchors": ["src/mr_stringify.c: mr_serialize_func", "src/mr_stringify.c: mr_fn_cmp", "src/mr_stringify.c: mr_fn_get_hash"]}
{"id": "C87", "title": "Locations of tokens and keywords of parsers", "statement": "For a text shorter than 2^31-1 bytes the location of every token is the line (counted from 1), the column (bytes since the last newline) and the offset of its first byte and of the byte behind it, and the location of a grammar rule is that of the bytes of its tokens, an empty one where the token before it ends. No counter overflows. A text is taken for a keyword if and only if it is the keyword, for texts shorter than 2^31. (For lengths that differ by 2^32 the last statement is false.)", "quantifier": "all texts and all ways to divide them into tokens; all keywords and texts", "why_tests_cant": "Tests look at messages about few malformed texts; the claim is about every text and every token.", "anchors": ["src/lexer.h: mr_calc_lloc", "src/lexer.h: mr_substrcmp", "src/lexer.h: YY_USER_ACTION", "src/lexer.h: YYLLOC_DEFAULT"]}
{"id": "C88", "title": "Messages of the library", "statement": "A message goes to the user's handler if there is one; otherwise it is printed if and only if its level is not below that of the configuration, with the name of its level and the text made from the meta data of its enumerator (a fixed text if the type is not known yet or the number is unknown); if the text cannot be made for lack of memory, this is printed with the number. No access leaves the tables, and this holds for every sequence of calls, the type becoming known at any time. (One would expect it for all numbers and levels; it is false for the number behind the last message and the level behind the last one, and a message with an empty text is reported as lack of memory.)", "quantifier": "all sequences of calls, all numbers and levels but two, all outcomes of allocation and formatting, all enumerations", "why_tests_cant": "Tests print few messages; the claim is about every number and level, of which exactly one each fails, and about every history of the static tables.", "anchors": ["src/mr_message.c: mr_message_format", "src/mr_message.c: mr_message", "src/mr_message.c: mr_vasprintf"]}
{"id": "C89", "title": "Descriptions of members from debug information", "statement": "For the debugging entries of any type made of built-in types, structures, unions, enumerations, functions behind pointers, arrays, pointers, const, volatile and typedefs, the descriptor of a member says what the type is made of from the outside (three levels; with more the type is unsupported, VOID), its printed name (outermost typedef, a star per pointer), its size, for a type with one array its dimensions (the fourth and later ones multiplied), and its place: the first bit and the width of a bit field in both encodings of DWARF. Members without a name get one from the type and their number. Entries keep names they have; the analysis terminates. (One would expect this also for arrays of arrays by typedef, for functions behind more than three levels, for restrict and atomic, for bit fields without a size of their own, that flexible array members have no elements, and that a structure is not named after a pointer to it; these are false.)", "quantifier": "all graphs of entries and all types of any depth they stand for, all members", "why_tests_cant": "Tests run the tool on a few programs; the claim is about every nesting of type constructors.", "anchors": ["src/mr_dwarf.c: get_mr_type", "src/mr_dwarf.c: push_mr_type", "src/mr_dwarf.c: get_base_mr_type", "src/mr_dwarf.c: get_array_mr_type", "src/mr_dwarf.c: get_type_name", "src/mr_dwarf.c: load_member"]}
{"id": "C90", "title": "Members found by MR_ADD_TYPE", "statement": "For every structure or union of 1 to 2^24 - 1 bytes, whatever its members and their nesting, MR_ADD_TYPE finds from the values passed by __builtin_dump_struct, for samples filled with patterns, exactly its members: name, type, kind and position of those that are no bit-fields in their order, then byte, shift and width of the bit-fields; members beyond the limit MR_PP_DEPTH are left out. Nested structures and unions must start with a member that is no bit-field. (One would expect this also for other nested structures, for larger structures and for compilers that take the lowest bit of a bool; these are false.)", "quantifier": "all sizes, all lists of members nested at any depth, all limits on the number of members", "why_tests_cant": "The positions are put together from several passes over the sample; the test has two structures of less than 256 bytes, one pass for each.", "anchors": ["src/metaresc.h: MR_ADD_TYPE", "src/metaresc.c: mr_dump_struct_type_add_field", "src/metaresc.c: mr_dump_struct_type_detection", "src/metaresc.c: mr_dump_struct_bitfield_detection"]}
{"id": "C91", "title": "Names are cut out and copied", "statement": "For every declarator made of other characters, an identifier and a rest, the name of a VOID field becomes that identifier, and no character but the one behind it is written; names of other fields stay. mr_strndup gives the first characters of a string and reads no more than it was told; mr_strdup copies strings of less than 2^31 - 1 characters. A structure is known by the name given by __builtin_dump_struct, with or without a keyword before it, alone or followed by a blank and more, in the format or behind %s, exactly if that name is registered. (One would expect this also for declarators without an identifier, for qualified ones and for longer strings; these are false.)", "quantifier": "all names, declarators, strings and sizes; all collections of names", "why_tests_cant": "The tests declare three or four forms of VOID fields; strings of 2^31 characters are not tried.", "anchors": ["src/metaresc.c: mr_normalize_field_name", "src/metaresc.c: mr_strndup", "src/metaresc.c: mr_strdup", "src/metaresc.c: mr_get_struct_type_name_extra"]}
{"id": "C92", "title": "Types of objects from debug information", "statement": "For every tree of debugging entries and every variable that MR_OBJ_TYPE_DWARF declares in a compilation unit, mr_ptr_detect_type finds, for the name of the unit and of the variable, exactly the name of the type that the object points to, or of the elements if the object is an array of any number of dimensions, if that type has a name and is not built in; it finds nothing for pointers to pointers, arrays of pointers, pointers to arrays, built-in or unnamed types, and nothing for other files and names. (One would expect a type to be found also behind const and volatile, and the type pointed to also behind the name of a pointer type; these are false.)", "quantifier": "all trees of entries of any depth, all types of any depth, all names of files and variables", "why_tests_cant": "The debug information of the tests is that of one compiler for a few dozen uses of the macro.", "anchors": ["src/mr_dwarf.c: walk_dies", "src/mr_dwarf.c: create_var", "src/mr_dwarf.c: extract_metadata", "src/metaresc.c: mr_ptr_detect_type", "src/metaresc.h: MR_OBJ_TYPE_DWARF"]}
{"id": "C93", "title": "Descriptors from debug information are completed", "statement": "For every list of debugging entries a type has a descriptor exactly if some entry that is not a declaration defines it as a structure, union, enumeration or pointer, possibly behind typedefs, and the first such entry counts. For every enumeration the enumerators are described in order with their values, and an object that holds the value of one is read as this value. Every member gets the strings name_size and name_discriminator exactly if its type needs them, in blocks that are large enough; arrays of any number of dimensions get the size of all their elements. (One would also expect tags and typedefs of the same name to be kept apart, negative values of signed enumerations to be read right always, large and nested arrays to have the right size and all members with unions to have a discriminator; these are false.)", "quantifier": "all lists of entries, all chains of typedefs, all enumerations of 1, 2, 4 and 8 bytes, all members, all dimensions", "why_tests_cant": "The tests use the debug information of one compiler for a fixed set of types.", "anchors": ["src/mr_dwarf.c: create_td", "src/mr_dwarf.c: load_enumerator", "src/mr_dwarf.c: load_member", "src/mr_dwarf.c: process_td"]}
{"id": "C94", "title": "Empty nodes are left out of printed types", "statement": "For every table of nodes that holds a tree, removing empty nodes before the types from debug information are printed ends, and leaves the tree in which, from the leaves upwards, structures and unions have lost exactly those children that are null strings or that have no children left, are no references and are of a type that may be left out; nothing but links to children and successors is changed. (One would expect references to stay valid; this is false.)", "quantifier": "all tables of nodes that hold a tree of any size and depth, all types and flags of nodes", "why_tests_cant": "The function runs in a tool on the types of one program; no test checks the shape of the tree it leaves.", "anchors": ["src/mr_dwarf.c: mr_remove_empty_node_visitor", "src/mr_save.c: mr_ptrs_dfs_impl"]}
{"id": "C95", "title": "Bit-fields in XDR streams", "statement": "A bit-field of any integer or enumeration type, width and place that is saved into an XDR stream and loaded into a bit-field of the same integer type, possibly of another width and place and in another object, transfers its bits, extended with the sign of signed types and with zeros otherwise; no other bit of the object changes, the load consumes exactly the bytes of the save, and the result does not depend on the uninitialised variable of the loader. Loading fails exactly when the stream ends within the value.", "quantifier": "all memories, places and widths of the fields up to the width of the type, all integer types, all surrounding streams, all contents of the uninitialised variable", "why_tests_cant": "The tests save and load a few fields of fixed widths, with whatever the stack held.", "anchors": ["src/xdr.c: xdr_save_bitfield", "src/xdr.c: xdr_load_bitfield", "src/xdr.c: xdr_bitfield_value", "src/xdr.c: _xdr_enum", "src/metaresc.c: mr_save_bitfield_value", "src/metaresc.c: mr_load_bitfield_value"]}
{"id": "C96", "title": "Arrays of basic types are sorted", "statement": "For every array of integers, boolean values, floating point numbers, strings, char arrays or functions, MR_GENERIC_SORT succeeds and rearranges the elements in ascending order of their values: numbers by size with infinities beyond all numbers, null strings first, texts alphabetically by bytes. Types without an order are refused. (One would expect floating point arrays in general to be sorted; with values that are not numbers this is false.)", "quantifier": "all arrays of any length, all values of the 19 types that have an order, all texts", "why_tests_cant": "The tests sort one array of four floating point numbers and one of five char arrays; the formats have up to 2^80 values and no test has values that are not numbers.", "anchors": ["src/mr_ic.c: mr_basic_types_sort", "src/mr_ic.c: mr_type_compar_fn", "src/mr_ic.c: MR_TYPE_CMP_FUNC", "src/mr_hsort.c: mr_hsort"]}
{"id": "C97", "title": "Assignment between integers of any types", "statement": "mr_assign_int copies the value of one integer to another whatever their types: integers of 8 to 128 bits, boolean values, enumerations, bit-fields, fields of type void and pointers to integers. If the type of the destination can represent the value it holds exactly this value afterwards, otherwise the value modulo a power of two (a boolean: whether it is not zero); no other bit of the memory changes, and nothing changes if a pointer is null. (One would expect a bit-field turned into a void field, as for size fields that are not to be saved, to be assigned as a bit-field; this is false.)", "quantifier": "all memories, addresses, pairs of types, bit-field positions and widths, and values", "why_tests_cant": "There are more than a dozen types on either side and every bit-field position; the tests use size fields of a few types with small positive values.", "anchors": ["src/mr_save.c: mr_assign_int", "src/mr_load.c: mr_pointer_set_size", "src/metaresc.c: mr_type_void_fields_impl"]}
{"id": "C98", "title": "Values of loaded nodes are released exactly once", "statement": "mr_free_load_values releases the strings and complex numbers that a parser attached to the nodes, and the nodes themselves: it is free of double releases and uses after a release exactly if every such block is allocated and has one owner; afterwards exactly these blocks are gone, all other blocks are still allocated, and the table is empty, so that a second call does nothing.", "quantifier": "all heaps, tables of any number of nodes, value types and addresses", "why_tests_cant": "A double release or a leak is not visible in the result of a test without a checking allocator, and which node has which kind of value depends on the document.", "anchors": ["src/mr_load.c: mr_free_load_values"]}
{"id": "C99", "title": "MR_PRINT of integers and enumerations", "statement": "mr_print_value writes every integer of 8 to 128 bits in decimal notation, with a sign for negative numbers and without superfluous characters; a value of an enumeration that has an enumerator with this value is written as the name of such an enumerator; boolean values are written as true and false. (For the smallest number of 128 bits the code has an overflow; with compilers that wrap it is printed as well.)", "quantifier": "all integer types, all numbers, all enumerations with any number of enumerators", "why_tests_cant": "The tests print a few values per type; 128 bit numbers have up to 39 digits and fill the local buffer exactly.", "anchors": ["src/mr_print.c: mr_print_value", "src/mr_stringify.c: mr_uintmaxtostr", "src/metaresc.c: mr_get_enum_by_value"]}
{"id": "C100", "title": "Size fields of loaded pointers", "statement": "After a pointer with a size field is loaded, mr_pointer_set_size stores the size of its content in the field of the innermost structure around the pointer, found by offset or by name, whatever integer type the field has (also a bit-field, an enumeration, or a void field); the field holds the size if its type can represent it, otherwise the size modulo a power of two, and no other bit of the memory changes. Without such a field nothing changes.", "quantifier": "all memories, tables of nodes of any depth, structures, types of size fields, and sizes", "why_tests_cant": "The pointer may be nested at any depth below the structure and the size field may be of any integer type at any place; the tests have a few combinations.", "anchors": ["src/mr_load.c: mr_pointer_set_size", "src/mr_save.c: mr_pointer_get_size_ptrdes", "src/mr_save.c: mr_assign_int"]}
