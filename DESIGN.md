# Design of the Metaresc model

Source: /repo (alexanderchuranov/Metaresc, C). Prover: Rocq/Coq 8.16.1 with std++, files in rocq/theories.

## Method

* Each C function becomes one total Gallina function with the same control flow. Memory reads and writes that
  could leave the object go through a checked accessor: an out-of-bounds access, a shift by an illegal amount or
  exhausted fuel is a distinct result (`None`), and theorems state that it never occurs, or name the precondition.
* Comments above each definition cite file and lines of /repo and name simplifications.
* Specifications are written separately from the model (lists, sets, relations on bits, positions).
* Property theorems live in files `P_*.v` holding statements, short proofs, `Print Assumptions` and examples
  showing that hypotheses are met.
* Where the code violates a property, the theorem is called `*_refuted` and carries the witness.
* Allocation is an oracle wherever the code reacts to its failure (collections, resizable arrays, deep copy);
  elsewhere it succeeds, and the comment at the definition says so.

## Files per property

Model files hold the definitions, `*Spec` the vocabulary of statements, `*Proof` (and the files named beside it)
the lemmas, `P_*` the theorems.

| Properties | Code | Model | Proofs | Theorems |
|---|---|---|---|---|
| C01, C02 heap sort | mr_hsort.c | HSort | HSortProof | P_Sort |
| C03, C04, C05, C08 array collections | mr_ic.c:116-433, 701-845 | ICArrays | ICArraysProof | P_Arrays |
| C06, C07 hash collection | mr_ic.c:435-699 | Hash | HashProof | P_Hash |
| C09 interchangeable kinds | mr_ic.h | Interchange | | P_Interchange |
| C10-C14 red-black and AVL trees | mr_btree.c, mr_ic.c:847-1026 | BTree | BTreeRep, BTreeRB, BTreeAVL, BTreeProof, BTreeInst | P_Trees |
| C15-C17 bit-fields | metaresc.c:501-565, 1139-1183 | Bitfield | BitfieldProof | P_Bitfield |
| C18, C19 integers as text | mr_stringify.c:56-90, metaresc.c:2030-2082 | NumStr | NumStrProof | P_NumStr |
| C20-C22, C25, C51 literals | mr_stringify.c, json/cinit/scm savers, lexer rules, unquote functions | Quote | QuoteProof | P_Quote |
| C23, C24 XML text | xml_save.c, xml1_load.l/.y | XmlQuote | XmlQuoteProof | P_XmlQuote |
| C26, C27, C50, C52 node table | metaresc.c:614-666, mr_save.c:1239-1379 | Ptrs | ChildrenProof, DfsProof, PruneProof | P_Ptrs |
| C28-C30, C53, C54 XDR | xdr.c | Xdr | XdrProof | P_Xdr |
| C31 expressions | mr_value.c, cinit_load.y | Value | ValueProof | P_Value |
| C32 enumerations | metaresc.c:945-1122, mr_stringify.c | Enum | EnumProof | P_Enum |
| C33 saving arrays | mr_save.c:1172-1230, metaresc.c:1259-1290 | ArrayGeom | ArrayGeomProof | P_ArrayGeom |
| C34, C35, C43, C49, C57, C58, C76 loading | mr_load.c | Load, LoadSpec, LoadFits | LoadSafe, LoadInv, LoadInv2, LoadPlace, LoadRun, LoadRefs, LoadTop, LoadText, LoadOk, LoadOk2 | P_Load, P_LoadFits |
| C36, C55 resizable arrays, text output | metaresc.c:573-599, mr_stringify.c:337-379, mr_message.c | RArray | RArrayProof | P_RArray |
| C37 names | mr_extra.c:198-228, metaresc.c:668-755 | HashStr | HashStrProof | P_HashStr |
| C38 document reader | metaresc.c:2089-2168 | ReadXml | ReadXmlProof | P_ReadXml |
| C39 type names | metaresc.c:73-90, 1241-1257, 1297-1354 | TypeName | TypeNameProof | P_TypeName |
| C40, C56 list of types | metaresc.c:1721-1731, 1883-1911, 1943-1957 | TdList | TdListProof | P_TdList |
| C41 initialisation | metaresc.c:1913-1979 | ConfInit | ConfInitProof | P_ConfInit |
| C42 union discriminators | metaresc.c:1864-1881 | UnionDisc | UnionDiscProof | P_UnionDisc |
| C44 field by offset | metaresc.c:763-801, mr_save.c:933-952 | FdOffset | FdOffsetProof | P_FdOffset |
| C45, C46 deep copy and release | mr_extra.c:8-196 | CopyFree, CopyFreeSpec | TreeFacts, CopyMem, FreeProof, CopyDup, CopyTop | P_CopyFree |
| C47 comparison and hash | mr_extra.c:230-513 | CmpHash, CmpHashSpec | CmpHashProof, CmpHashTree | P_CmpHash |
| C59-C61 saving | mr_save.c:456-828, 954-1230, 1386-1612 | Save, SaveSpec | SaveForest, SaveInv, SaveSteps, SaveRun, SaveTop, SavePost, SaveTree, SaveDone | P_Save |
| C72 saving ends | mr_save.c:456-828, 954-1230, 1386-1612 | Save, SaveTotalSpec | SaveTotal, SaveSize, SaveEnds | P_SaveTotal |
| C62, C63 JSON documents | json_save.c:20-309, json_load.l, json_load.y, lexer.h:85-104 | Parse, Json, JsonSpec | ParseProof, JsonParse, LexProof, JsonLex, JsonSave, JsonProof | P_Json |
| C64, C65 CINIT documents | cinit_save.c:20-293, cinit_load.l, cinit_load.y, lexer.h:85-104 | Parse, Cinit, CinitSpec | ParseProof, LexProof, CinitParse, CinitLex, CinitSave, CinitProof | P_Cinit |
| C66, C67 SCM documents | scm_save.c:13-383, scm_load.l, scm_load.y, lexer.h:85-104 | Parse, Scm, ScmSpec | ParseProof, LexProof, ScmParse, ScmLex, ScmSave, ScmProof | P_Scm |
| C68, C69 XML1 documents | xml_save.c:16-372, xml1_load.l, xml1_load.y, lexer.h:85-104 | Parse, XmlQuote, Xml, XmlSpec | ParseProof, LexProof, XmlParse, XmlLex, XmlSave, XmlProof | P_Xml |
| C70 members chosen by discriminators | mr_save.c:14-196 | UnionSel, UnionSelSpec | UnionSelProof | P_UnionSel |
| C71 search for discriminators, cached members | mr_save.c:198-447, 548-589, 610-636, 775-828 | UnionRes, UnionResSpec | UnionResProof | P_UnionRes |
| C73, C74 validators and cursor of trees | mr_btree.c:86-113, 229-311, 460-507, 655-709 | BTreeMore | BTreeValid, BTreeNext | P_TreeMore |
| C75 types of discriminator overrides | mr_udo_init.c, metaresc.c:1212-1239, 1959-1969 | Udo, UdoSpec | UdoProof | P_Udo |
| C77 copies made through JSON | mr_save.c, json_save.c, json_load.y, mr_load.c joined | Copy, CopySpec | CopyTree, CopyPrint, CopyLoad, JsonCopyTop | P_Copy |
| C78, C79 descriptors of fields | metaresc.c:1185-1204, 1241-1290, 1356-1470, 1690-1703, 1751-1862, 1987-1997 | TypeName, ArrayGeom, Detect | DetectProof | P_Detect, P_Validate |
| C48 anonymous unions | metaresc.c:851-938, 1587-1602 | AnonUnion | AnonUnionProof | P_AnonUnion |
| C80, C81 YAML documents | yaml_save.c:33-498, yaml_load.c:4-226 | Parse, Yaml, YamlSpec | ParseProof, YamlParse, YamlMissed, YamlSave, YamlProof, YamlExplain | P_Yaml |
| C82, C83 XML2 documents | xml_save.c:376-486, xml2_load.c:7-95, metaresc.h:1227-1252 | Ptrs, Xml, Xml2, Xml2Spec | NumUnique, Xml2Link, Xml2Parse, Xml2Explain, Xml2Save, Xml2Proof | P_Xml2 |
| C84 reordering of strings | mr_save.c:1272-1317 | Ptrs, Reorder | DfsSkel, ReorderProof | P_Reorder |
| C85 XDR stream | xdr.c:26-235 | RArray, Xdr, XdrStream | RArrayProof, XdrProof | P_XdrStream |
| C86 names of functions | mr_stringify.c:245-335 | FuncName | - | P_FuncName |
| C87 locations, keywords | lexer.h:10-79 | Lloc | - | P_Lloc |
| C88 messages | mr_message.c:11-136 | Message | - | P_Message |
| C89 members from debug information | mr_dwarf.c:612-976 | Dwarf | - | P_Dwarf |
| C90 members found by MR_ADD_TYPE | metaresc.c:164-421, metaresc.h:829-912 | DumpStruct | DumpStructProof | P_DumpStruct |
| C91 names cut out and copied | metaresc.c:92-126, 469-499, 1563-1579 | Names (and TypeName) | P_Names | P_Names |
| C92 types of objects from debug information | mr_dwarf.c:623-661, 1102-1181, 1231-1272, metaresc.c:1999-2028, metaresc.h:1036-1042 | DwarfVar (and Dwarf) | P_DwarfVar | P_DwarfVar |
| C93 descriptors from debug information are completed | mr_dwarf.c:879-905, 978-1032, 1082-1099, 1231-1362 | DwarfType (and Dwarf, Enum, Names) | P_DwarfType | P_DwarfType |
| C94 empty nodes are left out of printed types | mr_dwarf.c:1364-1387, mr_save.c:1239-1270 | DwarfPrune (and Ptrs) | DfsProof, PruneProof | P_DwarfPrune |
| C95 bit-fields in XDR streams | xdr.c:762-864, metaresc.c:507-565 | XdrBits (and Bitfield, Xdr) | BitfieldProof, XdrProof | P_XdrBits |
| C96 arrays of basic types are sorted | mr_ic.c:26-114, mr_hsort.c | BasicSort (and HSort, CmpHash) | HSortProof, CmpHashProof | P_BasicSort |
| C97 assignment between integers | mr_save.c:830-931, metaresc.c:1692-1702 | AssignInt (and Bitfield, CmpHash) | BitfieldProof, CmpHashProof | P_AssignInt |
| C98 values of loaded nodes are released exactly once | mr_load.c:107-132 | LoadValues | (in P_LoadValues) | P_LoadValues |
| C99 MR_PRINT of integers and enumerations | mr_print.c:89-186 (not floating point, strings, pointers) | Print (and NumStr, Enum) | NumStrProof, EnumProof | P_Print |
| C100 size fields of loaded pointers | mr_load.c:677-689, mr_save.c:954-1003 | SizeField (and AssignInt) | P_AssignInt | P_SizeField |

Base.v holds checked access, Spec.v the abstract first-wins set and the laws of comparators, FwFacts.v lemmas
about them, Examples.v comparators used in examples.

## Trusted base

* Coq's kernel. `Print Assumptions` beneath every property theorem answers "Closed under the global context":
  no axiom is used, neither own nor of a library.
* The reading of the C source: theorems are about the model, the code was not executed.
* Data model: LP64, 8-bit signed `char`, two's complement, little endian, 128-bit `mr_uintmax_t`, x86 floating
  point formats. Signed overflow is undefined where a theorem says so; conversions to narrower integers wrap.
* C library as specified by ISO C in the "C" locale: ctype (an arbitrary `isprint` in the quoting theorems),
  `strtol`-like scanning, the `sscanf` and `printf` conversions that occur, `vsnprintf`; `printf` of integers up
  to 64 bits is trusted. `qsort`/`bsearch` are not used by the modelled code.
* The XDR library (libtirpc): `xdr_int`, `xdr_opaque` and so on as in RFC 4506.
* libyaml: the parser delivers for the emitter's text the events that were emitted, tags and styles aside (Yaml.v
  begins and ends at events); which scalars the emitter takes is the oracle `utf8`, assumed in C80 to accept ASCII;
  the parser delivers well-formed streams (`wf_stream`, YamlSpec.v) in C81. Names known to the string table are the
  oracle `known`.
* libxml2: the functions that build and inspect a document are in Xml2.v as documented (xmlNodeSetContent replaces
  entities and character references, xmlSetProp, xmlGetProp, xmlAddChild). Printing a document with
  xmlDocDumpFormatMemory and parsing the text is trusted to give a document related to it by `formatted`
  (Xml2Spec.v). This holds for texts of characters XML 1.0 allows; a document with control characters is
  printed, but the parser rejects the text.
* The dynamic linker (`dladdr`, `dlsym`) is an arbitrary pair of functions in FuncName.v, the same for all calls in C86.
  The cache's collection is a list by C06, and inserting finds an equal key before it allocates.
* Flex matches token after token from the start of its buffer and gives their ends as `yy_bp` and `yy_cp` (Lloc.v).
* Clang's __builtin_dump_struct: the calls it makes for a structure are `dump` in DumpStruct.v (members with the bytes they hold,
  converted as for variadic arguments; arrays by address; nested structures indented by two more spaces). How a bool is
  read is the oracle `ldb`; a float converted to double and back is the same float, and the double ends in two zero bytes.
* Memory is sequentially consistent in ConfInit.v; the relaxed atomics of the code are outside the model.

### What is not modelled

* What parsers produce is an arbitrary tree in Load.v. For JSON, CINIT, SCM and XML1 the rules of the lexer (longest
  match, first rule) and the grammar with its actions are in Json.v, Cinit.v, Scm.v and Xml.v; that
  flex and bison generate programs for exactly these rules is trusted. Texts of floating point numbers and names are
  parameters, with the forms they may have in JsonSpec.v, CinitSpec.v, ScmSpec.v and XmlSpec.v; complex numbers are printed by Json.v and Scm.v only, pointers
  to functions without a name not by Cinit.v; the extra empty string before named anonymous unions
  (cinit_save.c:127-133) is left out of Cinit.v.
* libxml2 and libyaml themselves, libdwarf and the rest of mr_dwarf.c (reading entries, tables of types,
  printing them; the table of built-in types is the parameter `sign` of Dwarf.v), the preprocessor macros of
  metaresc.h except the constructor of MR_ADD_TYPE. In Message.v the backtrace and threads that fill the table of messages at the same time.
* In Save.v memory is an arbitrary function (`world`): what a pointer at an address holds, the value of a size field
  (mr_assign_int is in AssignInt.v, the search of the field in SizeField.v) and the union member in use, which depends on the address and the type of the
  union (the choice by the value of a discriminator is in UnionSel.v). Collections are abstract by C06; allocation
  succeeds. mr_reorder_strings (Reorder.v) starts from any table with the record `saved` of P_Reorder.v, which is
  not derived from Save.v. The theorems C59-C61 are for type
  descriptions without size fields on pointers, opaque pointers and pointers to arrays; with size fields they are
  false, see Findings. CopyFree.v and CmpHash.v take any table of nodes; the hypothesis `described` of
  CopyFreeSpec.v says what they need from mr_save.
* Copy.v joins Save.v, Json.v and Load.v. The names of fields, the text at an address, what is printed for a scalar
  at an address and whether the loader's handler accepts it are parameters (`names`, `cstr`, `shown`, `leaf`), with
  the conditions `printable` and `readable` of CopySpec.v: C77 tells which printed value is stored where, not that a
  number is read as the number that was printed (C18, C19, C22, C32 are about that). Unions are left out of C77, the
  loading of MR_TYPE_NONE of Copy.v. C77 says that shared texts stay shared; that
  two pointers to one object lead to one object again holds for objects saved once (C61; not for a member whose
  container is reached later, `C61_container_refuted`) and is not part of C77.
* In Detect.v the hash table of types is a list searched by name and the cached lookup (type_tdp) a pure function;
  mr_type_ptr and the name set at metaresc.c:1994 are left out. What the compiler or DWARF reports about a field
  (type, second type, class, size) is the input.
* Floating point arithmetic, printing and parsing (parameters in Value.v, bit patterns in Xdr.v and CmpHash.v).
* mr_pointer_set_size (size fields) in Xdr.v and Load.v; it is in SizeField.v, on its own. Floating point numbers, strings
  and pointers in Print.v. mr_cleanup, mr_init_func, mr_detect_struct_fields as a whole (its steps are modelled). Zero-size members at the end of an area in CopyFree.v.
* hsort of more than 2^31 elements; conversion of string lengths to `int` in mr_ra_append_string.

## Findings

Each line names the theorem that shows the defect in the model (witness included), or says that it was seen while
reading and is not modelled.

### Collections
* Hash: bulk indexing breaks the set when another key is equal to the zero key — `C06_hash_index_zero_key_refuted`.
* Hash: `items_count` is wrong after a failed growth and after indexing repeated zero keys —
  `C07_hash_counter_oom_refuted`, `C07_hash_counter_index_refuted`. The table size `items << 2` wraps at 2^30 items.
* Trees: `items_count` becomes UINT_MAX after deletion from an empty tree and is stale after indexing an empty
  array — `C12_counter_empty_refuted`, `C12_counter_index_empty_refuted`.

### Values and text
* A bit-field of width 0 shifts by -1 — `C15_width_zero_undefined`.
* Printing the smallest int128 overflows — `C18_int128_min_refuted`.
* mr_strtouintmax with base 8 consumes a sign in front of 8 or 9 — `C19_base8_refuted`; "0x" is consumed as 0.
* CINIT strings: an octal escape swallows digits that follow it — `C21_cinit_string_refuted`.
* XML: `&#x41,;` makes xml_unquote_string loop, a long escape overruns `esc` — `C24_*_refuted`.
* CINIT expressions ignore the status of mr_value_*: division by zero is not reported —
  `C31_zero_divisor_refuted`; -2^127 overflows — `C31_smallest_refuted`; literals of 2^127 and more become negative.
  Empty text and "|||" load as 0. `|`, `&`, `^` share one precedence level (cinit_load.y:96). Enumerators named
  `I`, `inf`, `nan` are scanned as numbers. (Last three seen while reading.)
* Enumerations: `2LL << 63` for 8-byte enumerations is undefined — `C32_init_8_refuted`. mr_get_enum fails for
  128-bit types; the remainder of a 128-bit bitmask is read beyond a local variable (mr_stringify.c:198, 213);
  both seen while reading.
* mr_rarray doubling overflows at 2^62, the sum of sizes wraps — `C36_*_refuted`.
* The document reader counts comments and DOCTYPE as unclosed tags, its buffer size overflows `int` at 2^30 —
  `C38_comment_refuted`, `C38_int_overflow_refuted`.
* mr_normalize_type is not idempotent with line feeds, mr_type_is_a_pointer reads before "*" —
  `C39_idempotent_refuted`, `C39_star_only_refuted`. "char*const*" and "char**" normalise differently.
* JSON: "-0" is read as the integer 0, the sign of a negative zero is lost — `C62_negative_zero_refuted`. A node of
  type MR_TYPE_NONE is printed as nothing, the text is no document — `C62_none_type_refuted`.
* CINIT: fields named i, I, nan, inf, NULL, true and so on are printed but cannot be read —
  `C64_reserved_name_refuted`. A pointer to pointers without type descriptor is printed with the cast `(void**[])`,
  which the lexer rejects — `C64_untyped_pointer_refuted`. "-0" is read as 0 — `C64_negative_zero_refuted`. A node
  with a reference attribute loses its members — `C65_reference_with_members_refuted`.
* SCM: fields named t, nil, nan or inf are printed but cannot be read — `C66_reserved_name_refuted`. A named void node
  and a pointer that is not NULL but has no children are printed as `(name . )`, a syntax error —
  `C66_nothing_printed_refuted`. "-0" is read as 0 — `C66_negative_zero_refuted`. The pattern for octal numbers
  `[[0-7]]+` never matches one — `C67_octal_number_refuted`. A node with a reference attribute loses its members —
  `C67_reference_with_members_refuted`.
* XML1: properties are applied before nested tags are read and a reference is kept in first_child. In
  `<a ref="100"><b/></a>` mr_add_child then reads element 100 of a table of two nodes (out of bounds) —
  `C69_reference_with_members_refuted`; with a number in range the nested node becomes a sibling of the target, the
  table is no tree — `C69_reference_chain_refuted`. `isnull="false"` makes a node NULL — `C69_isnull_false_refuted`.
* YAML: void nodes are not written (yaml_save.c:145-148) but have numbers, and only referenced nodes that are neither
  NULL nor references get an anchor; behind a void node a reference to a NULL pointer or to another reference is
  read as a reference to a different node — `C80_void_shifts_numbers_refuted`. References to void nodes are lost.
  Seen while reading: an anchor with number 2^32-1 makes the table of numbers empty and is then written out of
  bounds, numbers from 2^31 are negative as `int` (yaml_load.c:15, 25); a mapping key that is itself a mapping or a
  sequence is taken as an unnamed node.
* XML2: bytes above 127 which libc does not print (all in the C locale) are written as character references `&#xNN;`;
  xmlNodeSetContent makes a Unicode character of each, two bytes in UTF-8, so UTF-8 texts do not survive —
  `C82_non_ascii_refuted`. The value of an element is the content of its first node that is not an element
  (xml2_load.c:56-57), so a comment before the text is taken for the value — `C83_comment_refuted`. An empty `ref=""`
  is accepted as number 0, `isnull="false"` makes a node NULL.
* Complex printing loses the sign of -0.0; mr_normalize_field_name runs past the end of a name without
  alphanumeric characters (metaresc.c:1573). Seen while reading.
* mr_message.c compares with `<=` (67, 102): the number MR_MESSAGE_LAST + 1 and the level MR_LL_OFF + 1 read behind their
  tables — `C88_last_refuted`, `C88_level_refuted`. A message whose text is empty is reported as lack of memory (26) —
  `C88_empty_refuted`.
* The cache of mr_serialize_func keeps a name after the linker's answer changed, also a pointer to the name in an
  unloaded library — `C86_unloaded_refuted`.
* mr_substrcmp (lexer.h:34-40) cuts the difference of lengths to 32 bits, so a text 4 GiB longer than a keyword is taken
  for it — `C87_keywords_refuted`.

### Tables of nodes and types
* mr_add_child may drop children when an ancestor of the last added node gets a child —
  `C26_last_child_cache_refuted`.
* mr_ptrs_dfs_impl started at a leaf leaves its subtree — `C27_dfs_leaf_refuted`.
* The comparator that sorts fields by offset is cyclic — `C44_sorting_comparator_cycle_refuted` (lookup is right).
* mr_add_type of the last type of the list makes the list cyclic — `C56_add_last_again_refuted`. mr_sort_td drops
  descriptors with an unknown producer.
* Arrays of pointers to pointers get the descriptor of arrays of pointers (metaresc.c:1432 overwrites mr_type_aux), so
  that saving takes what the elements point to for structures (mr_save.c:1192-1193) —
  `C78_array_of_pointers_refuted`.
* Arrays with different extents are not saved in row-major order — `C33_row_major_refuted` (mr_save.c:1219).
* The buffers for names of anonymous unions (metaresc.h:752, 758) may overflow for field indexes of 1000 and more;
  resolve_matched tests a pointer instead of its target (mr_save.c:807). Seen while reading.
* mr_dwarf.c: an array of arrays by a typedef, or of pointers to arrays, gets the dimensions of the innermost one (786) —
  `C89_nested_arrays_refuted`. A structure without a name behind a typedef of a pointer gets the name of the pointer type
  (671) — `C89_pointer_name_refuted`. Members whose type is `restrict` or atomic, or a function behind more than three levels
  whose third is no pointer, stop the program by an assertion (804, 844) — `C89_qualifier_refuted`, `C89_function_refuted`. A bit
  field with DW_AT_bit_offset but without DW_AT_byte_size, for which DWARF means the size of its type, gets a wrong place
  (969) — `C89_bit_offset_refuted`. Flexible array members get the dimension 1
  (771) — `C89_flexible_refuted`.
* MR_ADD_TYPE: a nested structure that starts with a bit-field is given the position of its first other member
  (metaresc.c:271-277) — `C90_leading_bitfield_refuted`; one of bit-fields only is not found —
  `C90_only_bitfields_refuted`. From 2^24 bytes on `1 << 32` is evaluated (metaresc.h:859) — `C90_large_refuted`. The sample holds
  bytes other than 0 and 1 in members of type bool; where the compiler uses their lowest bit the positions are wrong —
  `C90_bool_refuted`.
* The search for the identifier in the declarator of a VOID field does not stop at the NUL (metaresc.c:1573): without one it
  leaves the name — `C91_no_identifier_refuted` — or takes what follows it — `C91_neighbour_refuted`. `* const p` is named
  `const` — `C91_qualifier_refuted`. mr_strdup keeps the size in an int (metaresc.c:490): strings of 2^31 - 1 characters and more
  are not copied — `C91_strdup_fails_refuted` — or copied without a NUL — `C91_strdup_long_refuted`.
* Types of objects from debug information: nothing is found for a pointer to a qualified type, since the loop of create_var
  stops at the qualifier, which has no name (mr_dwarf.c:1145-1155) — `C92_qualified_refuted`; for a pointer whose type is a
  typedef the name of the pointer type is found instead of the type it points to — `C92_typedef_pointer_refuted`. Variables are
  known by the name of the compilation unit (mr_dwarf.c:651) but looked up by `__FILE__` (metaresc.h:1041), so that uses in
  headers find nothing (last part of `C92_object_type`).
* Descriptors from debug information: a structure and a typedef of another type with the same name, which C keeps apart, share
  one descriptor (`C93_namespaces_refuted`); a signed enumeration all of whose enumerators are given without DW_FORM_sdata is
  taken for unsigned, so that its negative values are read as large ones (`C93_negative_refuted`); sizes of arrays are kept in
  32 bits, and an array whose elements are arrays by a typedef gets the size of one element (`C93_size_refuted`); arrays of and
  pointers to unions without a name get no discriminator (`C93_discriminator_refuted`).
* Printing types from debug information: an empty node is left out even if a reference to it remains, unlike in mr_save.c, which
  looks at MR_IS_REFERENCED (mr_dwarf.c:1377) — `C94_reference_refuted`.
* MR_GENERIC_SORT: a floating point value that is not a number compares equal to all numbers (mr_ic.c:59, unlike
  mr_extra.c:425-432), so the comparison is not transitive; 1, 2, NaN becomes 2, NaN, 1 — `C96_nan_refuted`. A char array
  without terminating zero is read beyond its end (mr_ic.c:81; last line of `C96_case`).
* mr_assign_int: a bit-field turned into a void field (metaresc.c:1695-1702 keeps its integer type) is read and written as
  a whole integer at the byte of the field (mr_save.c:850-853, 891-894), with the bits of its neighbours —
  `C97_void_bitfield_refuted`.
* mr_print_value: the smallest 128 bit number overflows in `~value + 1` (mr_print.c:171), as in mr_stringify.c:76 —
  `C99_min_refuted`.

### Saving
* Pointers with a size field: elements already saved elsewhere are moved below the pointer without a test that the
  pointer is not below them; a node becomes its own ancestor and the data is lost —
  `C59_sized_pointer_cycle_refuted` (mr_save.c:717-722; line 818 has such a test).
* Appending elements to a pointer's content drops elements because of the cached last child —
  `C59_sized_pointer_cut_refuted` (mr_save.c:732-736).
* An object whose container is reached later is saved twice — `C61_container_refuted`. What two pointers to a
  pointer share is saved twice — `C61_pointer_to_pointer_refuted` (mr_save.c:493-496).
* A non-empty array of empty structures makes mr_save fail — `C60_empty_elements_refuted` (mr_save.c:1183-1184).
* Seen while reading: the size of a char array depends on the order in which strings are met (1445-1451); elements
  of an array of pointers inherit the size field of the array; a NULL size field pointer leaves `size`
  uninitialised in mr_save_array (1200-1204).

* Discriminators of unions: an index is cut to int before it is checked, so that 2^32 + 1 selects member 1 —
  `C70_index_out_of_range_refuted` (mr_save.c:15-19); overrides are compared modulo 2^64 —
  `C70_wide_override_refuted`; signed bit-fields are read without sign, negative overrides and enumerators never
  match — `C70_signed_bitfield_refuted` (mr_save.c:103). MR_TYPE_CHAR discriminators always give the first member.
- Cached members of unions: when a node matched has siblings, move_nodes_to_parent (mr_save.c:622-634) moves them all,
  but only the records of the matched node are checked against the new parent (791-792): a union below a sibling keeps a
  member which its new context does not give — `C71_moved_siblings_refuted`. The limit of records is checked before the
  cache (381), so at the limit unions already resolved fail too, and mr_save_union then writes the union without content
  and reports success (1163-1165) — `C71_too_many_refuted`. C71 leaves out allocation failures and the change of the
  descriptors of moved nodes (625); that `choose` returns a member is C70.
* Types of discriminator overrides: every registered type becomes a field of mr_ptr_t (metaresc.c:1212-1239), so that
  mr_ptr_t encloses every type — `C75_registered_pointers` — and an unrelated structure with a field of type mr_ptr_t
  and a field of the discriminator's name hides the type — `C75_unrelated_type_refuted`. The variable length array
  `index[types_count]` (mr_udo_init.c:68) has no elements when no structure is registered, not modelled.
* mr_reorder_strings takes MR_IS_REFERENCED from the string that held a text when an earlier one becomes the holder
  (mr_save.c:1289), also if a pointer is a plain reference to the former holder — `C84_marks_refuted`. The number of that
  string is then not printed (xml_save.c:279) and the reference has no target. The function is called by a test only
  (tests/mem_failures.h:15).

### Loading
* XDR: sizes of char arrays and resizable arrays from the stream are not checked: writes out of bounds —
  `C54_char_array_overrun_refuted`, `C54_array_overrun_refuted`. Zero-size opaque data cannot be read back —
  `C53_zero_opaque_refuted`; a pointer to several char arrays reallocates an interior pointer —
  `C53_char_array_block_refuted`.
* Unknown names are accepted for anonymous fields — `C35_unknown_name_refuted`. References to undefined numbers
  and to number 2^32-1, content references to other types — `C43_*_refuted`. Texts too long for a char array and
  char arrays behind a pointer — `C49_*_refuted`. Unions and pointers given two values lead to release of foreign
  memory or leaks — `C57_*_refuted`.
* A node flagged as reference whose type is a structure uses its number as an index (cinit_load.y:129-135); a
  content reference to a reference with larger index reads NULL. Seen while reading.
* XDR stream: xdrra_setpostn (xdr.c:133-137) accepts every position. Behind the end of the data the difference of
  xdr.c:40 is negative and becomes large in the comparison with `sizeof`, so xdrra_getlong reads outside of the block —
  `C85_setpostn_refuted`; xdrra_getbytes (84) compares signed numbers and fails. xdrra_inline (146-158) does not move the
  stream, unlike the functions of the XDR library — `C85_inline_refuted`.

### Comparison, copy
* mr_cmp_structs is not transitive with NaN in an imaginary part only — `C47_complex_nan_refuted`; equal values may
  have different hashes (negative zero, enumerations without detected size) — `C47_negative_zero_refuted`,
  `C47_enum_refuted`; missing tables and full char arrays — `C47_no_table_refuted`, `C47_full_char_array_refuted`.
* mr_copy_recursively: content references to `void *`, a string or pointer as the root, clean-up after a failure
  that releases the destination or an interior pointer — `C45_*_refuted`. Opaque data is always refused —
  `C45_opaque_refused`. `ptrs` is dereferenced before the test for NULL (mr_extra.c:11, 72), not modelled.
