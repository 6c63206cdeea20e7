# Formal model of binary_xml — design

The model is written in Gallina (Coq 8.16.1) under `rocq/theories/`. `/repo` is never built or run; each model
definition cites the file and lines it was read from.

## Conventions

* Bytes are `Z` values in 0..255; a C string is a list of non-zero bytes, and a read past its end is the
  terminating 0. Memory regions are byte lists; every access is checked
  against their length.
* C integers: `Z` with explicit wraps (`s8`, `s16`, `s32`, `u32`, `u64`, ...). Where the C program would have undefined
  behaviour (signed overflow, out-of-range access) the model returns a distinct outcome, or the theorem carries the
  precondition that excludes it.
* `char` is signed (x86 ABI, the platform the repository targets); little-endian; `malloc`/`mmap` results are 16-byte
  aligned, so alignment of addresses equals alignment of offsets in an image.
* Loops are structural recursion, folds or fuelled recursion. A fuelled function has a distinct out-of-fuel outcome.
* Files: `*Model*.v`-style definitions first, proofs in separate files, and `Properties*.v` files that contain only the
  theorem statements (`exact lemma`), `Print Assumptions`, and beside each theorem an `Example` that its hypotheses are met.
* If the code violates a property, the theorem is `..._refuted : exists ..., ...` with a witness; the part that does hold
  is `..._partial` and its exact precondition is part of the statement.

## Plan per property

| id | what is modelled | how it is proved |
|----|------------------|------------------|
| C01 | `base64_encode`, `base64_decode` with buffer limits | induction over 3-byte groups |
| C02 | BLOB branch of `XBT_ToStringChunk` and the caller's loop | induction over chunks; chunk length is a multiple of 3 |
| C03 | `Hex2Str`, `ScanHex` | induction over bytes |
| C04 | `GUID2Str`, `ScanHex` | per-position calculation for 16 symbolic bytes |
| C05 | `Int64ToStr`, `ScanInt64`, INT64 branch of `XBT_ToStringChunk` | decimal digit induction; refutations at -2^59 and INT64_MIN |
| C06 | `ScanUInt64`, `ScanUInt64Hex`, UINT64 branch | decimal / hex digit induction |
| C07 | `ScanInt`, `ScanIPv4`, IPv4 printing | digit induction; inversion of the scanner |
| C08 | `ScanUnixDate` | spec: the calendar as repeated "next day"; arithmetic proof |
| C09 | `UnixDate2Str` | same spec; Dec 31 of leap years refuted |
| C10 | `ScanUnixTime`, `ScanUnixTime64msec`, printing | same spec |
| C11 | decimal printing and `str2dec` | digit induction; sign of values in (-1,0) refuted |
| C12 | `XBT_Detect`, `XBT_FromString`, `XBT_ToString` | refutations; positive theorems per canonical text class |
| C13 | `XBT_JoinTypes`, `XBT_Detect2` | finite case analysis lifted to all sequences; order dependence refuted |
| C14 | `XBT_GetBLOB_STRING_Size` | loop invariant |
| C15 | `XBT_Copy`, `XBT_Size2`, `XBT_Align` | case analysis per type with symbolic positions |
| C16 | `XBT_Compare` | per type, lexicographic order lemmas |
| C17 | `XBT_ToString` with its 64-buffer ring | invariant over histories; 64-bit integers refuted |
| C18 | `XBT_ToXMLStream`, `XML_Item::write` | induction; `write` refuted |
| C19 | `mergesort_r2` | loop invariant (runs of length m sorted and stable) |
| C20 | `qsort_r2` | termination and permutation proved; order refuted |
| C21 | SHA-1 context, `Block`, `Update`, `Final` | refinement to a separate FIPS 180-4 specification |
| C22 | `file_getsha1` over a read schedule | refuted for short reads, proved for full reads |
| C23 | `AdvEqual` | spec: relational glob semantics |
| C24 | `MakeIdent` | invariant of the copy loop |
| C25 | `AllocFilenameChangeExt`, `GetXB` naming | string lemmas; refutations |
| C26 | `FindOrAdd`, `FindOrAddTyped`, `Find` | invariant by induction over the insertions |
| C27 | `getID`, `getSymbol` | loop invariant of the binary search |
| C28 | `Load` | scan lemma over arbitrary bytes |
| C29, C30, C33 | `WriteNode`, params, children, `FillData`; reader accessors | decode(encode t) = t by induction over trees, offsets symbolic |
| C31, C32 | `XML_Item::Check` on bytes | refutations; soundness of the part it checks |
| C34, C35 | `Append`, `getNextChild` | induction over append histories; every prefix of the last write |
| C36–C38 | `MarkReferences`, `PackNode` | unfolding of shared nodes; for texts of any form both images are compared field by field (`PackSame.v`); refutations for 8-byte alignment and for texts whose room depends on their place |
| C39 | size of `WriteNode` output against `Make_xb` | refuted with an unbounded family of documents |
| C40, C51 | `allocate`, `allocate8`, `new_element`, `makeSpace` | invariant over histories |
| C41–C43 | ring lists in the pool | refinement to sequences; every intermediate store state |
| C44 | `tagSet*`, getters | separation of allocations; refutation for `tagSetTime` |
| C45–C47 | symbol tables in the pool | byte-level table model, invariant over registrations |
| C48 | file creation/enlargement as a sequence of durable steps | crash-prefix analysis |
| C49 | registry as bytes | refutation; proved for last-in-first-out use |
| C50 | `XStoreBinParamsEvent` | refutation; proved for non-string attributes |
| C52–C54 | jsmn parser | invariants over every input; correctness for every JSON value |
| C55, C56 | JSON plugin over tokens | refutations and bounds |
| C57 | STRING branch of `XBT_ToStringChunk` | induction over chunks |
| C58 | integer getters | refutation at INT32_NULL; proved elsewhere |

| C59 | `StrCopy`-like field cutters of `utils.cpp` | induction over the text |
| C60 | JSON plugin over the tokens of a JSON value | refinement to the tree, by induction |
| C61 | pool histories: registration, indexing, clearing, allocation, lists | one invariant, preserved by every step |
| C62 | `attr*` of pool elements, `attrGet`, getters | from the invariant of C61; success whenever the file can grow; refutations for repeated names and times |
| C63 | the pool as a source of the converter, `setRoot` | from the invariant of C61 and C50; room by disjointness of all allocated parts |
| C64 | `XML_Item::write`, `<<` of the reader; an XML reader as specification | the printed text as a function of the document; the reader's grammar by induction |
| C65 | `<<` of a source (`s_On2Stream`) for pools and for sources of texts; what bytes stand for which text | the streamed text as a function of the document; the pool walked by induction on its tree |
| C66 | `tag`, `tagStr`, `tagBLOB`, … of `BW_plugin` | from the invariant of C61, with a proof that they succeed whenever the file can grow; refutations for `tag()` and names for any type |
| C67 | `CopyAll` with `tagData`, `attrData`, `attrCopy` | the copy is a part of the document for every history (by induction on the depth, from the invariant of C61), and all of it if there is room and the types fit; texts are converted as their types say; refutations for lost children, for attributes in a full file and for texts that are no numbers. The theorem takes equal ids as a condition; C68 gives them |
| C68 | `importTags`, `importParams` | the import is a history of registrations (C45), with the flag that switches the search for the name off; the invariant of the names is kept for both values of the flag. All names with their ids if the table was empty and there is room; refutations for an import of nothing and for a name that does not fit |
| C69 | `EqualKeys`, `CopyKeys` | the two loops compute two inclusions of the sets of keys; with at most 16 keys they are equality (by induction on the attributes, from the invariant of C61). What CopyKeys copies is found equal. Refutation for 17 keys |
| C70 | `CopyPath`, `CopyPathOnly` | by induction on the path: as long as elements are found nothing changes; from the first new one on, all are new and empty, and each step is C64 with `CopyKeys` (C69) and at the end C67. Idempotence: the second run finds what the first one found or made. Refutations for names, content and a full disk |
| C71 | `Make_xbw`, `XStore2XBWEvent`, `XBWStoreParamsEvent`, `XBWStoreChildrenEvent` for sources of texts | induction on the document: after each element the pool has a sound history (C61), all earlier elements are untouched, and the new tree mirrors the document; names by the theorems on the symbol table (C26), the new file from any earlier one. Refutations for the names, valueless elements, types, large sources, the reserved name |
| C72 | `ForAllChildrenRecursively`, `..._PostOrder`, `..._PostOrderA` of items | the calls are collected; induction on the tree of positions; for the array an invariant: it has the way from the start, as far as it reaches. Converted documents by the layout of C29. Refutations for items below level 1024 and for cyclic files |
| C73 | `findChildByTag`, `findChildByParam`, `findAttr` | two nested inductions on the lists of a pool with any history (C61), with the comparison of values of C16 on the bytes of the attribute. Refutations for SHA-1, HEX, BLOB, BLOB_STRING and NaN |
| C74 | `setStr` | in place: a write inside the element; longer: giving the attributes away, `remove`, `tagStr`, `add`, hanging the attributes on are steps of a history (C61), their effects on lists and values are put together. Refutations for the order, the children, attributes, refused types and a full disk |
| C75 | `retype`, `alterTag`, `alterAttr`, `XBT_ConvertableType` | one byte of an element or of the table of names changes; the invariant of C61 is shown to be kept, with a new table. Refutations: a blob read as text, a number under a name that was altered |
| C76 | `Make_xb` with the JSON source | the source hands out one buffer for names and values, so the pass over the names is modelled for both orders of evaluation. By the tree of C60 the elements written are those of a text document (C29) in which some names are not in the table; the reader shows these as NULL. Refutations for the order, types of names, the size of the buffer, strings and escapes |
| C77 | `force_directory` over file systems without symbolic links, `mkdir` as on Linux | others act before each `mkdir`. On success the last `mkdir` shows that the whole path exists; success by an invariant over the names already made. Refutations for a path without the last slash and for a file with the name of the directory |
| C78 | `scan_dir` with any sequence of entries and errors and any callback with a state and an errno | induction over the entries. Refutations for errno left by the callback and for the directory left open |
| C79 | `ReadFile` and `file_get_contents`; the contents when the file is read are independent of the size asked for before | case analysis over what `read` returns. Refutations for empty files, the size without memory and the missing NUL |
| C80 | `Bin_src_plugin_selector`, the constructors of `Bin_xml_creator`, `DoAll` | the last dot of the name (C25). Refutations for unknown kinds, the constructor without a destination and a pool converted into itself |
| C81 | `print`, `s_PrintElement`, `s_PrintParam` for sources of texts | the layout and the XML reader of C64 and C65. Refutations for texts that look like markup |
| C82 | `tagAny` | the histories of pools of C66 and the conversion of texts of C71. Refutations for hexadecimal data, sizes that are too small and texts that cannot be converted |
| C83 | `ScanW`, `ScanIntW`, `ScanInt64W`, `ScanUInt64W`, `ScanStrW`, `SkipLineW` with the position they leave | a grammar of lines and tables in `LineSpec.v`, induction over its derivations; for every scanner an equivalence with what is written in the text. Refutations for the least number, large unsigned numbers, 0 before an x, an empty buffer and empty columns |
| C84 | `streq`, `StrWrite` | induction over the texts and the pieces; refutations without a limit of the source and for data with a NUL |
| C85 | `XBT_TestType`, `XBT_Test` | induction over the printed pieces in both directions; the verdict for every list of tests. The fifteen values of the library's own self test that pass also check the model against the expectations of its authors. Refutations for the verdict, GUIDs and short texts |
| C86 | `s_ShareFile`, `CloseSharedFile`, `WriteToFile` over a model of descriptors, pages and files | invariant over histories in which the answers of the system are arbitrary: shared files are apart, hold their own descriptor and pages, all else is as at the beginning. Refutations for descriptor 0, new files and a failed print |
| C87 | `genI64`, `genU64` | bit arithmetic: range, injectivity in the draws; refutations for repetitions and for bit 31 |
| C88 | `XBT_Buffer` and the sizes `XBT_ToString` asks for | lengths of the hexadecimal lines and the base64 text against the room, for all contents; refutation for sizes that wrap |
| C89 | the XML source over any tree of libxml2 | specification of XML documents as trees of items, libxml2's representation of them, and what should be seen; induction over the document. Which trees are survived is characterised exactly; composed with C29. Refutations for comments, CDATA, references, empty values, prefixes and name spaces |
| C90 | `main` of 2xb, 2xbw, size computed by xb2xml | induction over the arguments; refutation for several files and for large pools |
| C91 | all of C89, C29, C64 and C71 together | the tree of libxml2 for a text is that of the specification's XML reader; composition. Refutations for escaped characters, values behind children and white space |
| C92 | Make_xbw with the JSON source | the first token of any text has no parent (invariant of the tokenizer), so the root has no name and nothing is stored: refuted for every text |
| C93 | the four getters that return pointers, with the static variables they write | frame of every call over any sequence; converted 32-bit integers are read from the file itself; numbers stored as texts are refuted |
| C94 | `Initialize` and `CheckExistingFile` on the outcome of every history of a pool | every operation keeps the title, the invariant of the tables gives what `check` looks at |
| C95 | the registrations by id when the file existed, `allRegistered` | names and types read through the indices; without an index refuted, as for pools without attributes |
| C96 | `Initialize` on any file | case analysis; refuted for files shorter than a header, which the code deletes on purpose |
| C97 | `ForAllChildrenRecursively` and `ForAllParams` on every history of a pool | induction over the tree below the element; that nothing comes twice follows from the single owner of each element. Elements without attributes are refuted |
| C98 | `getDataSize` | the spaces of elements, names and indices do not overlap, so their sizes add up to at most the allocated space; with an index, zero is refuted |
| C99 | `CheckAndUpdateTypes` and its two events, which do nothing | refuted by a pool with an altered type; it succeeds on every tree |
| C100 | the stores of `add`, `join`, `remove`, `replace` one by one, and `Initialize` on the file after each of them | every store goes to a link or to the flags of an element, so title, header and tables are kept |
| C101 | `add` on the file after any store of another `add` | first child: a single store. Otherwise refuted: the next element is linked behind the lost one |
| C102 | iterating the children in the file after any store of `remove` and `replace` | the links after each store are compared with those before and after. Refuted for the first of several children |
| C103 | `check_id`, `checkTable` | the title is kept by every history. Refuted for tables with names: the two conditions on an entry exclude each other |
| C104 | `getDocTypeName` with the calls of itself that its own failing checks make | by the names the history has registered. Refuted, by induction over the calls, for a root with an unregistered tag |
| C105 | `register_steps`: the file after each store of a registration, proved to be the stores of `register` | the invariant of the dictionaries after every store until max_id is raised, and at the end. Refuted in between: every beginning of the name can become a name |
| C106 | the same | the same invariant, with the room a registration needs. Refuted for the first name of a table |
| C107 | `fresh_steps`: the file after each store of making an element, proved to be the stores of `fresh` and `fresh_with` | everything before the allocator is kept by every store, so the invariant of the dictionaries holds. Refuted when the pool is enlarged: the file is longer before its two sizes say so |

Not expressible here: libxml2 parsing itself (external), the expat plugin (disabled), `mmap`/`ftruncate` semantics beyond
the sequence of durable steps, real concurrency of CPUs (stores are taken as sequentially consistent), logging output.


## Trusted base

* The kernel of Coq 8.16.1 (`coqc`, `coqchk`), with its virtual machine (`vm_compute` in examples and in finite case analyses).
* `Print Assumptions` says "Closed under the global context" for every theorem of the `Properties_*.v` files: no axiom is used.
  Loading `Lia` brings the standard library's `Coq.ssr.ssrunder.Under_rel.*` module parameters into the environment
  (through `ZifyBool`); no theorem depends on them.
* That the model is the code. It was written by reading; nothing checks it mechanically. Each definition cites its lines.
* The conventions above (ABI, alignment of `malloc`/`mmap`, sequentially consistent stores).
* libc: `gmtime_r` gives the calendar date (C10); `snprintf("%f")` and `atof` are parameters of the theorems (`floats`, with
  `floats_ok` where a bound on their output is needed), so theorems hold for every choice; `strcmp`, `strlen`, `memcpy`, `memmove`, `memset` as in the C
  standard; `read` may return any short count (C22); `write` of an append may stop after any number of bytes (C35).

## What is modelled

| source | modelled | model files |
|--------|----------|-------------|
| `src/utils.cpp` | scanners (`Scan*`), number and date printers, base64, hex, GUID, `AdvEqual`, `MakeIdent`, file name helpers, field cutters | `Scan.v`, `Dates.v`, `Base64.v`, `Text.v`, ... |
| `src/missings.cpp` | both sorts | `Sort.v` |
| `src/missings.cpp`, SHA-1 | digest, block and padding, `file_getsha1` over a read schedule | `Sha1.v` |
| `src/bin_xml_types.cpp` | `XBT_Detect`, `XBT_JoinTypes`, `XBT_Size2`, `XBT_Align`, `XBT_FromString`, `XBT_Copy`, `XBT_Compare`, `XBT_Equal`, `XBT_ToString`, `XBT_ToStringChunk`, `XBT_ToXMLStream` | `Types.v` |
| `src/bin_xml.cpp` | symbol tables, opening a file, items and attributes (all getters used by clients), `Check`, `getNextChild` over appended records, traversals, printing as XML | `Xb.v`, `Append.v`, `Walk.v`, `XmlOut.v`, `IntPtr.v` |
| `src/bin_xml_creator.cpp` | symbol tables, `Make_xb`, `FillData`, `WriteNode` for text sources and for binary sources, `Append`, the stream operator of sources, `Make_xbw` for text sources | `Symtab.v`, `XbWrite.v`, `XbBin.v`, `Append.v`, `SrcStream.v`, `BwMake.v` |
| `src/bin_xml_packer.cpp` | the packer (`MarkReferences`, `PackNode`, ...), file names | `Packer.v`, `Text.v` |
| `src/bin_write_plugin.cpp` | allocator, elements, lists, `tagSet*`, `attr*`, `tag*`, getters, symbol tables, registration, `Clear`, opening and enlarging the file, `setRoot`, the source interface of the converter, `CopyAll`, `CopyKeys`, `EqualKeys`, `CopyPath`, `findChildBy*`, `setStr`, `retype`, `alterTag`, `alterAttr`, importing names | `Bw.v`, `BwFind.v`, `BwSetStr.v`, `BwAlter.v`, `BwSym.v`, `BwFile.v`, `BwAttr.v`, `BwTag.v`, `BwSource.v`, `BwCopy.v`, `BwImport.v`, `BwKeys.v`, `BwOpen.v`, `BwWalk.v`, `BwCheck.v`, `BwRegSteps.v`, `BwNewSteps.v` |
| `src/bin_write_plugin.cpp:38-49, 2936-2973` | registry of open pools | `BwReg.v` |
| `src/bin_write_plugin.cpp:1782-1794` | `tagAny` | `BwAny.v` |
| `src/bin_write_plugin.cpp:876-895` | `tagSetSHA1` | `BwSetSha.v` |
| `src/utils.cpp:869-997` | scanners of a writable text | `LineScan.v` |
| `src/utils.cpp:1090-1100, 1169-1183` | `StrWrite`, `streq` | `StrTools.v` |
| `src/bin_xml_types.cpp:1251-1374` | self test | `SelfTest.v` |
| `src/utils.cpp:17-43, 92-151` | files as memory, descriptors, pages | `Share.v` |
| `src/bin_xml_types.cpp:1229-1247`, `src/utils.cpp:1294-1321` | output buffer, generated numbers | `OutBuf.v` |
| `src/jsmn/jsmn.c` | the tokenizer, both passes | `Jsmn.v` |
| `src/files.cpp`, `src/utils.cpp:45-92` | `force_directory`, `scan_dir`, `file_get_contents`, `ReadFile` | `Files.v` |
| `src/bin_xml_creator.cpp:258-369`, `src/bin_xml_packer.cpp:64-81` | constructors, `DoAll`, `Bin_src_plugin_selector` | `Creator.v` |
| `src/bin_xml_creator.cpp:113-151` | `print` of a source | `SrcPrint.v` |
| `src/bin_json_plugin.cpp` | the JSON source and the conversion of its documents, also into pools | `Jsmn.v`, `JsonMake.v`, `JsonPool.v` |
| `src/bin_xml_plugin.cpp` | the XML source over the tree libxml2 delivers | `XmlSrc.v` |
| `src/tests/2xb.cpp`, `2xbw.cpp`, `xb2xml.cpp` | `main` of the tools, size of the mapping | `Tools.v` |

Not modelled: libxml2 and expat (the tree libxml2 delivers is an arbitrary argument), logging and messages (but see C104: where it is refuted, every call the
model lets fail with a message does not return), the quality of
random numbers, time of day, failures of `mmap` for pools, 32-bit platforms. Where a function is modelled in part, the comment at its definition says which part.

## Findings

Each of these is the subject of a `_refuted` theorem or is met as an excluded case of a `_partial` theorem.

Values and texts
* Base64 into a buffer with one spare byte is not terminated (C01); BLOB pieces with a buffer of 4k+2 bytes are not terminated (C02).
* INT64_MIN overflows; one 64-bit value is printed as NULL because of a mistyped constant (C05).
* Dates before 1969 are numbered wrongly (C08); December 31 of leap years has no text (C09); time stamps wrap after 2106 (C10).
* Fractions in (-1,0) lose their sign (C11). Columns `1`, `1.5` turn `1` into `1.0` (C12, C29); the type of a column depends on the order of its values (C13).
* STRING copied with size 0 ignores the limit; a 20-byte SHA-1 source is read 4 bytes too far (C15).
* The text of a 64-bit integer can be overwritten or depend on earlier calls (C17). HEX values put a NUL byte into XML (C18).
* `qsort_r2` does not sort (C20). `file_getsha1` stops at a short read (C22). Masks ending in `*` want a character (C23).
* Extensions are looked for in directory names (C25); `.wsdl` names (C25).
* The scanners of a writable text do not read the least number of a type (overflow), reduce unsigned numbers to 64 bits, take 0 before an x for the beginning of a hexadecimal number, write one byte into a buffer of no bytes, and skip empty columns when the separator is a blank such as a tab (C83).
* `StrWrite` without a limit of the source leaves the source pointer null; data with a NUL are not copied behind it (C84).
* `XBT_Test` is true exactly if every value fails: the number of failures of each test is taken for its success, so the self test of `2xb` and `2xbw` always ends with an error. Its loop over dates is never entered (`2 << 30` is negative). Values with one character of text overflow its buffer (C85).
* `genU64` shifts a 31-bit number by 32, so bit 31 is never drawn; it is that of a counter (C87). Numbers of one series may repeat.
* From 1041204193 bytes on the room for a HEX text is negative, the buffer is not enlarged, and the text is written behind its end (C88).

Documents
* The XML source sees as value only a text that is the first child: a comment in front of it or CDATA loses the value, a comment or entity reference inside cuts it. An attribute whose value begins with a reference, or has no nodes, ends the program; prefixes of attributes are dropped; an element that only declares a prefix gets an `xmlns` (C89).
* `2xb a.xml b.xml` converts `a.xml` twice and `b.xml` never, with exit code 0 (C90).
* `<r>a&lt;b</r>`, converted and printed, is `<r>a<b</r>`, no XML (C91).
* No JSON text can be converted into a pool: the outermost value has no name and is not stored. The target file is emptied nevertheless (C92).
* The attribute name `et-tecera` is looked up as id -9, another reserved name (C26). A negative `type_count`, or a table longer than the file, makes `Load` read outside (C28).
* Hexadecimal attributes are stored over their neighbours; dates as attributes, IPv4, milliseconds at odd positions are not read back (C29, C33).
* `Check` stops checking an element at its first text attribute, and the document header has one, so nothing of a converted document is checked (C31). It recurses for ever on an element that is its own child (C32) and reads outside for negative counts (C31).
* After a torn append later appends are misread or the loop over them never ends (C35).
* The packer moves nodes by multiples of 4, which breaks 64-bit values (C38), and stores equal elements twice if their padding differs (C37).
* 250 elements `<a/>` overflow the converter's buffer (C39).
* -134217728 cannot be told from a missing value (C58).
* Printing a document escapes nothing, drops the dashes of GUIDs, shows old bytes of its buffer behind 64-bit numbers and stops at a child named `et-tecera` (C64).
* The traversal that delivers the way to each item leaves the array alone below level 1024 without notice, and no traversal ends on a file with a cycle (C72).
* Printing a source of texts loses the value of every element, and aborts as soon as an element has children; HEX values put a NUL byte into the output, DOUBLE and IPv6 values end the process (C65).
* Pointers to numbers that are stored as texts point to static variables: fetching the next number overwrites the first one, and the 32-bit getter of elements delivers the number of the first text element for every later one (C93).

Pools
* Replacing the only child makes the list endless (C43); `tagSetInt32` on a child of another 4-byte type does that on the second call; `tagSet*` return the removed element after a replacement; `tagSetTime` writes 8 bytes into 4 (C44).
* From the 129th name on two names share an id (C45). Registering under a chosen id always fails on a new pool (C46); on any pool it never reports success.
* `Clear` can fail and damage the dictionary (C47). Crashes while creating or enlarging leave a file that cannot be opened, or one with a phantom attribute (C48). A first registration that fails for lack of memory leaves the table unusable.
* In a pool that is opened again, registering by id is refused for every name if `allRegistered` was not called before the pool was closed. If the pool has no attributes, `allRegistered` reports success whatever was refused (C95). A file shorter than 92 bytes is replaced by an empty pool (C96).
* Walking through the attributes of an element that has none takes the header of the pool for an attribute and then follows a null pointer, so `print` of a pool with such an element crashes (C97). The data size counts the indices of the names (C98). `CheckAndUpdateTypes` checks nothing and always reports success (C99).
* A process that is killed between the stores of `add` leaves a pool that opens, but in which every element that is added to this parent afterwards is silently missing among the children (C101). Killed while it replaces the first of several children, as setting a value can, it leaves a pool in which iterating the children never ends; killed while it removes the first child, one in which that child has become the last (C102). A reader that runs at the same time meets the same states.
* `checkTable` rejects every table that is not empty (C103). When the root of a pool has a tag that is not registered, as `tagAny` and `setRoot` allow, the report of any error in this pool recurses without end, because the name of the document is part of the report of the failure to find it (C104).
* `registerTag` and `registerParam` raise `max_id` before they store the entry: a kill while `strcpy` runs leaves a beginning of the name in the dictionary for good (C105). A kill between the allocation and `max_id` of the first name of a table leaves `names_offset` before the allocator with no names; `Open` then asks for 0 bytes, which `allocate` refuses, and no name can be registered in this table any more (C106).
* Making an element that does not fit enlarges the file before it stores the new size twice: a kill in between leaves a pool no program opens any more, although nothing of the document was touched (C107, as C48).
* `unregister` moves a number of bytes where it should move pointers (C49).
* `attr*` never replace: a second value of a name is stored but never found; `getTime` reads 8 bytes where `attrTime` stored 4; `attrSHA1` reads 24 bytes of a 20-byte sum (C62).
* `tag(id)` makes elements without a value also for names with a type: the typed getters then deliver the bytes that happen to follow, e.g. the position of the next element; `tagInt32` accepts names of type `XBT_VARIANT` and always returns NULL for them; `tagTime` stores under such a name and `getTime` does not deliver it (C66).
* Elements and attributes with built-in names ("count", "id", ...) are converted into ones named "NULL" (C63). A pool that is not indexed has no names for the converter. The size of the conversion buffer wraps for pools over 512 MB.
* `CopyAll` leaves out a child without notice if there is no room or its type is not the one of its name, and the half-made element stays in the pool; attributes are copied only as far as the file has room already, though it could grow; names are copied by id, so both dictionaries must be the same; a text that is no number becomes 0 (C67).
* Importing the names of no document (a null pointer, or one without names) into a new pool switches the search for names off for good: a name registered twice gets two ids. A name that does not fit when a document's names are imported is left out without notice, and the ids after it are shifted (C68).
* `EqualKeys` keeps the checked keys in an array of 16; an item with more keys is not equal to anything, its own copy included (C69).
* `CopyPath` looks for an element by its keys only, so without keys it takes the first child whatever its name is; an element that was found is not completed with the content that was asked for; if the file cannot grow, a null pointer is followed (`root2->first_child = tag(...)->offset`, and `CopyKeys` of the null result of `tag`) (C70).
* `Make_xbw` registers the names under chosen ids, which always fails on the new pool (C46), and does not look at the results: the pool made has no name at all. A null pointer is handed to `atoi` or `strlen` for an element without text whose name has a text elsewhere; a text of a type `XBT_FromString` does not know (`3000000000`) ends the process; for sources of 128 MB and more the size of the pool overflows; an existing file keeps its old maximal size; the element `et-tecera` is left out with all below (C71).
* `findChildByParam` takes the size of the attribute's value from its type alone: SHA-1 values are compared as 24 bytes, HEX values by their length only, BLOB_STRINGs from their length field on; BLOBs are never found; NaN is found everywhere (C73).
* `setStr` with a longer text moves the element behind its siblings and loses its children; for an attribute it makes a child instead; with a full disk or a name whose type was altered it follows a null pointer (C74).
* `retype` lets a BLOB become a BLOB_STRING although it is not closed by a zero; `alterTag` changes the type of a name but not its values, which the typed getters then refuse (C75).
* `tagAny` loses the last four bytes of hexadecimal data, writes texts beyond the size that was given, and leaves the new element in the pool when the text cannot be converted (C82).
* `tagSetSHA1` with a null value clears a child that is there and reads the null pointer if there is none; a child of another type is not replaced (C44).
* `ForAllParams` of a pool element without attributes begins at position 0, the header of the pool; the number of attributes of an item is 16 bits wide and is not checked when it is written.
* A table of names whose first registration failed, with the allocator moved on since, can never register a name again. `CheckAndUpdateTypes` never updates anything.
* `getInt64` of an element with a name of type UINT64 delivers NULL; `tagSet*` follows a null pointer if a new element is needed and there is no space.
* IPv6 values of elements in a document are stored at a multiple of 8 and read at a multiple of 4; UNIX_DATE attributes are stored in place and read as an offset.
* Text attributes are lost when a pool is converted (C50). `makeSpace(n)` then `allocate8(n)` can fail (C51).

JSON
* `{}:1` and `[[1]:2,3]` are accepted (C52); `{"a"}`, blank texts and unclosed strings make the source read outside its token array or allocate a negative number of tokens (C55). An empty array key reads the byte before the name buffer (C56).
* `getNodeName` and `getNodeValue` of the JSON source return the same buffer and the converter calls both in one argument list.  If the name is computed first, the values are registered as names and all elements with values are called NULL in the document; if the value is computed first, the types of the names are detected from the names (C76).
* A JSON text of many small objects overflows the buffer of the image (C76).

### Files

* `force_directory` makes a directory only if a slash follows its name, and takes a file of that name for it (C77).
* `scan_dir` does not close the directory after an error, and takes an errno the callback leaves for an error of `readdir` (C78).
* `ReadFile` returns null for an empty file, and sets the size also when it returns null; `file_get_contents` leaves no NUL if the file fills the buffer (C79).
* The constructor of `Bin_xml_creator` without a destination reads the member `dst` before it is set; a source with an unknown extension is called through a null pointer; a pool given without another name is converted into itself (C80).
* `print` escapes neither values nor attributes (C81).
* `CloseSharedFile` does not close descriptor 0; `ShareFileRW` maps a new file without giving it a length, so that every access is a signal; `WriteToFile` leaves the file open when printing fails (C86).

## Mutation testing

`seeded/LOG.jsonl` has one line per deliberate error put into a scratch copy of the model: the definition, the edit, the claim it
breaks and the theorems whose proofs then failed.
