{"id": "C01", "title": "base64 text decodes back to the bytes it was made from", "statement": "Encoding any byte string with base64_encode into a buffer that is large enough writes exactly 4*ceil(n/3) characters of the base64 alphabet (padded with '='), NUL-terminates them, and base64_decode of that text into a buffer of at least n bytes returns n and the original bytes.", "quantifier": "every byte string of any length, every sufficiently large buffer size", "why_tests_cant": "the byte strings are unbounded and the three residues mod 3, the padding and buffer-limit tests interact; a test can only sample lengths", "anchors": ["src/utils.cpp:base64_encode", "src/utils.cpp:base64_decode"]}
{"id": "C02", "title": "Printing a BLOB in pieces gives the same text as printing it at once", "statement": "Whatever buffer size the caller passes to XBT_ToStringChunk for a BLOB value, the concatenation of the pieces it returns until it answers 0 is the base64 text of the whole blob, and the loop ends.", "quantifier": "every blob, every buffer size greater than 256", "why_tests_cant": "blob length and buffer size are both unbounded; only chunk boundaries that fall inside a 3-byte group would show a mistake", "anchors": ["src/bin_xml_types.cpp:XBT_ToStringChunk", "src/bin_xml_types.cpp:XBT_ToStringStream", "src/utils.cpp:base64_encode"]}
{"id": "C03", "title": "Hexadecimal text scans back to the same bytes", "statement": "ScanHex applied to the text Hex2Str produced for a byte string returns the number of bytes and exactly those bytes, and never stores more than the destination size it was given, whatever the text is.", "quantifier": "every byte string; for the bound, every text and every destination size", "why_tests_cant": "unbounded inputs, and the digit-count bookkeeping only matters at the limits", "anchors": ["src/utils.cpp:ScanHex", "src/utils.cpp:Hex2Str"]}
{"id": "C04", "title": "A GUID printed with dashes scans back to the same 16 bytes", "statement": "ScanHex(16) of the 36 character text printed by GUID2Str for any 16 bytes gives back these 16 bytes; the text has dashes exactly at positions 8, 13, 18 and 23.", "quantifier": "every 16-byte value (2^128)", "why_tests_cant": "2^128 values", "anchors": ["src/utils.cpp:GUID2Str", "src/utils.cpp:ScanHex"]}
{"id": "C05", "title": "Signed 64-bit numbers survive being written as text and read again", "statement": "For every signed 64-bit value, the text shown for it (Int64ToStr, and XBT_ToStringChunk of an INT64 value) is its decimal numeral, and ScanInt64 of that text gives the value back.", "quantifier": "all 2^64 signed values", "why_tests_cant": "2^64 values; the failing ones are isolated points", "anchors": ["src/utils.cpp:Int64ToStr", "src/utils.cpp:ScanInt64", "src/bin_xml_types.cpp:XBT_ToStringChunk"]}
{"id": "C06", "title": "Unsigned 64-bit numbers survive being written as text and read again", "statement": "For every unsigned 64-bit value the text XBT_ToStringChunk produces is its decimal numeral and ScanUInt64 of it returns the value; ScanUInt64Hex does the same for hexadecimal numerals.", "quantifier": "all 2^64 unsigned values", "why_tests_cant": "2^64 values", "anchors": ["src/utils.cpp:ScanUInt64", "src/utils.cpp:ScanUInt64Hex", "src/bin_xml_types.cpp:XBT_ToStringChunk"]}
{"id": "C07", "title": "IPv4 addresses survive text conversion and nothing else is accepted", "statement": "For every 32-bit address ScanIPv4 of its dotted-quad text gives the address back; and whenever ScanIPv4 accepts a text, the address is built from four numbers of the text, each between 0 and 255, separated by dots.", "quantifier": "all 2^32 addresses; all texts", "why_tests_cant": "all texts of any length", "anchors": ["src/utils.cpp:ScanIPv4", "src/utils.cpp:ScanInt"]}
{"id": "C08", "title": "Dates are numbered by the Gregorian calendar", "statement": "For every valid calendar date the day number ScanUnixDate computes from 'YYYY-MM-DD' is the number of days from 1970-01-01 to that date in the Gregorian calendar.", "quantifier": "every valid date from year 0 to the last year the parser admits", "why_tests_cant": "the calendar has a 400-year cycle with three nested leap rules; sample dates (the repository tests 1969-12-31) miss whole eras", "anchors": ["src/utils.cpp:ScanUnixDate"]}
{"id": "C09", "title": "A day number prints as its Gregorian date", "statement": "For every day number the date text printed by UnixDate2Str is the Gregorian date of that day, and scanning it again gives the day number back.", "quantifier": "every day number from 1970-01-01 to 9999-12-31 and before", "why_tests_cant": "millions of values; the failing ones are single days in leap years", "anchors": ["src/utils.cpp:UnixDate2Str", "src/utils.cpp:ScanUnixDate"]}
{"id": "C10", "title": "Time stamps are counted from the epoch and survive printing", "statement": "For every 32-bit UNIX time the text 'YYYY-MM-DD hh:mm:ss' of that instant is scanned by ScanUnixTime to the same number of seconds; the same for millisecond time stamps with ScanUnixTime64msec.", "quantifier": "every 32-bit number of seconds, every millisecond", "why_tests_cant": "2^32 seconds, and only the calendar arithmetic and the wrap at the end of the range show errors", "anchors": ["src/utils.cpp:ScanUnixTime", "src/utils.cpp:ScanUnixTime64msec", "src/bin_xml_types.cpp:XBT_ToStringChunk"]}
{"id": "C11", "title": "Fixed-point decimals print the number that is stored", "statement": "For each of the 1,2,3,6,9-decimals types and for every stored 32-bit integer V, the printed text denotes V/10^k and str2dec of it gives V back.", "quantifier": "all 2^32 stored values for each of the five types", "why_tests_cant": "2^32 values; the wrong ones are those between -1 and 0", "anchors": ["src/bin_xml_types.cpp:XBT_ToStringChunk", "src/bin_xml_types.cpp:str2dec"]}
{"id": "C12", "title": "A value keeps its text when it is stored under its detected type", "statement": "If XBT_Detect classifies a text as some type, XBT_FromString stores it under that type and XBT_ToString of the stored value gives a text equal in meaning to the original (same number, same bytes, same string).", "quantifier": "every text", "why_tests_cant": "texts are unbounded; detection works by counting character classes, so the failing texts are those where counts agree and order does not", "anchors": ["src/bin_xml_types.cpp:XBT_Detect", "src/bin_xml_types.cpp:XBT_FromString", "src/bin_xml_types.cpp:XBT_ToStringChunk"]}
{"id": "C13", "title": "The inferred type of a column does not depend on the order of its values", "statement": "Folding the values of all elements with one name into an inferred type gives the same type for every order of the values, and the join of two types is idempotent, commutative and associative on the data types.", "quantifier": "every finite sequence of values and every permutation of it; every pair and triple of types", "why_tests_cant": "permutations of arbitrarily long value sequences", "anchors": ["src/bin_xml_types.cpp:XBT_JoinTypes", "src/bin_xml_types.cpp:XBT_Detect2", "src/bin_xml_creator.cpp:Bin_xml_creator::FindOrAdd"]}
{"id": "C14", "title": "The reserve of a resizable string is sufficient and not wasteful", "statement": "XBT_GetBLOB_STRING_Size(n) is at least n+1 plus the header it needs, is a power of two or three times a power of two, grows monotonically and is the smallest such size.", "quantifier": "every length up to 2^30", "why_tests_cant": "the loop doubles, so errors hide exactly at size boundaries", "anchors": ["src/bin_xml_types.cpp:XBT_GetBLOB_STRING_Size"]}
{"id": "C15", "title": "Copying a value never writes past the limit it was given", "statement": "XBT_Copy called with any type, source, write position and limit either fails, leaving the write position alone, or writes only inside [write position, limit), aligns fixed-size values as XBT_Align says, and leaves a value there that reads back equal to the source.", "quantifier": "every type, content size, alignment of the write position and limit", "why_tests_cant": "the limit test must account for alignment padding in every residue", "anchors": ["src/bin_xml_types.cpp:XBT_Copy", "src/bin_xml_types.cpp:XBT_Size2", "src/bin_xml_types.cpp:XBT_Align"]}
{"id": "C16", "title": "Comparing two values is consistent", "statement": "XBT_Compare is antisymmetric and transitive on values of one type, answers 0 exactly for values with the same content, and reports values it cannot compare in both argument orders.", "quantifier": "all pairs and triples of values of every type", "why_tests_cant": "pairs and triples of unbounded values", "anchors": ["src/bin_xml_types.cpp:XBT_Compare", "src/bin_xml_types.cpp:XBT_Equal"]}
{"id": "C17", "title": "The text of a value does not depend on what was printed before", "statement": "XBT_ToString of a value returns the same NUL-terminated text after every history of other XBT_ToString calls, although results live in a ring of reused static buffers.", "quantifier": "every history of calls and every value", "why_tests_cant": "histories: the buffer ring repeats only after 64 calls and a leftover shows only when an earlier text was longer", "anchors": ["src/bin_xml_types.cpp:XBT_ToString", "src/bin_xml_types.cpp:XBT_ToStringChunk"]}
{"id": "C18", "title": "Values written to an XML stream are escaped", "statement": "The text XBT_ToXMLStream writes for any string value contains no raw '<', '>' or '\"', every '&' in it starts one of the four entities, and un-escaping it gives back the value; this holds for values longer than its internal buffer too.", "quantifier": "every string value of any length", "why_tests_cant": "unbounded strings and chunk boundaries", "anchors": ["src/bin_xml_types.cpp:XBT_ToXMLStream", "src/bin_xml_types.cpp:XBT_ToStringChunk", "src/bin_xml.cpp:XML_Item::write"]}
{"id": "C19", "title": "mergesort_r2 sorts, is stable and loses nothing", "statement": "For every array and every comparison function that is a total preorder, mergesort_r2 leaves a permutation of the array that is ordered and keeps the relative order of elements that compare equal.", "quantifier": "all arrays of any length, all comparison functions that are total preorders", "why_tests_cant": "array lengths that are not powers of two give clamped runs in every pass; sorting must hold for all of them", "anchors": ["src/missings.cpp:mergesort_r2"]}
{"id": "C20", "title": "qsort_r2 sorts", "statement": "For every array and every total preorder, qsort_r2 terminates and leaves an ordered permutation of the array.", "quantifier": "all arrays, all comparison functions that are total preorders", "why_tests_cant": "only arrays where the pivot slot takes part in an exchange show the fault", "anchors": ["src/missings.cpp:qsort_r2"]}
{"id": "C21", "title": "The SHA-1 digest is the FIPS 180 digest however the data are cut", "statement": "Feeding a message to blk_SHA1_Update in any sequence of pieces and calling blk_SHA1_Final yields the SHA-1 digest of the concatenation as FIPS 180-4 defines it.", "quantifier": "every message shorter than 2^61 bytes and every way of cutting it", "why_tests_cant": "the internal 64-byte buffer makes the result depend on all residues of piece lengths; messages are unbounded", "anchors": ["src/missings.cpp:blk_SHA1_Init", "src/missings.cpp:blk_SHA1_Update", "src/missings.cpp:blk_SHA1_Final", "src/missings.cpp:blk_SHA1_Block"]}
{"id": "C22", "title": "The SHA-1 of a file covers the whole file", "statement": "file_getsha1 of a file returns the SHA-1 of its complete contents, for every way the operating system delivers the reads.", "quantifier": "every file content and every schedule of short reads", "why_tests_cant": "a short read depends on the kernel and cannot be forced by a unit test", "anchors": ["src/missings.cpp:file_getsha1"]}
{"id": "C23", "title": "Wildcard masks mean what they say", "statement": "AdvEqual(mask, value) holds exactly when value matches mask with '?' for one character and '*' for any number of characters.", "quantifier": "all masks and values", "why_tests_cant": "pairs of unbounded strings with backtracking", "anchors": ["src/utils.cpp:AdvEqual"]}
{"id": "C24", "title": "MakeIdent always produces an identifier", "statement": "For every source text and style, MakeIdent writes at most 63 characters and a NUL into the 64-byte buffer and the result is empty or a valid identifier ([A-Za-z_][A-Za-z0-9_]*).", "quantifier": "all source texts and styles", "why_tests_cant": "unbounded texts", "anchors": ["src/utils.cpp:MakeIdent"]}
{"id": "C25", "title": "Derived file names keep the directory and change only the extension", "statement": "AllocFilenameChangeExt(path, ext) returns the path with the extension of its last component replaced by (or, if there is none, extended with) ext; the output name Bin_xml_packer::GetXB reports is the name of the file it writes.", "quantifier": "all paths", "why_tests_cant": "all paths", "anchors": ["src/utils.cpp:AllocFilenameChangeExt", "src/bin_xml_packer.cpp:Bin_xml_packer::GetXB"]}
{"id": "C26", "title": "The symbol tables a converter builds are sorted sets", "statement": "After registering any sequence of names the table is strictly ordered by strcmp, contains exactly the registered names, every registered name is found and the index found holds that name, other names are not found, and ids fit into the 16-bit field without meeting the reserved negative ids.", "quantifier": "every sequence of names up to the table limit", "why_tests_cant": "every insertion order exercises another path of the binary insertion", "anchors": ["src/bin_xml_creator.cpp:Bin_xml_creator::FindOrAdd", "src/bin_xml_creator.cpp:Bin_xml_creator::FindOrAddTyped", "src/bin_xml_creator.cpp:Bin_xml_creator::Find"]}
{"id": "C27", "title": "Name lookup in a loaded document is correct", "statement": "For every strictly ordered symbol table _XB_symbol_table::getID returns the index of a name that is present and reports absence otherwise; getSymbol inverts it.", "quantifier": "all sorted tables of any size, all names", "why_tests_cant": "binary search on unbounded tables", "anchors": ["src/bin_xml.cpp:_XB_symbol_table::getID", "src/bin_xml.cpp:_XB_symbol_table::getSymbol"]}
{"id": "C28", "title": "Loading a symbol table never yields a name outside the table's data", "statement": "Whenever _XB_symbol_table::Load accepts a table, each of its names is a NUL-terminated string that lies entirely inside the table's own byte block, for arbitrary (hostile) bytes.", "quantifier": "every byte content of the file", "why_tests_cant": "adversarial byte patterns", "anchors": ["src/bin_xml.cpp:_XB_symbol_table::Load"]}
{"id": "C29", "title": "Converting a document and reading it gives the same document", "statement": "For every source tree (names, attributes, text, children) the .xb image produced by the converter, opened by the reader, has the same tree: same names, same attributes in the same order with the same values, same children in the same order, same text.", "quantifier": "every finite tree of any depth and width that fits the format's limits", "why_tests_cant": "trees are unbounded; layout offsets and alignment depend on everything that precedes a node", "anchors": ["src/bin_xml_creator.cpp:Bin_xml_creator::WriteNode", "src/bin_xml_creator.cpp:Bin_xml_creator::XStoreParamsEvent", "src/bin_xml_creator.cpp:Bin_xml_creator::XStoreChildrenEvent", "src/bin_xml.cpp:XML_Item::getString", "src/bin_xml.cpp:XML_Item::getChildByIndex"]}
{"id": "C30", "title": "The reader opens everything the converter writes", "statement": "XB_reader::Initialize succeeds on every image FillData produces, and the root it delivers is the root element of the source.", "quantifier": "every source tree within the format's limits", "why_tests_cant": "the meta blocks' sizes and offsets depend on all names used", "anchors": ["src/bin_xml_creator.cpp:Bin_xml_creator::FillData", "src/bin_xml_creator.cpp:Bin_xml_creator::WriteChildSymbols", "src/bin_xml_creator.cpp:Bin_xml_creator::WritePayloadContainer", "src/bin_xml.cpp:XB_reader::Initialize", "src/bin_xml.cpp:XML_Item::Check"]}
{"id": "C31", "title": "A file that passes the integrity check can be navigated safely", "statement": "If the recursive integrity check accepts a file, then every element, attribute and value reachable from its root lies inside the file.", "quantifier": "every byte content of the file", "why_tests_cant": "adversarial files", "anchors": ["src/bin_xml.cpp:XML_Item::Check"]}
{"id": "C32", "title": "The integrity check terminates on every file", "statement": "XML_Item::Check finishes with a verdict on every byte content.", "quantifier": "every byte content", "why_tests_cant": "cyclic structures are only met in corrupted files", "anchors": ["src/bin_xml.cpp:XML_Item::Check", "src/bin_xml.cpp:XML_Item::getChildByIndex"]}
{"id": "C33", "title": "Attribute values of every type the converter stores are read back", "statement": "For every attribute type the converter stores, the reader's getString / getData on that attribute yields the stored value.", "quantifier": "every value of every storable type, every position in the image", "why_tests_cant": "a type stored inline but read as an offset fails for all of its values, at data-dependent addresses", "anchors": ["src/bin_xml_creator.cpp:Bin_xml_creator::XStoreParamsEvent", "src/bin_xml.cpp:XML_Param_Description::getString", "src/bin_xml.cpp:XML_Param_Description::getStringChunk"]}
{"id": "C34", "title": "Appended records are read in order after every history of appends", "statement": "After any sequence of appends to a document that ends with the et-tecera element, iterating the children of the document yields the children converted originally, followed by all appended elements in the order of appending.", "quantifier": "every history of appends of elements of any size", "why_tests_cant": "alignment gaps depend on the sizes of all earlier appends", "anchors": ["src/bin_xml_creator.cpp:Bin_xml_creator::Append", "src/bin_xml.cpp:XML_Item::getNextChild"]}
{"id": "C35", "title": "A crash during an append loses at most that append", "statement": "If the process dies after any number of bytes of an append have reached the file, a reader still sees all earlier appends, completely and nothing else, and later appends to that file are readable.", "quantifier": "every crash point (byte) of every append in every history", "why_tests_cant": "crash points", "anchors": ["src/bin_xml_creator.cpp:Bin_xml_creator::Append", "src/bin_xml.cpp:XML_Item::getNextChild"]}
{"id": "C36", "title": "Packing keeps the document", "statement": "Sharing equal subtrees does not change the document: the tree read from the packed image equals the tree read from the unpacked one (assuming SHA-1 separates the different nodes of that document).", "quantifier": "every document", "why_tests_cant": "needs induction over arbitrary sharing patterns, including shared nodes inside shared nodes", "anchors": ["src/bin_xml_packer.cpp:Bin_xml_packer::MarkReferences", "src/bin_xml_packer.cpp:Bin_xml_packer::PackNode"]}
{"id": "C37", "title": "Packing never enlarges a document and stores equal subtrees once", "statement": "The packed image is not longer than the unpacked image, and no two stored nodes of it are duplicates of each other.", "quantifier": "every document", "why_tests_cant": "every document", "anchors": ["src/bin_xml_packer.cpp:Bin_xml_packer::MarkReferences", "src/bin_xml_packer.cpp:Bin_xml_packer::PackNode"]}
{"id": "C38", "title": "Packing keeps 64-bit values readable", "statement": "A 64-bit value of an element reads the same from the packed image as from the unpacked image.", "quantifier": "every document, every position of the element in the image", "why_tests_cant": "only elements that move by an odd multiple of four bytes fail", "anchors": ["src/bin_xml_packer.cpp:Bin_xml_packer::PackNode", "src/bin_xml_types.cpp:XBT_ToStringChunk", "include/binary_xml/bin_xml_types.h:AA8"]}
{"id": "C39", "title": "The converter's output buffer is large enough", "statement": "Converting any source never writes past the buffer of 1024 + 4*source-size bytes allocated for the image.", "quantifier": "every source document", "why_tests_cant": "overflow needs a document with many small elements; the margin of 1024 hides it on small tests", "anchors": ["src/bin_xml_creator.cpp:Bin_xml_creator::Make_xb", "src/bin_xml_creator.cpp:Bin_xml_creator::WriteNode"]}
{"id": "C40", "title": "Pool allocations are disjoint, aligned, zeroed and inside the pool", "statement": "After any history of allocations in an XBW pool, every successful allocation lies inside the pool's data area, is aligned as requested, was zero when handed out, and overlaps no other allocation or the pool header.", "quantifier": "every sequence of requests (sizes, alignments)", "why_tests_cant": "histories; overlap appears only for certain size residues", "anchors": ["src/bin_write_plugin.cpp:BW_pool::allocate", "src/bin_write_plugin.cpp:BW_pool::allocate8", "src/bin_write_plugin.cpp:BW_pool::new_element"]}
{"id": "C41", "title": "The children of an element form exactly the list the caller built", "statement": "After any sequence of add and join operations on elements, iterating the children forward with NextChild yields the added elements in the order of addition, iterating backward with PrevChild yields the reverse, and both iterations end.", "quantifier": "every sequence of operations and every list length", "why_tests_cant": "pointer structures of unbounded size", "anchors": ["src/bin_write_plugin.cpp:BW_element::add", "src/bin_write_plugin.cpp:BW_element::join", "src/bin_write_plugin.cpp:BW_element::NextChild", "src/bin_write_plugin.cpp:BW_element::PrevChild"]}
{"id": "C42", "title": "A concurrent or post-crash reader sees the old list or the new list", "statement": "At every point between the individual stores of join / add, a reader that iterates the children forward terminates and sees either all elements before the operation or all after it, never a mixture.", "quantifier": "every interruption point of the operation, lists of any length", "why_tests_cant": "crash points and interleavings", "anchors": ["src/bin_write_plugin.cpp:BW_element::join", "src/bin_write_plugin.cpp:BW_element::add", "src/bin_write_plugin.cpp:BW_element::NextChild"]}
{"id": "C43", "title": "Removing or replacing an element changes nothing else", "statement": "remove takes exactly the given element out of the list and keeps the order of the rest; replace puts the new element at the place of the old one; iteration still ends afterwards.", "quantifier": "every list and every position in it", "why_tests_cant": "single-element and first-element lists are the exceptional shapes in otherwise unbounded structures", "anchors": ["src/bin_write_plugin.cpp:BW_element::remove", "src/bin_write_plugin.cpp:BW_element::replace"]}
{"id": "C44", "title": "Setting a child value and reading it back gives the value and disturbs nothing else", "statement": "After tagSetInt32 / tagSetInt64 / tagSetString / tagSetTime on a child, the matching getter returns the value just set, the returned element is the one in the document, and no other element of the pool changes.", "quantifier": "every previous state and every sequence of sets", "why_tests_cant": "overwriting in place versus reallocating depends on the history of earlier values", "anchors": ["src/bin_write_plugin.cpp:BW_element::tagSetInt32", "src/bin_write_plugin.cpp:BW_element::tagSetString", "src/bin_write_plugin.cpp:BW_element::tagSetTime", "src/bin_write_plugin.cpp:BW_element::tagSetInt64"]}
{"id": "C45", "title": "Names registered in a pool are found again under the same id", "statement": "After registering any sequence of names by name, looking each up by name gives its id, looking the id up gives the name and its type; ids are dense and a name is registered once.", "quantifier": "every sequence of registrations", "why_tests_cant": "sequences; failures appear at byte-size boundaries of the id", "anchors": ["src/bin_write_plugin.cpp:BW_plugin::registerTag", "src/bin_write_plugin.cpp:BW_symbol_table_16B::getByName", "src/bin_write_plugin.cpp:BW_symbol_table_16B::getName", "src/bin_write_plugin.cpp:BW_symbol_table_16B::getNamesSize", "src/bin_write_plugin.cpp:BW_pool::makeTable"]}
{"id": "C46", "title": "Registering symbols under chosen ids succeeds on a new pool", "statement": "registerTag(id,name,type) / registerAttr on a freshly initialised pool registers the name under that id and reports success.", "quantifier": "every id sequence and every name", "why_tests_cant": "every use of the documented API on a new file", "anchors": ["src/bin_write_plugin.cpp:BW_plugin::registerTag", "src/bin_write_plugin.cpp:BW_plugin::registerAttr", "src/bin_write_plugin.cpp:BW_symbol_table_16B::Open"]}
{"id": "C47", "title": "Clearing a pool keeps the dictionary", "statement": "After Clear, every registered tag and attribute keeps its id, name and type, there is no root, and all data space is available again and zero.", "quantifier": "every reachable pool state", "why_tests_cant": "states are the result of arbitrary histories", "anchors": ["src/bin_write_plugin.cpp:BW_plugin::Clear"]}
{"id": "C48", "title": "A pool file can be reopened after a crash at any point", "statement": "If the process dies between any two stores or system calls of creating or enlarging the pool file, opening it again succeeds with the previous contents.", "quantifier": "every crash point of InitEmptyFile and makeSpace", "why_tests_cant": "crash points", "anchors": ["src/bin_write_plugin.cpp:BW_plugin::makeSpace", "src/bin_write_plugin.cpp:BW_plugin::InitEmptyFile", "src/bin_write_plugin.cpp:BW_plugin::CheckExistingFile"]}
{"id": "C49", "title": "The registry of open pools always maps a pool to its own plugin", "statement": "After any sequence of registering and unregistering plugins, looking up the pool of a registered plugin gives that plugin and unregistered ones are not found.", "quantifier": "every history of registrations", "why_tests_cant": "histories with unregistration of other than the last entry", "anchors": ["src/bin_write_plugin.cpp:BW_plugins::registerPlugin", "src/bin_write_plugin.cpp:BW_plugins::unregisterPlugin", "src/bin_write_plugin.cpp:BW_plugins::getPlugin"]}
{"id": "C50", "title": "Converting a pool to .xb keeps the attributes", "statement": "Converting an XBW pool to an .xb image keeps every attribute value of every element, in particular strings.", "quantifier": "all attribute lists", "why_tests_cant": "attribute lists of unbounded length; strings of unbounded length", "anchors": ["src/bin_xml_creator.cpp:Bin_xml_creator::XStoreBinParamsEvent", "src/bin_xml_types.cpp:XBT_Copy"]}
{"id": "C51", "title": "After makeSpace(n) succeeds, n bytes can be allocated", "statement": "When makeSpace(n) reports success the next allocation of n bytes from the pool succeeds, the file size stays within the mapped size, and existing contents do not move.", "quantifier": "every pool state and every n", "why_tests_cant": "page rounding and alignment boundaries", "anchors": ["src/bin_write_plugin.cpp:BW_plugin::makeSpace", "src/bin_write_plugin.cpp:BW_pool::allocate", "src/bin_write_plugin.cpp:BW_pool::allocate8"]}
{"id": "C52", "title": "JSON tokens lie inside the text and nest", "statement": "For every input text, every token a successful jsmn_parse reports has 0 <= start <= end <= length, a parent index smaller than its own, and lies inside its parent's span (keys' values: behind the key, in the same container).", "quantifier": "every byte string as input, every token-array size", "why_tests_cant": "all malformed inputs of a non-strict parser", "anchors": ["src/jsmn/jsmn.c:jsmn_parse", "src/jsmn/jsmn.c:jsmn_parse_string", "src/jsmn/jsmn.c:jsmn_parse_primitive"]}
{"id": "C53", "title": "The counting pass predicts the filling pass", "statement": "The number jsmn_parse returns when called without a token array equals the number of tokens the second call fills, so the array allocated between them is never too small and never overflows.", "quantifier": "every input text", "why_tests_cant": "all inputs; the passes follow different code paths", "anchors": ["src/jsmn/jsmn.c:jsmn_parse", "src/bin_json_plugin.cpp:Bin_json_plugin::Initialize"]}
{"id": "C54", "title": "Every well-formed JSON text is tokenised as its tree", "statement": "For every JSON value and any white space, jsmn_parse of its text yields the tokens of the value in preorder with the right kinds, spans, child counts and parents, and the subtree sizes computed from them delimit the subtrees.", "quantifier": "every JSON value of any depth and size", "why_tests_cant": "unbounded nested inputs", "anchors": ["src/jsmn/jsmn.c:jsmn_parse", "src/bin_json_plugin.cpp:Bin_json_plugin::jsmn_prepare_total_size"]}
{"id": "C55", "title": "Opening a JSON source never reads outside the token array", "statement": "Bin_json_plugin::Initialize either fails or prepares the document without touching tokens outside the array, for every text the tokenizer accepts.", "quantifier": "every input text", "why_tests_cant": "malformed but accepted texts", "anchors": ["src/bin_json_plugin.cpp:Bin_json_plugin::Initialize", "src/bin_json_plugin.cpp:jsmn_prepare_total_size"]}
{"id": "C56", "title": "Element names derived from JSON never overflow the name buffer and depend only on the key", "statement": "getNodeName writes inside the buffer allocated for the longest token, for every document, and the name of array items is the array's key with a plural 's' or 'List' removed or 'Item' appended.", "quantifier": "every token list", "why_tests_cant": "all key lengths and suffix combinations", "anchors": ["src/bin_json_plugin.cpp:Bin_json_plugin::getNodeName"]}
{"id": "C57", "title": "The text of a STRING value is delivered completely in pieces", "statement": "For every string and every buffer size, the concatenation of the pieces XBT_ToStringChunk delivers until it answers 0 is the string, each piece fits the buffer with its terminating NUL, and the loop ends.", "quantifier": "every string, every buffer size greater than 256", "why_tests_cant": "unbounded strings, boundary at exact multiples of the buffer size", "anchors": ["src/bin_xml_types.cpp:XBT_ToStringChunk"]}
{"id": "C58", "title": "Integers read from documents are not confused with the NULL marker", "statement": "An INT32 attribute or element value read with the integer getters equals the stored value for every 32-bit value, and a missing value is distinguishable.", "quantifier": "all 2^32 values", "why_tests_cant": "the colliding value is a single point", "anchors": ["src/bin_xml.cpp:XML_Item::getInt", "src/bin_xml.cpp:XML_Item::getIntPtr", "include/binary_xml/bin_xml.h:INT32_NULL"]}
{"id": "C59", "title": "Fields are cut and stored exactly", "statement": "ScanStr skips leading white space, stores the characters up to the separator (truncated to the buffer minus its NUL), never stores more than the buffer holds, and leaves the position just after the separator; EatEnd removes a given ending exactly when the text has it.", "quantifier": "all texts, separators and buffer sizes of at least one", "why_tests_cant": "unbounded texts and all buffer sizes", "anchors": ["src/utils.cpp:ScanStr", "src/utils.cpp:EatEnd"]}
{"id": "C60", "title": "A JSON source shows the tree of the text", "statement": "For every well-formed JSON text the document opened from it has, at every element, the name, the value and the children of the JSON value: members are named by their keys, items of arrays by the singular of the array's key, scalars have their text as the value; the recursive traversal meets the elements in the order of the text with the right depths.", "quantifier": "every JSON value of any depth and size, any white space", "why_tests_cant": "unbounded nested inputs and all key spellings", "anchors": ["src/bin_json_plugin.cpp:getNodeName", "src/bin_json_plugin.cpp:getNodeValue", "src/bin_json_plugin.cpp:ForAllChildren", "src/bin_json_plugin.cpp:ForAllChildrenRecursively"]}
{"id": "C61", "title": "Dictionaries and document lists of a pool survive any interleaving", "statement": "In a pool, whatever order names are registered and indexed, elements are made, filled, added, joined, removed and replaced, and the pool is cleared: every registered name is found by name and by id with its type, no other name is found, every list of children is iterated completely and in order in both directions, and registering or indexing names changes no byte of any element.", "quantifier": "all histories of registrations, indexing, element operations and clearing, of any length", "why_tests_cant": "unbounded interleavings of two families of operations that share one allocator", "anchors": ["src/bin_write_plugin.cpp:BinaryWritePlugin::registerTag", "src/bin_write_plugin.cpp:BinaryWritePlugin::allRegistered", "src/bin_write_plugin.cpp:BW_pool::makeTable", "src/bin_write_plugin.cpp:BW_element::add", "src/bin_write_plugin.cpp:BW_element::remove", "src/bin_write_plugin.cpp:BinaryWritePlugin::Clear"]}
{"id": "C62", "title": "An added attribute is stored, found and disturbs nothing", "statement": "Adding an attribute value to a pool element under a registered name of a fitting type makes it the last attribute of the element; looking up that name then finds it, and getData and the typed getters deliver exactly the value that was given. All other elements, attributes and lists keep their content. A value of another type, or one for which there is no room, is refused and leaves everything as it was.", "quantifier": "all pool histories, elements, attribute lists, names, types and values", "why_tests_cant": "unbounded pool histories and values; interplay of allocator growth, dictionaries and ring lists", "anchors": ["src/bin_write_plugin.cpp:BW_element::attrNull", "src/bin_write_plugin.cpp:BW_element::attrStr", "src/bin_write_plugin.cpp:BW_element::attrStr2", "src/bin_write_plugin.cpp:BW_element::attrBLOB", "src/bin_write_plugin.cpp:BW_element::attrInt32", "src/bin_write_plugin.cpp:BW_element::attrInt64", "src/bin_write_plugin.cpp:BW_element::attrTime", "src/bin_write_plugin.cpp:BW_element::attrGet", "src/bin_write_plugin.cpp:BW_element::getData"]}
{"id": "C63", "title": "A pool is converted into an XB file with the same content", "statement": "Converting a pool whose names are registered and indexed and whose root is set produces an XB file that opens and contains exactly the tree of the root: the same element and attribute names, types and values, attributes and children in the same order. The buffer reserved for the conversion is always large enough.", "quantifier": "all pool histories, trees of any size and depth, all types and values the converter supports, file names and times", "why_tests_cant": "unbounded histories and trees; whether a buffer sized by a fixed factor suffices depends on the sum over all elements and names", "anchors": ["src/bin_write_plugin.cpp:BW_plugin::getNodeName", "src/bin_write_plugin.cpp:BW_plugin::ForAllChildren", "src/bin_write_plugin.cpp:BW_plugin::ForAllBinParams", "src/bin_write_plugin.cpp:BW_plugin::getSymbol", "src/bin_write_plugin.cpp:BW_pool::getTagName", "src/bin_write_plugin.cpp:BW_pool::getAttrName", "src/bin_write_plugin.cpp:BW_plugin::setRoot", "src/bin_xml_creator.cpp:Bin_xml_creator::Make_xb"]}
{"id": "C64", "title": "A printed document is XML with the same content", "statement": "Writing an opened document to a stream (XML_Item::write, the stream operator of the reader) produces well-formed XML which, read as XML, has the same elements, attributes, values and order as the document. The output depends on the document only, not on memory the printer happened to use before. This holds for converted, packed and appended documents.", "quantifier": "all documents of any size and depth, all names, attributes and values, all previous contents of the printer's buffer", "why_tests_cant": "any text may occur in values and attributes; output must be well-formed for every tree; the contents of an uninitialised buffer cannot be chosen by a test", "anchors": ["src/bin_xml.cpp:XML_Item::write", "src/bin_xml.cpp:operator<<", "src/bin_xml.cpp:XML_Item::getStringChunk", "src/bin_xml.cpp:XML_Param_Description::getStringChunk"]}
{"id": "C65", "title": "A printed source is XML with the same content", "statement": "Writing a source to a stream before it is converted (the stream operator of Bin_src_plugin) produces well-formed XML which, read as XML, has the same elements, attributes, values and order as the source. For pools this holds after any history of the pool's operations and for every type of value; for sources of texts it holds for every element.", "quantifier": "all histories of a pool, all trees of any size and depth, all names, attributes and values of all types, all previous contents of the printer's buffer", "why_tests_cant": "any bytes may occur in values, long values come in pieces, and the output must be well-formed for every tree a pool's history can build", "anchors": ["src/bin_xml_creator.cpp:operator<<", "src/bin_xml_creator.cpp:Bin_src_plugin::s_On2Stream", "src/bin_xml_creator.cpp:Bin_src_plugin::s_OnBinParam2Stream", "src/bin_xml_types.cpp:XBT_ToXMLStream", "src/bin_write_plugin.cpp:BW_plugin::getNodeBinValue"]}
{"id": "C66", "title": "Making an element gives it its value", "statement": "Making an element with tag, tagStr, tagBLOB, tagHEX, tagInt32, tagInt64, tagFloat, tagGUID, tagSHA1, tagTime or tagTime64 under a registered name of the right type yields a new element on its own whose name, type and value are the ones given: getData and the getter for the type deliver the value. Everything that was in the pool stays byte for byte, and a name of another type is refused without any effect. It succeeds whenever the file can grow.", "quantifier": "all histories of the pool, all calls, all names and types, all values of any length, both outcomes of growing the file", "why_tests_cant": "the value must be there and the rest untouched for every earlier history, every size of value and every position at the end of the file", "anchors": ["src/bin_write_plugin.cpp:BW_plugin::tag", "src/bin_write_plugin.cpp:BW_plugin::tagStr", "src/bin_write_plugin.cpp:BW_plugin::tagBLOB", "src/bin_write_plugin.cpp:BW_plugin::tagInt32", "src/bin_write_plugin.cpp:BW_plugin::makeSpace"]}
{"id": "C67", "title": "Copying a part of a document into a pool", "statement": "Copying an item of an open document into an empty element of a pool of the same name, with the same dictionaries, gives this element the attributes of the item and copies of all its children with everything below them: the same names, types, values and order. Nothing else in the pool changes, and an element that is not empty or has another name is refused without any effect. If something cannot be copied, the caller is told.", "quantifier": "all documents, all items of any depth and size, all histories of the pool, both outcomes of growing the file", "why_tests_cant": "the copy must be complete and the rest of the pool untouched for every shape of document and every history of the pool, and the file may have to grow in the middle of it", "anchors": ["src/bin_write_plugin.cpp:BW_plugin::CopyAll", "src/bin_write_plugin.cpp:BW_plugin::tagData", "src/bin_write_plugin.cpp:BW_element::attrData", "src/bin_write_plugin.cpp:BW_element::attrCopy"]}
{"id": "C68", "title": "Importing the names of a document into a pool", "statement": "Importing the element or attribute names of an open document into a pool adds those the pool does not know yet, in their order; a known name keeps its id, and every name gets a type that covers both. Into a pool without names the document's names come with the same ids. No element of the pool changes, names registered later are still found, and a name that cannot be taken is reported.", "quantifier": "all documents, all dictionaries, all histories of the pool, whether there is room or not", "why_tests_cant": "the ids must fit for every dictionary and every history, and elements that are in the pool already must not be touched when the table of names is moved", "anchors": ["src/bin_write_plugin.cpp:BW_plugin::importTags", "src/bin_write_plugin.cpp:BW_plugin::importParams", "src/bin_write_plugin.cpp:BW_plugin::registerTag", "src/bin_write_plugin.cpp:BW_plugin::registerParam"]}
{"id": "C69", "title": "Comparing and copying the keys of an item", "statement": "An element of a pool and an item of an open document are found equal exactly if they have the same key attributes with the same types and values; which attributes are keys is the client's choice. Copying the keys of an item into an empty element of the same name gives it exactly these keys, so that both are found equal afterwards; nothing else in the pool changes, and a failure is reported.", "quantifier": "all documents, all items, all choices of the keys, all histories of the pool", "why_tests_cant": "the answer must be right for every set and order of attributes on both sides and any number of keys; a test compares a few of them", "anchors": ["src/bin_write_plugin.cpp:BW_element::EqualKeys", "src/bin_write_plugin.cpp:BW_element::CopyKeys", "src/bin_xml_types.cpp:XBT_Equal", "src/bin_xml.cpp:XB_reader::ParamIsKey"]}
{"id": "C70", "title": "Copying a path of a document into a pool", "statement": "Copying the path from the root of an open document down to one of its items into a pool finds or makes an element for each item of the path, under the element of the item above, by name and keys, and returns the one for the last item, with the content of the item if that was asked for. Everything that was in the pool stays as it is but for the new child. Copying the same path again finds the same element and changes nothing. If something cannot be made, the caller is told.", "quantifier": "all documents, all paths of any length, all choices of the keys, all histories of the pool, both outcomes of growing the file", "why_tests_cant": "idempotence and the absence of side effects must hold for every pool that may contain any part of the path already", "anchors": ["src/bin_write_plugin.cpp:BW_plugin::CopyPath", "src/bin_write_plugin.cpp:BW_plugin::CopyPathOnly", "src/bin_write_plugin.cpp:BW_plugin::CopyPath_"]}
{"id": "C71", "title": "Converting a text document into a writable pool", "statement": "Converting an XML or JSON document into the file of a writable pool either fails and says so, or gives a sound pool whose root shows the document: the same elements and attributes in the same order, with their names, each value converted to the type that fits all values of its name. Every document that can be numbered and fits is converted, without a crash and without ending the process.", "quantifier": "all documents of any size and depth, all earlier contents of the destination file, both outcomes of growing the file", "why_tests_cant": "the order, the links and the values must come out right for every tree; a test cannot cover all mixtures of names with and without values and all types", "anchors": ["src/bin_xml_creator.cpp:Bin_xml_creator::Make_xbw", "src/bin_xml_creator.cpp:Bin_xml_creator::XStore2XBWEvent", "src/bin_xml_creator.cpp:Bin_xml_creator::XBWStoreParamsEvent", "src/bin_xml_creator.cpp:Bin_xml_creator::XBWStoreChildrenEvent"]}
{"id": "C72", "title": "Traversing an open document", "statement": "The recursive traversals of an item of an open document call the client's function exactly once for every item below it in the tree, with its depth below the start: parents before their children in the plain traversal, children before their parents in the other two. The variant with an array delivers in it, at every call, the items on the way from the start to the current one, and never writes outside the array. For a converted document the items come in the order of the source, with its names.", "quantifier": "all documents with a finite tree of items, of any width and depth, all start items and start depths, all converted documents", "why_tests_cant": "order, completeness and the contents of the array must be right for every shape of the tree", "anchors": ["src/bin_xml.cpp:XML_Item::ForAllChildrenRecursively", "src/bin_xml.cpp:XML_Item::ForAllChildrenRecursively_PostOrder", "src/bin_xml.cpp:XML_Item::ForAllChildrenRecursively_PostOrderA"]}
{"id": "C73", "title": "Looking for a child of a pool element", "statement": "Looking for a child of an element of a pool by its name and the value of an attribute returns the first child, in their order, that has this name and an attribute with this name and exactly this value; NULL is returned exactly if there is none. Looking by name alone returns the first child, or the first attribute, with this name. Nothing outside the pool and the client's value is read.", "quantifier": "all histories of a pool, all elements, names, value types and values", "why_tests_cant": "a value of any type and any length among any number of children and attributes must be told from all others", "anchors": ["src/bin_write_plugin.cpp:BW_element::findChildByParam", "src/bin_write_plugin.cpp:BW_element::findChildByTag", "src/bin_write_plugin.cpp:BW_element::findAttr", "src/bin_xml_types.cpp:XBT_Compare"]}
{"id": "C74", "title": "Setting the text of a child", "statement": "Setting the text of a child or attribute of an element of a pool makes this item have the text, whatever the length of the old and the new one: it has the same name, attributes and children, and the same place among its siblings. Nothing else in the pool changes. Setting the text it has already has no effect. If there is no space the call fails and nothing changes.", "quantifier": "all histories of a pool, all elements with a text, all texts", "why_tests_cant": "the new text may be longer or shorter than any space the history has left for the old one, in any surrounding", "anchors": ["src/bin_write_plugin.cpp:BW_element::setStr", "src/bin_write_plugin.cpp:BW_element::getData"]}
{"id": "C75", "title": "Other types for elements and names of a pool", "statement": "An element can be given another type exactly if values of both types have the same layout. Its name, value and place stay the same and it can be read under the new type; a refused change has no effect. A registered name can be given another type exactly if values of the old type convert to the new one; later look-ups deliver the new type, the other names and all elements stay the same, and the values stored before can still be read.", "quantifier": "all histories of a pool, all elements, all names, all pairs of types", "why_tests_cant": "there are hundreds of pairs of types, and the change must keep every element of any pool readable", "anchors": ["src/bin_write_plugin.cpp:BW_element::retype", "src/bin_write_plugin.cpp:BW_plugin::alterTag", "src/bin_write_plugin.cpp:BW_plugin::alterAttr", "src/bin_xml_types.cpp:XBT_ConvertableType"]}
{"id": "C76", "title": "Converting a JSON text", "statement": "Converting a JSON text into a document succeeds and the document shows the tree of the text: a member is an element with its key as the name, the items of an array have the name of items, strings and primitives are the values, in the order of the text. This does not depend on the compiler.", "quantifier": "all JSON texts, all contents of the buffers, both orders of evaluation", "why_tests_cant": "the trees, names and values are unlimited, and a test runs with one compiler only", "anchors": ["src/bin_xml_creator.cpp:Bin_xml_creator::Make_xb", "src/bin_xml_creator.cpp:Bin_xml_creator::SecondPassEvent", "src/bin_xml_creator.cpp:Bin_xml_creator::WriteNode", "src/bin_json_plugin.cpp:Bin_json_plugin::getNodeName", "src/bin_json_plugin.cpp:Bin_json_plugin::getNodeValue"]}
{"id": "C77", "title": "Making the directories of a path", "statement": "When making the directories of a path succeeds, the directory the path names and all directories above it exist; it succeeds if nothing is in the way; nothing that exists is changed and nothing but directories is made.", "quantifier": "all paths (also with '.', '..' and double slashes), all file systems, all actions of other processes between the steps, all refusals", "why_tests_cant": "paths and file systems are unlimited and other processes act at any moment", "anchors": ["src/files.cpp:force_directory"]}
{"id": "C78", "title": "Scanning a directory", "statement": "Scanning a directory calls the callback for every entry except '.' and '..' exactly once, in the order they are delivered, until the callback stops it; a scan that the callback stops is a success, and the directory is closed in every case.", "quantifier": "all directories, all callbacks and their states, all errors of the system", "why_tests_cant": "callbacks and sequences of entries are unlimited; errors of the system are rare", "anchors": ["src/files.cpp:scan_dir"]}
{"id": "C79", "title": "Reading a whole file", "statement": "Reading a file into memory returns exactly the contents of the file, terminated by NUL, and its size, or nothing at all; reading it into a buffer gives its first bytes, as many as the result says, terminated by NUL.", "quantifier": "all contents, all sizes, files that change between the steps, all short or failing reads", "why_tests_cant": "short reads and files that change meanwhile depend on the system and the schedule", "anchors": ["src/utils.cpp:ReadFile", "src/files.cpp:file_get_contents"]}
{"id": "C80", "title": "Choosing the source and the result of a conversion", "statement": "The reader for the source of a conversion is chosen by the extension of its name; the conversion makes the kind of file asked for, under the name given with the extension of that kind; a source of an unknown kind or a missing name is an error that is reported.", "quantifier": "all names of sources and results, both kinds of results, all constructors", "why_tests_cant": "names are unlimited", "anchors": ["src/bin_xml_packer.cpp:Bin_src_plugin_selector", "src/bin_xml_creator.cpp:Bin_xml_creator::Bin_xml_creator", "src/bin_xml_creator.cpp:Bin_xml_creator::DoAll"]}
{"id": "C81", "title": "Printing a source to the standard output", "statement": "What printing a source writes is XML that says the same as the source: its elements, attributes, values and their order.", "quantifier": "all documents that XML can express", "why_tests_cant": "documents, their depth and texts are unlimited", "anchors": ["src/bin_xml_creator.cpp:Bin_src_plugin::print", "src/bin_xml_creator.cpp:Bin_src_plugin::s_PrintElement", "src/bin_xml_creator.cpp:Bin_src_plugin::s_PrintParam"]}
{"id": "C82", "title": "Making an element of any type from a text", "statement": "tagAny with the size the library computes for a text makes a new element of the given name and type that holds the converted text, and changes nothing else in the pool; if it returns null, nothing has changed.", "quantifier": "all pools with any history, all names, types and texts", "why_tests_cant": "histories of a pool and texts are unlimited", "anchors": ["src/bin_write_plugin.cpp:BW_pool::tagAny", "src/bin_xml_types.cpp:XBT_FromString", "src/bin_xml_types.cpp:XBT_SizeFromString"]}
{"id": "C83", "title": "Scanning the items of a line", "statement": "A table written as lines of words, numbers and separated texts is read back item by item; each scanner accepts exactly what is written there and moves behind it, and moves only over blanks when it reports failure.", "quantifier": "all texts, all lists of items and lines, all sizes of the buffer", "why_tests_cant": "texts and combinations of items are unlimited", "anchors": ["src/utils.cpp:ScanW", "src/utils.cpp:ScanIntW", "src/utils.cpp:ScanInt64W", "src/utils.cpp:ScanUInt64W", "src/utils.cpp:ScanStrW", "src/utils.cpp:SkipLineW"]}
{"id": "C84", "title": "Comparing and copying texts", "statement": "streq says whether two texts have the same characters, with null as the empty text. StrWrite copies a text exactly if it fits into the buffer and moves both positions behind it, and otherwise changes nothing, so pieces written one after another give their concatenation.", "quantifier": "all texts, pieces and sizes of the buffer", "why_tests_cant": "texts and sequences of pieces are unlimited", "anchors": ["src/utils.cpp:streq", "src/utils.cpp:StrWrite"]}
{"id": "C85", "title": "The self test of the value types", "statement": "The self test counts no failure for a value exactly if its text can be stored, has the expected image and is printed again from what was stored, and the verdict over all values is true exactly if no value failed.", "quantifier": "all types, texts, expected images, contents of uninitialised memory and lists of tests", "why_tests_cant": "it is the test itself whose verdict is in question, for every outcome of the conversions", "anchors": ["src/bin_xml_types.cpp:XBT_TestType", "src/bin_xml_types.cpp:XBT_Test"]}
{"id": "C86", "title": "Sharing files as memory", "statement": "A file shared as memory shows the bytes the file has, writing to the memory writes the file if it was shared for writing, and after any history of sharing and giving back exactly the files still shared hold a descriptor and memory; writing a text to a file leaves exactly this text in it and nothing open.", "quantifier": "all histories of sharing, giving back in any order, writing and changes of files, all answers of the operating system", "why_tests_cant": "leaks show only for certain descriptors, failures and orders", "anchors": ["src/utils.cpp:ShareFileRO", "src/utils.cpp:ShareFileRW", "src/utils.cpp:s_ShareFile", "src/utils.cpp:CloseSharedFile", "src/utils.cpp:WriteToFile"]}
{"id": "C87", "title": "Identifying numbers", "statement": "The generated 64-bit numbers are in range and never negative, no two draws of random numbers give the same number, the numbers of a series are different, and every bit depends on what was drawn.", "quantifier": "all random draws, clocks and lengths of a series", "why_tests_cant": "collisions of 64-bit numbers are not met by a test", "anchors": ["src/utils.cpp:genI64", "src/utils.cpp:genU64", "src/utils.cpp:s_init_base_xor_value"]}
{"id": "C88", "title": "The buffer for long texts", "statement": "The common output buffer always has room for the text of a BLOB or HEX value, whatever was printed before.", "quantifier": "all contents, sizes and histories of requests", "why_tests_cant": "sizes at which the computed room is too small need values of a gigabyte", "anchors": ["src/bin_xml_types.cpp:XBT_Buffer", "src/bin_xml_types.cpp:XBT_ToString", "src/bin_xml_types.cpp:XBT_Free"]}
{"id": "C89", "title": "XML documents reach the converter whole", "statement": "Of every XML document the converter gets all elements in document order with their names and name spaces, all attributes with their names and whole values in order, and the character data of every element without the white space in front, and nothing else; no document makes it crash.", "quantifier": "all XML documents, as trees of elements, texts, CDATA sections, comments, instructions and references of any depth", "why_tests_cant": "unbounded documents; the losses need particular neighbours (a comment before a text, a reference inside a value, two prefixes)", "anchors": ["src/bin_xml_plugin.cpp:Bin_xml_plugin::getNodeValue", "src/bin_xml_plugin.cpp:Bin_xml_plugin::ForAllChildren", "src/bin_xml_plugin.cpp:Bin_xml_plugin::ForAllChildrenRecursively", "src/bin_xml_plugin.cpp:Bin_xml_plugin::ForAllParams"]}
{"id": "C90", "title": "The tools treat every file they are given", "statement": "2xb and 2xbw convert every file named on the command line and report failure by the exit code if one of them cannot be converted; xb2xml asks for a mapping in which the pool has room, whatever its size.", "quantifier": "all command lines, all outcomes of the conversions, all sizes of pools", "why_tests_cant": "needs more than one file, or files of more than a gigabyte", "anchors": ["src/tests/2xb.cpp:main", "src/tests/2xbw.cpp:main", "src/tests/xb2xml.cpp:main"]}
{"id": "C91", "title": "XML through the converter and back", "statement": "Converting an XML text to a binary file and printing that file as XML gives a text that says the same: the same elements, attributes, values and order; converting it into a pool gives a pool that mirrors what the text says.", "quantifier": "all XML texts (of the subset the specification's reader accepts), all buffers and file names", "why_tests_cant": "composition of parser tree, converter, file format, reader and printer over unbounded texts", "anchors": ["src/bin_xml_plugin.cpp:Bin_xml_plugin", "src/bin_xml_creator.cpp:Bin_xml_creator::Make_xb", "src/bin_xml_creator.cpp:Bin_xml_creator::Make_xbw", "src/bin_xml.cpp:operator<<", "src/tests/2xb.cpp:main", "src/tests/xb2xml.cpp:main"]}
{"id": "C92", "title": "JSON texts into pools", "statement": "Converting a JSON text into a writable pool gives a pool with the tree of the text; if that is not possible, the file keeps what it had.", "quantifier": "all texts, all files before, both orders in which a compiler may compute arguments, all amounts of free disk space", "why_tests_cant": "the claim ranges over all texts; that none is ever converted needs an invariant of the tokenizer", "anchors": ["src/bin_xml_creator.cpp:Bin_xml_creator::Make_xbw", "src/bin_xml_creator.cpp:Bin_xml_creator::XStore2XBWEvent", "src/bin_json_plugin.cpp:Bin_json_plugin::getNodeName", "src/jsmn/jsmn.c:jsmn_parse"]}
{"id": "C93", "title": "Numbers behind returned pointers stay", "statement": "A getter that returns a pointer to a number of an attribute or element points to that number, and the number read through the pointer stays the same while further numbers are fetched, from the same or other files.", "quantifier": "all converted documents, all attributes and elements, all later sequences of calls of the four getters, all earlier ones", "why_tests_cant": "the claim ranges over all histories of calls; a test that reads each number at once never sees a pointer that is overwritten later", "anchors": ["src/bin_xml.cpp:XML_Param_Description::getInt32Ptr", "src/bin_xml.cpp:XML_Param_Description::getInt64Ptr", "src/bin_xml.cpp:XML_Item::getIntPtr", "src/bin_xml.cpp:XML_Item::getInt64Ptr"]}
{"id": "C94", "title": "A closed pool opens as it was", "statement": "A pool file that a program has filled and closed is opened by the next program without a failure, whatever pool size that program asks for, and all its bytes are unchanged: all names, ids, types and elements are there. If the program asks for a new file instead, the pool is empty.", "quantifier": "all histories of registrations, new elements, values, attributes, lists, removals, replacements, imports, retyping and Clear; all requested sizes", "why_tests_cant": "the checks at opening must accept the outcome of every history of the pool", "anchors": ["src/bin_write_plugin.cpp:BW_plugin::Initialize", "src/bin_write_plugin.cpp:BW_plugin::CheckExistingFile", "src/bin_write_plugin.cpp:BW_symbol_table_16B::check"]}
{"id": "C95", "title": "Registering in an opened pool tells whether the names agree", "statement": "In a pool that was opened again, registering a name under an id and with a type succeeds if and only if the pool has that name with that id and that type, and allRegistered succeeds if and only if all registrations did.", "quantifier": "all histories of the pool, all sequences of registrations", "why_tests_cant": "ranges over all pools and all programs that register names", "anchors": ["src/bin_write_plugin.cpp:BW_plugin::registerTag", "src/bin_write_plugin.cpp:BW_plugin::registerAttr", "src/bin_write_plugin.cpp:BW_plugin::allRegistered"]}
{"id": "C96", "title": "Opening a file that is no pool leaves it", "statement": "Opening a file that does not have the title of a pool fails and does not change the file.", "quantifier": "all contents of the file, all requested sizes", "why_tests_cant": "all files that are not pools", "anchors": ["src/bin_write_plugin.cpp:BW_plugin::Initialize", "src/bin_write_plugin.cpp:BW_plugin::InitEmptyFile", "src/bin_write_plugin.cpp:BW_plugin::CheckExistingFile"]}
{"id": "C97", "title": "Walks through a pool", "statement": "A recursive walk through a pool hands over the element it starts from and everything below it, each once, parents before children and children in their order, with their depths; the walk through the attributes of an element hands over exactly its attributes.", "quantifier": "all histories of a pool, all elements, all depths", "why_tests_cant": "ranges over all trees that a pool can hold after any history", "anchors": ["src/bin_write_plugin.cpp:BW_plugin::ForAllChildrenRecursively", "src/bin_write_plugin.cpp:BW_plugin::ForAllParams"]}
{"id": "C98", "title": "The data size of a pool", "statement": "The data size that a pool reports is at least the space of all its elements, fits into the file, and is zero as long as there is no element.", "quantifier": "all histories of a pool", "why_tests_cant": "the size must be right after every history of the pool", "anchors": ["src/bin_write_plugin.cpp:BW_plugin::getDataSize", "src/bin_write_plugin.cpp:BW_symbol_table_16B::getNamesSize"]}
{"id": "C99", "title": "Checking the types of a pool", "statement": "CheckAndUpdateTypes succeeds only if afterwards every element of the document has the type that its tag is registered with.", "quantifier": "all histories of a pool", "why_tests_cant": "ranges over all documents and all changes of registered types", "anchors": ["src/bin_write_plugin.cpp:BW_plugin::CheckAndUpdateTypes", "src/bin_write_plugin.cpp:BW_plugin::s_OnCheckTypes", "src/bin_write_plugin.cpp:BW_plugin::s_OnUpdateTypes"]}
{"id": "C100", "title": "A pool survives a kill while elements are linked", "statement": "If the process is killed between any two stores of add, join, remove or replace, the next process opens the pool file, and its root, its dictionaries and the ids, types and values of all elements are as before.", "quantifier": "every history of a pool, every operation on it, every point at which the process dies", "why_tests_cant": "crash points in all pool states", "anchors": ["src/bin_write_plugin.cpp:BW_element::add", "src/bin_write_plugin.cpp:BW_element::join", "src/bin_write_plugin.cpp:BW_element::remove", "src/bin_write_plugin.cpp:BW_element::replace", "src/bin_write_plugin.cpp:BW_plugin::Initialize", "src/bin_write_plugin.cpp:BW_plugin::CheckExistingFile"]}
{"id": "C101", "title": "Elements added after a kill are in the document", "statement": "If the process is killed while it adds an element, an element that a later process adds to the same parent is among its children.", "quantifier": "every history of a pool, every parent, every point at which the process dies", "why_tests_cant": "crash points in all pool states, followed by another operation", "anchors": ["src/bin_write_plugin.cpp:BW_element::add", "src/bin_write_plugin.cpp:BW_element::join", "src/bin_write_plugin.cpp:BW_element::NextChild"]}
{"id": "C102", "title": "A kill while elements are removed or replaced leaves the old or the new children", "statement": "If the process is killed between any two stores of remove or replace, iterating the children of any element terminates and gives those from before or those from after the operation.", "quantifier": "every history of a pool, every element removed or replaced, every point at which the process dies", "why_tests_cant": "crash points for every position in lists of any length", "anchors": ["src/bin_write_plugin.cpp:BW_element::remove", "src/bin_write_plugin.cpp:BW_element::replace", "src/bin_write_plugin.cpp:BW_element::NextChild"]}
{"id": "C103", "title": "The checks of a pool accept every pool the library made", "statement": "The check of the identification and the check of a symbol table succeed on every pool the library has created and used.", "quantifier": "every history of a pool", "why_tests_cant": "all histories, all dictionaries", "anchors": ["src/bin_write_plugin.cpp:BW_pool::check_id", "src/bin_write_plugin.cpp:BW_pool::checkTable"]}
{"id": "C104", "title": "Errors in a pool can be reported", "statement": "Reporting an error in a pool terminates and names the document: by the tag of its root, or by its file as long as it has no root.", "quantifier": "every history of a pool, every root", "why_tests_cant": "all pool states, and a report that does not terminate", "anchors": ["src/bin_write_plugin.cpp:BW_pool::getDocTypeName", "src/bin_write_plugin.cpp:BW_symbol_table_16B::getName", "src/bin_write_plugin.cpp:BW_plugin::setRoot", "src/bin_write_plugin.cpp:BW_pool::tagAny", "include/binary_xml/macros.h:ASSERT_NO_"]}
{"id": "C105", "title": "A kill while a name is registered leaves the dictionary as it was or with the new name", "statement": "Whenever the program is killed while it registers a new tag or attribute name, the next program opens the pool and finds the dictionary as it was or with exactly the new name; the elements are untouched.", "quantifier": "every history of a pool, every new name and type, every store of the registration", "why_tests_cant": "all histories, names and crash points", "anchors": ["src/bin_write_plugin.cpp:BW_plugin::registerTag", "src/bin_write_plugin.cpp:BW_plugin::registerParam", "src/bin_write_plugin.cpp:BW_symbol_table_16B::Open", "src/bin_write_plugin.cpp:BW_symbol_table_16B::getNamesSize", "src/bin_write_plugin.cpp:BW_pool::allocate"]}
{"id": "C106", "title": "After a kill while a name was registered names can be registered again", "statement": "When the program was killed while it registered a name, a later program registers this name, if there is room for it.", "quantifier": "every history of a pool, every new name and type, every store of the registration", "why_tests_cant": "all histories, names and crash points", "anchors": ["src/bin_write_plugin.cpp:BW_plugin::registerTag", "src/bin_write_plugin.cpp:BW_plugin::registerParam", "src/bin_write_plugin.cpp:BW_symbol_table_16B::Open", "src/bin_write_plugin.cpp:BW_symbol_table_16B::getNamesSize", "src/bin_write_plugin.cpp:BW_pool::allocate"]}
{"id": "C107", "title": "A kill while an element is made leaves the document and the names", "statement": "Whenever the program is killed while it makes an element, with or without a value, the next program opens the pool and finds the dictionaries, the root and every element as they were.", "quantifier": "every history of a pool, every tag, type and value, every store of making the element", "why_tests_cant": "all histories, values and crash points", "anchors": ["src/bin_write_plugin.cpp:BW_pool::new_element", "src/bin_write_plugin.cpp:BW_element::init", "src/bin_write_plugin.cpp:BW_pool::allocate8", "src/bin_write_plugin.cpp:BW_pool::allocate", "src/bin_write_plugin.cpp:BW_pool::makeSpace", "src/bin_write_plugin.cpp:BW_pool::tag", "src/bin_write_plugin.cpp:BW_pool::tagInt32", "src/bin_write_plugin.cpp:BW_pool::tagInt64", "src/bin_write_plugin.cpp:BW_pool::tagString", "src/bin_write_plugin.cpp:BW_pool::tagTime", "src/bin_write_plugin.cpp:BW_pool::tagSHA1"]}
