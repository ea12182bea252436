{"id": "C01", "title": "Binary reader primitives are exact and all-or-nothing", "statement": "Reading n bytes (or a little-endian u8/u16/u32/u64/u128) from the cursor succeeds exactly when at least n bytes remain, returns precisely the first n bytes (or the little-endian number they spell) and leaves precisely the remaining bytes; otherwise it reports UnexpectedEof. The integer returned is always below 2^(8n), and every such integer is returned for its little-endian encoding.", "quantifier": "every byte buffer, every cursor position, every width", "why_tests_cant": "the claim is about all buffer lengths and all byte contents, including the boundary just before the end", "anchors": ["src/reader.rs: Reader::read, advance, get_u8..get_u128"]}
{"id": "C02", "title": "Compact unsigned 64-bit integers decode to the encoded value for every value and width", "statement": "For every u64 and every one of the nine MS-FSSHTTPB compact encodings wide enough for it, decoding the encoding followed by any bytes returns that value and leaves exactly the following bytes. Whatever bytes are decoded, the value is below 2^64.", "quantifier": "all u64 values, all nine encodings, all trailing bytes, all byte strings", "why_tests_cant": "2^64 values times nine formats; the unit tests use one literal per format", "anchors": ["src/fsshttpb/data/compact_u64.rs: CompactU64::parse"]}
{"id": "C03", "title": "Extended GUIDs decode to the encoded GUID and number in all five forms", "statement": "For every GUID and every 32-bit number, each of the five MS-FSSHTTPB ExGuid forms wide enough for the number decodes to that (GUID, number) and leaves exactly what follows; a first byte that is none of the five form tags is rejected as malformed data, for every such byte.", "quantifier": "all GUIDs, all u32 numbers, all five forms, all trailing bytes, all 256 first bytes", "why_tests_cant": "2^160 identifiers; a wrong shift only shows for some numbers", "anchors": ["src/fsshttpb/data/exguid.rs: ExGuid::parse"]}
{"id": "C04", "title": "GUID byte order", "statement": "Decoding the 16-byte mixed-endian form of a GUID yields the GUID (round trip for all 2^128 GUIDs), distinct 16-byte strings yield distinct GUIDs, and the first three textual groups are byte-swapped while the last eight bytes are kept in order.", "quantifier": "all 2^128 GUIDs / 16-byte strings", "why_tests_cant": "a swapped pair of bytes is only visible on GUIDs whose bytes differ there", "anchors": ["src/shared/guid.rs: Guid::parse, nil, is_nil"]}
{"id": "C05", "title": "Ink multi-byte integer streams round-trip", "statement": "For every list of u64 values, decoding the MS-ISF count-prefixed 7-bit encoding returns the list; for every list of signed values of magnitude below 2^63, decoding the sign-in-low-bit encoding returns the list. Decoding any byte string returns values in range and never panics.", "quantifier": "all lists of u64 / i64 values, all byte strings", "why_tests_cant": "unbounded list lengths and 64-bit values; shift/termination boundaries at 10 bytes", "anchors": ["src/shared/multi_byte.rs: decode_signed, decode, decode_uint"]}
{"id": "C06", "title": "Truncated or over-wide ink integers", "statement": "A user expects a multi-byte integer cut off in the middle, or one exceeding 64 bits, to be rejected. The code rejects integers longer than ten bytes and lists with missing elements, but accepts an integer whose last byte still has its continuation bit set at end of input and silently drops the high bits of a tenth byte: both expectations are refuted.", "quantifier": "all byte strings", "why_tests_cant": "existence of a bad input is a search problem; the positive half ranges over all inputs", "anchors": ["src/shared/multi_byte.rs: decode_uint, decode"]}
{"id": "C07", "title": "Stream object headers decode exactly", "statement": "For every object type in the format's table and every payload length, the 16-bit (length < 128, type < 64), 32-bit (length < 32767) and large-length forms of a start header and the 8-bit and 16-bit forms of an end header decode to that type, flag and length and leave exactly what follows; parsing with a required type succeeds only if the type on the wire is that type.", "quantifier": "all types, lengths, flags and trailing bytes", "why_tests_cant": "field masks overlap bytes; a wrong mask fails only for some lengths", "anchors": ["src/fsshttpb/data/stream_object.rs", "src/fsshttpb/data/object_types.rs"]}
{"id": "C08", "title": "Parsers read a self-delimiting prefix", "statement": "If parsing the package (or any of its building blocks) succeeds on a byte string, there is a prefix that alone determines the result: the same prefix followed by any other bytes gives the same result and leaves those bytes untouched.", "quantifier": "every byte string, every continuation, every parser of the fsshttpb and onestore property layers", "why_tests_cant": "quantifies over all continuations of all inputs", "anchors": ["src/fsshttpb/packaging.rs", "src/fsshttpb/data_element/*.rs", "src/onestore/types/*.rs"]}
{"id": "C09", "title": "A truncated file is always reported as UnexpectedEof", "statement": "Cutting a parsable package at any point before the end of what the parser consumes makes parsing fail with UnexpectedEof: never a success with less data, never another error kind, never a panic.", "quantifier": "every parsable input and every cut position", "why_tests_cant": "one cut position per byte of every file", "anchors": ["src/fsshttpb/packaging.rs: OneStorePackaging::parse", "src/reader.rs"]}
{"id": "C10", "title": "Package parsing terminates without panicking on every input", "statement": "Parsing a package and parsing an object's property set return Ok or a documented error on every byte string; no index, slice or arithmetic panic is reachable and every loop terminates (each iteration consumes input).", "quantifier": "every byte string of every length", "why_tests_cant": "adversarial inputs are unbounded; fuzzing samples", "anchors": ["src/fsshttpb/packaging.rs", "src/fsshttpb/data_element/*.rs", "src/onestore/types/*.rs"]}
{"id": "C11", "title": "Parsed size is bounded by input size", "statement": "The number of data elements, mappings, declarations, objects, identifiers, properties and payload bytes produced by the parsers is bounded by the number of input bytes consumed, so a length field cannot make the parser allocate or loop beyond the file size.", "quantifier": "every byte string, every declared count", "why_tests_cant": "declared counts go up to 2^64", "anchors": ["src/fsshttpb/data/exguid.rs: parse_array", "src/fsshttpb/data/cell_id.rs", "src/fsshttpb/data/binary_item.rs", "src/onestore/types/object_prop_set.rs", "src/onestore/types/prop_set.rs"]}
{"id": "C12", "title": "Every well-formed package is read back exactly", "statement": "Serialising any package built from storage indexes, storage manifests, cell manifests, revision manifests, object groups without metadata block and object data blobs in the MS-FSSHTTPB format and parsing the bytes yields that package: every element under its identifier, the last one winning for a repeated identifier, in both the package-store layout and the revision-store layout with a file header.", "quantifier": "all packages of any number of elements of any content", "why_tests_cant": "a round trip over an unbounded recursive data type", "anchors": ["src/fsshttpb/packaging.rs", "src/fsshttpb/data_element/*.rs"]}
{"id": "C13", "title": "Object groups with a metadata block", "statement": "MS-FSSHTTPB allows an object group to carry a metadata block. A user expects such files to load. The parser never accepts any input whose object group has a metadata block (its 8-bit end test can never match type 0x79), whatever the bytes are: refuted.", "quantifier": "every byte string that starts an object group with a metadata block", "why_tests_cant": "shows the impossibility for all inputs, not one failing file", "anchors": ["src/fsshttpb/data_element/object_group.rs: parse_object_group, parse_object_group_metadata", "src/fsshttpb/data/stream_object.rs: has_end_8"]}
{"id": "C14", "title": "Data element fragments", "statement": "A data element of the fragment kind is terminated like every other data element. The parser does not consume the end marker of a fragment, so every well-formed package containing a fragment element is rejected: refuted.", "quantifier": "every well-formed fragment element and every continuation", "why_tests_cant": "impossibility over all continuations", "anchors": ["src/fsshttpb/data_element/data_element_fragment.rs", "src/fsshttpb/data_element/mod.rs"]}
{"id": "C15", "title": "Result does not depend on hash iteration order", "statement": "Parsing the same bytes twice gives the same result although HashMap iteration order is randomised per process: this holds whenever the package has at most one storage manifest, its declared storage index exists (or is the only one) no serial number is used for two different revisions and no cell manifest id occurs with two different serial numbers: if one run succeeds every other run succeeds with the same store. Without these conditions two runs can return different stores, and even under them which error kind a broken file gives can differ (refuted in general).", "quantifier": "all packages, all pairs of hash iteration orders", "why_tests_cant": "the schedule (hash seed) is not controllable in a unit test", "anchors": ["src/fsshttpb/data_element/mod.rs: find_storage_index, find_storage_manifest, find_objects", "src/fsshttpb/data_element/storage_index.rs: find_revision_mapping_by_serial", "src/onestore/mod.rs: parse_store"]}
{"id": "C16", "title": "Newest revision wins for objects", "statement": "When an object space is built from a chain of revisions, the object stored under an identifier is the one from the first revision, walking from the newest to its base, that declares it; an object declared only in a base revision is kept; no object that no revision declares appears.", "quantifier": "all revision chains of any length, all object groups", "why_tests_cant": "histories are unbounded", "anchors": ["src/onestore/object_space.rs: ObjectSpace::parse", "src/onestore/revision.rs: Revision::parse, parse_group"]}
{"id": "C17", "title": "Newest revision wins for roots", "statement": "A user expects the content root and metadata root of a page to be those declared by the newest revision. The code lets the oldest declaring revision of the chain overwrite newer ones: the root found is the one declared by the last revision of the chain (closest to the base) that declares the role. Expectation refuted, actual rule proved.", "quantifier": "all revision chains", "why_tests_cant": "histories are unbounded", "anchors": ["src/onestore/revision.rs: Revision::parse lines 61-67", "src/onestore/object_space.rs: content_root, metadata_root"]}
{"id": "C18", "title": "Revision chains terminate only if acyclic", "statement": "Building an object space terminates for every package whose base-revision references are acyclic, within one more step per space than there are revision manifests; a space whose newest revision reaches a cycle never yields a result, and a concrete file makes the loop run for ever (termination refuted in general).", "quantifier": "all packages; all step bounds", "why_tests_cant": "non-termination is a statement about every number of steps", "anchors": ["src/onestore/object_space.rs: ObjectSpace::parse lines 83-98"]}
{"id": "C19", "title": "Property sets are read back exactly", "statement": "Serialising an object's identifier streams and property list (all property types, arbitrarily nested property sets) and parsing the bytes returns the identifier lists and, for every property id, the last value given for that id together with its position.", "quantifier": "all property lists of any nesting depth and size", "why_tests_cant": "round trip over an unbounded recursive type", "anchors": ["src/onestore/types/object_prop_set.rs", "src/onestore/types/prop_set.rs", "src/onestore/types/property.rs", "src/onestore/types/object_stream_header.rs", "src/onestore/types/compact_id.rs"]}
{"id": "C20", "title": "References resolve to the right slice of the identifier stream", "statement": "For an object whose properties have distinct ids and no directly nested property sets, the identifiers returned for a reference property are exactly the contiguous run of the object's reference list that starts after all references of earlier properties, and the runs of all reference properties together partition the reference list. With a repeated property id or a directly nested property set that holds references, later properties get the wrong identifiers (refuted).", "quantifier": "all property lists and all reference lists", "why_tests_cant": "offset arithmetic over unbounded lists", "anchors": ["src/one/property/object_reference.rs", "src/one/property/object_space_reference.rs", "src/one/property/references.rs"]}
{"id": "C21", "title": "Compact identifiers resolve through the object's own mapping table", "statement": "A compact identifier used once in an object's table resolves to the extended GUID stored at the same position; one used several times resolves to the entry at the position being resolved; an identifier not in the table resolves to nothing.", "quantifier": "all tables and positions", "why_tests_cant": "unbounded tables; duplicates interact", "anchors": ["src/onestore/mapping_table.rs", "src/onestore/object.rs: Object::parse"]}
{"id": "C22", "title": "Unresolvable references are dropped silently", "statement": "A user expects a missing child reference to be reported. List-valued references that cannot be resolved are silently omitted from the result; the returned list is the order-preserving subsequence of the resolvable ones (refuted for completeness, order proved).", "quantifier": "all reference lists and mapping tables", "why_tests_cant": "order preservation is a statement about all lists", "anchors": ["src/one/property/object_reference.rs: parse_vec", "src/one/property/object_space_reference.rs: parse_vec"]}
{"id": "C23", "title": "Each note tag gets its own definition", "statement": "The i-th note tag of a paragraph is described by the definition object referenced by the i-th tag. True when at most one tag carries a reference; with two tags that both carry a reference the second reports the definition of the first (refuted).", "quantifier": "all note tag lists", "why_tests_cant": "requires two-tag objects with distinct references", "anchors": ["src/one/property_set/note_tag_container.rs", "src/onenote/note_tag.rs"]}
{"id": "C24", "title": "UTF-16 text decoding", "statement": "For every sequence of Unicode scalar values without NUL, decoding its UTF-16LE bytes returns the sequence; decoding stops at the first NUL; an unpaired surrogate before the first NUL makes decoding fail with a malformed-data error; decoding never panics and a trailing odd byte is ignored.", "quantifier": "all texts, all byte strings", "why_tests_cant": "1.1M scalar values and all pairings of surrogates", "anchors": ["src/utils.rs: utf16_to_string", "src/one/property/simple.rs: parse_string"]}
{"id": "C25", "title": "Section table of contents order", "statement": "The entries of a notebook are the names found in the table of contents tree, ordered by their ordering id, entries with equal ordering id keeping their tree order, and with only adjacent duplicates removed. Hence no name is lost; but a name may appear twice if another entry is ordered between (uniqueness refuted).", "quantifier": "all table-of-contents trees", "why_tests_cant": "sorting/dedup laws over unbounded lists", "anchors": ["src/onenote/notebook.rs: parse_toc, parse_toc_entry"]}
{"id": "C26", "title": "Notebook entries cannot escape the notebook directory", "statement": "Resolving an entry name from the table of contents either fails with InvalidPath or returns the base directory extended by at least one ordinary path component, none of which is '.', '..', a root or contains a separator; if the path exists, its canonical form lies inside the canonical base directory. Absolute, empty, '.'-only and '..'-containing names are rejected.", "quantifier": "all entry names, all base directories, all file systems (including symbolic links)", "why_tests_cant": "path strings and file systems are unbounded; attackers choose them", "anchors": ["src/onenote/mod.rs: resolve_entry_path"]}
{"id": "C27", "title": "Notebook traversal terminates unless links loop", "statement": "Loading a notebook visits strictly deeper directories, so it terminates on every file system without links back up; a directory entry that is a link to its own notebook directory passes the containment check and makes loading recurse for as long as the system resolves the path: forever if it follows any number of links (termination refuted), and into 2^(n+1) - 2 section groups with two such links if it follows n.", "quantifier": "all file systems and tables of contents", "why_tests_cant": "non-termination is a statement about every depth", "anchors": ["src/onenote/mod.rs: parse_notebook, parse_section_group, resolve_entry_path"]}
{"id": "C28", "title": "File kind check", "statement": "parse_notebook succeeds only for a store with the table-of-contents schema and otherwise reports NotATocFile; parse_section and parse_section_buffer succeed only for the section schema and otherwise report NotASectionFile; no store is accepted by both.", "quantifier": "all inputs", "why_tests_cant": "over all stores", "anchors": ["src/onenote/mod.rs"]}
{"id": "C29", "title": "Section display name", "statement": "A section's display name is the name in its metadata if present, else the file name, with every trailing '.one' removed: it never ends in '.one' and the source name is the display name followed by zero or more '.one'. A section genuinely named 'x.one.one' is reported as 'x' (more than one suffix removed).", "quantifier": "all names", "why_tests_cant": "all strings", "anchors": ["src/onenote/section.rs: parse_section"]}
{"id": "C30", "title": "Document order and completeness", "statement": "The page series of a section, pages of a series, contents of a page, items of an outline, rows and cells of a table are returned in stored order, one result per resolved reference; if any referenced object is missing the whole parse fails instead of dropping it.", "quantifier": "all stores", "why_tests_cant": "unbounded trees", "anchors": ["src/onenote/section.rs", "src/onenote/page_series.rs", "src/onenote/page.rs", "src/onenote/outline.rs", "src/onenote/table.rs"]}
{"id": "C31", "title": "Outline and table recursion", "statement": "Parsing an outline, outline element or table terminates on every object space whose child references are acyclic, with recursion depth bounded by the number of objects; an outline element that is its own descendant makes parsing recurse without bound (stack exhaustion), refuting termination in general. Likewise for the tree of a table of contents.", "quantifier": "all object spaces, all recursion bounds", "why_tests_cant": "non-termination is a statement about every depth", "anchors": ["src/onenote/outline.rs", "src/onenote/table.rs", "src/onenote/content.rs", "src/onenote/notebook.rs"]}
{"id": "C32", "title": "Numbered list format cannot crash the parser", "statement": "A user expects malformed list formats to be reported as errors. An empty (or one-byte) number list format makes the parser panic (refuted); for every format with at least one code unit the result is the decoded text after the length unit, unpaired surrogates replaced by U+FFFD.", "quantifier": "all number list format byte strings", "why_tests_cant": "needs the empty-vector corner", "anchors": ["src/one/property_set/number_list_node.rs: parse_list_format"]}
{"id": "C33", "title": "Embedded ink objects cannot crash the parser", "statement": "A user expects a paragraph with more embedded-ink runs than ink data references to be reported as an error. It panics with an out-of-range index (refuted). Without such a shortage the k-th ink run (not counting spaces and line breaks) is paired with the k-th reference.", "quantifier": "all paragraphs", "why_tests_cant": "needs counts to disagree", "anchors": ["src/onenote/rich_text.rs: parse_rich_text lines 439-474"]}
{"id": "C34", "title": "Ink stroke paths", "statement": "The points of a stroke pair the i-th value of the X dimension with the i-th value of the Y dimension, scaled; there are floor(values/dimensions) of them; no slice is out of range for any dimension list containing X and Y in any order; a stroke without X or Y dimension is an error.", "quantifier": "all value lists, all dimension lists", "why_tests_cant": "index arithmetic over all lengths including non-multiples", "anchors": ["src/onenote/ink.rs: parse_ink_path"]}
{"id": "C35", "title": "Ink scale and pen size", "statement": "A user expects the vertical ink scale to be the stored vertical scale, and a stroke's width/height to be the stored width/height. The vertical scale is always the stored horizontal scale and width and height are exchanged (both refuted).", "quantifier": "all ink containers and stroke property sets", "why_tests_cant": "all stored values", "anchors": ["src/one/property_set/ink_container.rs line 28", "src/one/property_set/stroke_properties_node.rs lines 32-37"]}
{"id": "C36", "title": "Documented property types are accepted", "statement": "Every property the parser reads is accepted when stored with the wire type its own property identifier declares. True for every property except the page size (declared 4 bytes, read as 1 byte) and the picture file extension (declared an object reference list, read as text) and three flags declared with an undefined type (deleted-content, ink anti-aliasing, ink fit-to-curve): any page storing its size with the declared type fails to load (refuted for these).", "quantifier": "all property values of the declared type", "why_tests_cant": "over all values; a table-wide check", "anchors": ["src/one/property/mod.rs: PropertyType", "src/one/property/page_size.rs", "src/one/property/simple.rs", "src/one/property_set/picture_container.rs"]}
{"id": "C37", "title": "Embedded file and image bytes are delivered unchanged", "statement": "The bytes reported for an embedded file or image are exactly the bytes of the object data blob in the package that the object's file-data declaration references, for every package. A picture object without file data is reported as zero bytes.", "quantifier": "all packages", "why_tests_cant": "all payloads", "anchors": ["src/onestore/object.rs: Object::parse", "src/onenote/image.rs", "src/onenote/embedded_file.rs", "src/one/property_set/embedded_file_container.rs", "src/one/property_set/picture_container.rs"]}
{"id": "C38", "title": "Paragraph text and formatting", "statement": "The number of text-run formats equals the number of resolved format references, in order; the text is the stored text unless the paragraph yields an embedded object, in which case it is empty; the Unicode text takes precedence over the extended-ASCII text.", "quantifier": "all paragraphs", "why_tests_cant": "all objects", "anchors": ["src/onenote/rich_text.rs: parse_rich_text", "src/one/property_set/rich_text_node.rs"]}
{"id": "C39", "title": "Page title heuristic", "statement": "title_text returns the first non-empty candidate among: the first paragraph of the first title outline, then the first paragraph of each content outline in order; it returns nothing exactly when all are empty or absent, and never returns an empty string.", "quantifier": "all pages", "why_tests_cant": "all page trees", "anchors": ["src/onenote/page.rs: Page::title_text, outline_text"]}
{"id": "C40", "title": "Colors", "statement": "Color values: for all 2^32 raw values the reported alpha is 255 minus the top byte and red, green, blue are the low three bytes in order; a color reference with top byte 0x00 reports the three bytes, with 0xFF reports automatic, and every other value is an error.", "quantifier": "all 2^32 raw values", "why_tests_cant": "2^32 cases", "anchors": ["src/one/property/color.rs", "src/one/property/color_ref.rs"]}
{"id": "C41", "title": "Enumerated values", "statement": "Each enumerated property (charset, paragraph alignment, note tag shape, action item type and status, layout alignment, revision role, change frequency, math object type) decodes exactly the documented codes to distinct members and rejects or defaults every other stored number as documented.", "quantifier": "all stored numbers (2^8, 2^16 or 2^32)", "why_tests_cant": "all codes", "anchors": ["src/one/property/*.rs", "src/onestore/revision_role.rs", "src/onenote/math_inline_object.rs"]}
{"id": "C42", "title": "Table column data", "statement": "Column widths are the consecutive 4-byte floats after the leading count byte, and locked flags the bytes after it; trailing bytes that do not fill a float are ignored; border visibility defaults to true.", "quantifier": "all byte strings", "why_tests_cant": "all lengths", "anchors": ["src/one/property_set/table_node.rs"]}
{"id": "C43", "title": "Nesting of property sets is limited only by input length", "statement": "A user expects parsing to bound the recursion depth of nested property sets. An object with n directly nested property sets needs at least 6n+2 bytes, and for every n there is an accepted input of exactly 6n+2 bytes with n levels, so no fixed depth limit holds (expectation of a limit refuted, exact byte cost proved).", "quantifier": "all depths, all byte strings", "why_tests_cant": "unbounded depth", "anchors": ["src/onestore/types/prop_set.rs: PropertySet::parse", "src/onestore/types/property.rs: PropertyValue::parse"]}
{"id": "C44", "title": "A store holds exactly the cells of its index", "statement": "After a file is opened, the object spaces that can be looked up are exactly the cells of the storage index other than the header cell, the data root cell and cells whose mapping is nil; each is found under its own cell id and is the space built from that cell; the data root is the space of the cell the storage manifest names as data root, and the schema reported is the storage manifest's.", "quantifier": "all byte strings the package reader accepts, all hash orders", "why_tests_cant": "unbounded number of cells; hash order", "anchors": ["src/onestore/mod.rs: parse_store, OneStore::object_space, data_root, schema_guid"]}
{"id": "C45", "title": "Object groups with missing data", "statement": "A user expects a file whose object group declares more or fewer entries than it carries to be rejected. The mismatch is reported only if the group is asked for an object no newer revision supplied: otherwise the file is accepted (expectation refuted). What does hold: no object of an accepted space comes from a group with a mismatch.", "quantifier": "all packages, all chains", "why_tests_cant": "histories are unbounded", "anchors": ["src/onestore/revision.rs: parse_group", "src/onestore/object.rs: Object::parse"]}
{"id": "C46", "title": "References to object spaces", "statement": "For an object whose compact ids for object spaces are distinct, the spaces returned for each space-list property are exactly the contiguous run of the object's space reference list that belongs to it. If two space-list properties reuse one compact id for different spaces, the second reports the space of the first (refuted in general).", "quantifier": "all property lists, all reference lists", "why_tests_cant": "unbounded lists; depends on positions across properties", "anchors": ["src/one/property/object_space_reference.rs: parse_vec", "src/onestore/mapping_table.rs"]}
{"id": "C47", "title": "Checkable note tags", "statement": "NoteTagShape::is_checkable is true exactly for the check box shapes and the five follow-up flags.", "quantifier": "all shapes", "why_tests_cant": "exhaustive over the code table", "anchors": ["src/one/property/note_tag_shape.rs: is_checkable"]}
{"id": "C48", "title": "Every reported attribute comes from its own documented property", "statement": "For each of the 29 node kinds of the document model, parsing an object succeeds with a given result if and only if the object's kind code is that of the node and every attribute of the result is the value, of the documented type, of the property with the documented identifier (or the documented default when it is absent); no attribute is taken from another property.", "quantifier": "all objects, for each of the 29 node kinds", "why_tests_cant": "unbounded property lists; a swapped identifier is only visible on inputs where both properties differ", "anchors": ["src/one/property_set/*.rs: parse"]}
{"id": "C49", "title": "Reading a node neither crashes nor hangs", "statement": "Reading any of the node kinds from any object returns a value or an error, except that a number list whose format text is cut inside its header crashes (see C32).", "quantifier": "all objects, all node kinds", "why_tests_cant": "all property lists, including malformed ones", "anchors": ["src/one/property_set/*.rs: parse"]}
{"id": "C50", "title": "Which section files can crash the reader", "statement": "Reading a section from any bytes, under any hash order, either returns (a section or an error), runs into unbounded recursion (C18, C31), or crashes for one of exactly two reasons: a numbered list with a number format shorter than two bytes (C32), or a paragraph with more embedded ink than ink references (C33). No other index, slice or arithmetic crash is reachable; both crashes do occur.", "quantifier": "all byte strings, all file names, all hash orders, all recursion bounds", "why_tests_cant": "absence of crashes over all inputs", "anchors": ["src/onenote/mod.rs: parse_section_buffer", "src/onenote/section.rs", "src/onenote/rich_text.rs", "src/onenote/list.rs"]}
{"id": "C51", "title": "Contents of a notebook", "statement": "Loading a notebook succeeds with given entries and colour if and only if: the file is a table of contents; every name in it resolves; the entries, in table order, are exactly the resolved paths that exist and are not the recycle bin; each that is a file is a section read from it, each that is not is a section group, named after the directory, whose entries are those of the notebook at the first directory entry with the extension onetoc2. Names whose path does not exist are skipped silently, and one entry that cannot be read makes the whole notebook fail.", "quantifier": "all file systems, all paths, all nesting depths", "why_tests_cant": "unbounded nesting, and the file system is an arbitrary input", "anchors": ["src/onenote/mod.rs: parse_notebook, parse_section_group", "src/onenote/notebook.rs: parse_toc"]}
{"id": "C52", "title": "What a notebook can depend on", "statement": "The result of loading a notebook depends on nothing but the answers of the file system for paths below the notebook directory, the bytes of section files whose canonical path is inside the canonical notebook directory, and the bytes of the tables of contents (files named *.onetoc2 in those directories). The tables of contents of section groups are not checked: one that is a symbolic link to a file outside the notebook is read (containment of all reads refuted).", "quantifier": "all pairs of file systems, all notebooks", "why_tests_cant": "non-interference is a statement about all pairs of environments", "anchors": ["src/onenote/mod.rs: parse_notebook, parse_section_group, resolve_entry_path"]}
{"id": "C53", "title": "Notebooks given by a bare file name", "statement": "When the operating system has no canonical form for the empty path (as on Unix), parse_notebook given a file name without a directory never returns any entries: it fails with InvalidPath as soon as a listed entry exists, although the same notebook opens as ./name or by absolute path (refutes that relative and absolute paths are equivalent).", "quantifier": "all file systems without a canonical empty path, all tables of contents", "why_tests_cant": "for all file systems; tests use temporary directories with absolute paths", "anchors": ["src/onenote/mod.rs: parse_notebook, resolve_entry_path"]}
{"id": "C54", "title": "Sections from files and from buffers agree", "statement": "parse_section on a path gives the same outcome as parse_section_buffer on the bytes of the file with the last component of the path as name. Passing the whole path to parse_section_buffer does not: a section without a stored name is then shown with its directories.", "quantifier": "all file systems, paths, byte strings and hash orders", "why_tests_cant": "equality of two entry points over all inputs", "anchors": ["src/onenote/mod.rs: parse_section, parse_section_buffer"]}
{"id": "C55", "title": "Exactly which files are accepted", "statement": "A byte string is accepted as a data element package (and a file as a whole, in either of its two layouts) if and only if a prefix of it is a string of the file format, with three liberties: any nonzero byte may introduce a full serial number, a data element fragment is not followed by the end marker of its data element, and object groups have no metadata block. What is read is then exactly what the elements say. Without the liberties the claim is false: a package that is not in the format is accepted.", "quantifier": "all byte strings, all packages of any number of elements", "why_tests_cant": "an exact characterisation of the accepted language quantifies over all inputs in both directions", "anchors": ["src/fsshttpb/packaging.rs: OneStorePackaging::parse", "src/fsshttpb/data_element/mod.rs: DataElementPackage::parse"]}
{"id": "C56", "title": "Cut files and trailing bytes", "statement": "Every answer of parse_section_buffer other than UnexpectedEof is final: appending any bytes to the data does not change it, whether it is a section, another error or a crash. If a section is returned, there is a position k in the data such that any data cut before k gives UnexpectedEof and any data continuing the first k bytes gives the same section. Likewise appending bytes to files never changes the outcome of parse_notebook unless it was UnexpectedEof.", "quantifier": "all byte strings, all cut positions, all continuations, all file systems, all hash orders", "why_tests_cant": "quantifies over all cut positions and all continuations of all inputs", "anchors": ["src/onenote/mod.rs: parse_section_buffer, parse_notebook", "src/fsshttpb/packaging.rs: OneStorePackaging::parse"]}
{"id": "C57", "title": "The kind of an error tells where reading failed", "statement": "If parse_section_buffer fails, either the container could not be opened and the kind is UnexpectedEof, MalformedData, MalformedFssHttpBData or MalformedOneStoreData; or it was opened, is not a section and the kind is NotASectionFile; or it is a section with a malformed document and the kind is UnexpectedEof, MalformedOneNoteData, MalformedOneNoteFileData or Utf16Error. Paths add IO and InvalidPath, notebooks add NotATocFile and TocFileMissing. InvalidUuid and Utf16MissingNull are never returned. Every listed kind occurs.", "quantifier": "all byte strings, file systems, hash orders and recursion bounds", "why_tests_cant": "absence of an error kind is a statement about all inputs", "anchors": ["src/errors.rs: ErrorKind", "src/onenote/mod.rs: parse_section_buffer, parse_notebook"]}
{"id": "C58", "title": "What a section depends on", "statement": "A section that is returned does not change when further objects, root declarations or object spaces are added to its store; the same holds for a page and for a table of contents. The name of the file decides nothing but the name shown: pages, colour and errors are the same under any name.", "quantifier": "all stores, all extensions of them, all file names", "why_tests_cant": "a frame property over all pairs of stores", "anchors": ["src/onenote/section.rs: parse_section", "src/onenote/page.rs: parse_page", "src/onenote/notebook.rs: parse_toc"]}
{"id": "C59", "title": "Only the content of a file matters", "statement": "Two files that hold the same data elements give the same outcome, section or error, whatever encoding is chosen for every integer, identifier, serial number and header, whichever of the two layouts the file has, whatever the file identifiers are and whatever follows the data. If moreover no two elements of a kind share an identifier and there is at most one storage index and one storage manifest, the order of the elements, their serial numbers, fragments and the identifier that points to the index do not matter either. The same holds for all files of a notebook at once. Without that condition the order of elements does matter.", "quantifier": "all pairs of accepted files, all hash orders, all file systems", "why_tests_cant": "quantifies over all encodings and orders of the same content", "anchors": ["src/fsshttpb/packaging.rs: OneStorePackaging::parse", "src/fsshttpb/data_element/mod.rs: DataElementPackage::parse", "src/onestore/mod.rs: parse_store", "src/onenote/mod.rs: parse_section_buffer, parse_notebook"]}
{"id": "C60", "title": "Properties the reader does not ask for change nothing", "statement": "Let two parsed files (or object spaces) have the same objects, roots and references, and let the property sets of their objects differ only in properties whose identifier is not one of the 158 the reader asks for (among the others are properties unknown to it, but also the conflict-page mark, the version-pages mark and the vertical ink scale) and whose values contain no references (inserted at any position, any number, in any objects). Then parsing the section, each page and the table of contents gives the same result: the same document or the same error.", "quantifier": "all stores, object spaces and fuel values; any number of insertions and removals of such properties with any reference-free value, at any position of any property set of any object", "why_tests_cant": "Files written by newer OneNote versions carry properties this reader has never seen; no finite set of samples covers every identifier, value, position and combination.", "anchors": ["src/onestore/types/object_prop_set.rs: ObjectPropSet::get", "src/onestore/types/prop_set.rs: PropertySet::get, index, values_with_index", "src/one/property/object_reference.rs: ObjectReference::get_offset, count_references", "src/onenote/section.rs: parse_section", "src/onenote/page.rs: parse_page"]}
{"id": "C61", "title": "Every store can be written to a file, and every file that holds it opens to it", "statement": "Describe a store by its schema, header values, root object space and further object spaces; each space by its roots and objects; each object by its identifier, kind, properties, references and attached file data. If no identifier occurs twice and every value fits its field, some file holds the described store. Opening any file that holds it, whatever its encoding, framing, order of elements, grouping of objects or layout of the index, succeeds and yields exactly the described store: every object with its kind, properties, resolved references and file data, every space under its cell, and no others.", "quantifier": "all store descriptions of any size with distinct identifiers and values in range; all files that hold them; all file hints and all positive fuel values", "why_tests_cant": "Tests compare a few sample files with expected output; that every storable content can be reached and is read back exactly is a statement about all contents and all layouts of them.", "anchors": ["src/onestore/mod.rs: parse_store", "src/onestore/object_space.rs: ObjectSpace::parse", "src/onestore/object.rs: Object::parse", "src/onestore/header.rs: StoreHeader::parse", "src/fsshttpb/packaging.rs: OneStorePackaging::parse", "src/onestore/mapping_table.rs: MappingTable"]}
{"id": "C62", "title": "A page has no more parts than its space has objects, if no object is listed twice", "statement": "If the objects of a page's space form a tree (no object is listed as a part twice, and none is a part of itself), the page the parser returns has at most as many groups, elements, paragraphs, tables, rows, cells, images, files and drawings as the space has objects. The expectation that this holds for every file is false: an object listed twice is read twice with all its parts, and for every k there is a file whose spaces have at most k + 5 objects and whose page has at least 2^k parts.", "quantifier": "all files that are read as a section, all pages of it; all k below 2^31", "why_tests_cant": "A bound on the output in terms of the input ranges over all files; the growth of the worst case is a statement about an infinite family of files.", "anchors": ["src/onenote/outline.rs: parse_outline, parse_outline_group, parse_outline_element", "src/onenote/table.rs: parse_table", "src/onenote/page.rs: parse_page", "src/onenote/mod.rs: Parser::parse_section_buffer"]}
{"id": "C63", "title": "Every document is the content of some file", "statement": "For every section value whose parts are in the ranges of their fields (texts of Unicode scalar values, most without NUL, numbers that fit, ink coordinates that are scaled whole numbers, a name that does not end in .one, and the few constraints between fields) there is a file that the parser reads as exactly this section, whatever its file name: every page, title, outline, group, element, paragraph with formats, tags, formulas and embedded ink, list, table, image, file and drawing with every field.", "quantifier": "all sections with fewer than 2^21 parts, list entries and characters (file data not counted), of any nesting; all file names; all sufficiently large fuel values", "why_tests_cant": "Tests read a few sample files; that no valid document is out of reach and no field is lost, swapped or merged on the way is a statement about all documents.", "anchors": ["src/onenote/mod.rs: Parser::parse_section_buffer", "src/onenote/section.rs: parse_section", "src/onenote/page.rs: parse_page", "src/onenote/outline.rs", "src/onenote/rich_text.rs: parse_rich_text", "src/onenote/table.rs", "src/onenote/image.rs", "src/onenote/ink.rs", "src/onenote/embedded_file.rs", "src/onenote/list.rs", "src/onenote/note_tag.rs", "src/one/property_set"]}
{"id": "C64", "title": "Everything that is read is a valid document", "statement": "Whatever bytes the files hold, a section or notebook the parser returns is valid: texts are Unicode without NUL (Latin-1 for texts without a Unicode version), numbers fit their fields, colours and indents are in range, ink coordinates are whole numbers scaled by one factor, the number of formulas and embedded objects fits the formats of the paragraph, no name ends in .one, an image without data has no extension, and section groups have names that are single path components the sanitiser leaves alone. Together with C63 the sections that can be read (below the size limit of C63) are exactly the valid ones.", "quantifier": "all byte strings, file names without NUL, file systems, iteration orders and fuel values; all sections and notebooks that are returned", "why_tests_cant": "Users rely on the ranges of returned values (for instance that a name is a single path component) for every input, also malicious ones.", "anchors": ["src/onenote/mod.rs: Parser::parse_section_buffer, parse_section, parse_notebook", "src/onenote/section.rs: parse_section", "src/onenote/notebook.rs: parse_toc", "src/onestore/types/property.rs: PropertyValue::parse", "src/utils.rs: Utf16ToString", "src/one/property", "src/one/property_set"]}
{"id": "C65", "title": "Every notebook is the content of some directory", "statement": "For every valid notebook (valid sections; section groups, nested to any depth and with repeated names, named by single path components the sanitiser leaves alone; a colour in range) there is a directory tree of files holding bytes, with a table of contents in each directory, that the parser reads as exactly this notebook: the same entries in the same order, each group with its name and entries, each section with everything in it, and the colour. Together with C64 the notebooks that can be read, within the size limits, are exactly the valid ones.", "quantifier": "all notebooks of any depth, with fewer than 2^20 entries per directory, group names below 2^20 characters and sections within the limit of C63; all sanitisers that leave names of seven digits alone; all sufficiently large depth and fuel values", "why_tests_cant": "Tests read a few sample notebooks; that no valid notebook is out of reach and that no entry is lost, merged or reordered is a statement about all of them.", "anchors": ["src/onenote/mod.rs: Parser::parse_notebook, parse_section_group, resolve_entry_path", "src/onenote/notebook.rs: parse_toc, Notebook", "src/one/property_set/toc_container.rs: parse", "src/onenote/section.rs: SectionGroup, parse_section"]}
{"id": "C66", "title": "Identifiers are only names", "statement": "If all identifiers of data elements, objects, contexts and object spaces in a file are replaced one-to-one by others (the null identifier and the format's own role and root names kept), then parsing the file gives the same possible answers as before: the same section, the same error or the same panic. The same holds for a notebook directory when one such replacement is applied to all its files. When the answer for the original does not depend on hash iteration order, the replaced file has exactly that answer under every order.", "quantifier": "every one-to-one replacement of identifiers, every file in either layout accepted by the reader (ambiguous, broken or looping content included), every iteration order, every file name and every fuel; every directory tree", "why_tests_cant": "Identifiers are 160-bit values chosen at random by the writer; a test fixes a few of them. That no code path compares, orders or prints an identifier other than to look it up needs an argument over all of them.", "anchors": ["src/onestore/mod.rs: parse_store", "src/onestore/object.rs: Object::parse", "src/onestore/mapping_table.rs: MappingTable", "src/onestore/revision.rs: Revision::parse", "src/onestore/object_space.rs: ObjectSpace::parse", "src/fsshttpb/data_element/mod.rs: DataElementPackage", "src/onenote/mod.rs: Parser::parse_section_buffer, Parser::parse_notebook"]}
{"id": "C67", "title": "A call has one answer", "statement": "Reading a buffer, a section file or a notebook directory either never ends or ends in exactly one way: one section or notebook, one error or one panic. However many steps it is allowed, it never gives one answer with fewer steps and another with more.", "quantifier": "every byte string, file name, file system and path, every hash iteration order, and every pair of bounds on recursion depth, chain length and directory depth", "why_tests_cant": "Two runs of a test show two equal answers; that no input has two answers is a statement about all inputs and all bounds. It is also what makes the other theorems, stated for some or for all bounds, theorems about one program.", "anchors": ["src/onenote/mod.rs: Parser::parse_notebook, Parser::parse_section, Parser::parse_section_buffer", "src/onestore/object_space.rs: ObjectSpace::parse", "src/onenote/outline.rs: parse_outline_item, parse_outline_element", "src/onenote/notebook.rs: parse_toc"]}
{"id": "C68", "title": "Every error of a notebook has a cause, and every cause prevents a result", "statement": "If reading a notebook returns an error, then one of the tables of contents of the notebook (its own, or that of a section group at any depth) is unreadable, not of the format, of another kind, without a directory or of malformed content, or lists a name that may not be used, or lists a section file or directory with such a problem; the kind of the error matches the problem. TocFileMissing, NotASectionFile and NotATocFile in particular mean that such a directory without a table of contents, section file of another kind or table of contents of another kind was found. Conversely, if any such problem exists anywhere in the notebook, no notebook is returned: it is read as a whole or not at all.", "quantifier": "every file system, path, sanitising function, iteration order and bound; every nesting depth of section groups", "why_tests_cant": "Which of many files is at fault, and how deep, varies with the directory; tests place one fault in one file. That no fault at any depth is passed over in silence needs induction over the directory.", "anchors": ["src/onenote/mod.rs: Parser::parse_notebook, Parser::parse_section, Parser::parse_section_group, resolve_entry_path", "src/onenote/notebook.rs: parse_toc", "src/errors.rs: ErrorKind"]}
{"id": "C69", "title": "The command line program prints what the library reads", "statement": "Given a path whose last part has the extension .onetoc2 (in lower case, with something before the dot), onenote-parse prints the notebook that the library returns for it; given any other path it prints the section. It prints nothing else. It panics exactly if it is given no argument, or the library returns an error or panics.", "quantifier": "every list of arguments, file system, sanitising function, iteration order and bound", "why_tests_cant": "Arguments and directories are unbounded; the decision between the two readers depends on the text of the path, with dots, slashes and dot segments anywhere.", "anchors": ["src/bin/onenote-parse.rs: main"]}
{"id": "C70", "title": "A file with revisions is read as the state after its last save", "statement": "A file that holds a history of saves, each revision with the objects that are new or changed on top of the one before, opens to the state after the last save: every object in the version of the last save that wrote it, every root as first declared. Only that state counts: two files whose histories end in the same state, such as a file with many revisions and one saved once, give the same section and the same notebook. What an interrupted save left behind, elements that no index entry leads to, changes nothing. And every history whose values fit the format can be written to a file.", "quantifier": "every history of every number of saves of every number of object spaces, every file that holds it in any layout and encoding, every pair of file systems that differ only in such files, every iteration order", "why_tests_cant": "The number of revisions, what each of them changes, and where the file was cut are unbounded; a sample file shows one history.", "anchors": ["src/onestore/object_space.rs: ObjectSpace::parse", "src/onestore/revision.rs: Revision::parse", "src/onestore/revision_role.rs: RevisionRole", "src/fsshttpb/data_element/storage_index.rs: StorageIndex", "src/fsshttpb/data_element/mod.rs: DataElementPackage::find_objects", "src/onestore/mod.rs: parse_store"]}
{"id": "C71", "title": "Ink coordinates are worth the stored numbers", "statement": "The coordinates of an ink stroke are the stored whole numbers, multiplied by the scale of the drawing, as closely as a single-precision number can hold them. Each conversion, product and difference gives the closest of all 32-bit numbers, on a tie the even one, and infinity beyond the largest. Without a scale a coordinate of at most 2^24 in size is exact, and any other is off by at most one part in 2^24. With any scale that is not negative, points never change places: if one stored coordinate is at most another, so is the reported one.", "quantifier": "every stored path of 64-bit numbers, every pair of scales, every pair of 32-bit numbers", "why_tests_cant": "There are 2^64 pairs of 32-bit operands and paths of every length; closeness compares against all 2^32 numbers.", "anchors": ["src/onenote/ink.rs: parse_ink_path", "src/onenote/ink.rs: parse_ink_data", "src/onenote/ink.rs: InkBoundingBox::scale"]}
{"id": "C72", "title": "Saving a page changes that page and nothing else; reading is all or nothing", "statement": "Every page of a section is read from the object space that the section lists at its place, and from no other. So after saves of some pages the section has the same name and colour, the same number of pages in the same places, and every other page unchanged; a page whose space is unchanged is the same page wherever the section lists it, also if pages were added, removed or moved. The section stays readable as long as the saved pages are. But reading is all or nothing: one listed page that cannot be read, and no page of the section is reported.", "quantifier": "every pair of histories of saves and all files that hold them, every number and order of pages, every set of saved pages, every iteration order", "why_tests_cant": "The property compares two arbitrary files; what may leak from one page to another is any object in any space.", "anchors": ["src/onenote/section.rs: parse_section", "src/onenote/page_series.rs: parse_page_series", "src/onenote/page.rs: parse_page", "src/onestore/mod.rs: OneStore::object_space", "src/onestore/object_space.rs: ObjectSpace::parse"]}
{"id": "C73", "title": "A notebook read while others write is made of what its files held", "statement": "Other programs (a sync client, OneNote itself) may change files between any two accesses of the parser. Every section of the returned notebook is then still exactly what its file held at one moment of the run, found under a path that the table of contents read at one moment stands for, which existed at one moment; every section group likewise. If what is looked at does not change while it is looked at, the result is the notebook of that file system. But the whole need not have existed at any one moment: a section renamed during the run can appear twice or not at all.", "quantifier": "every schedule: an arbitrary file system at every access of the run, every notebook, depth, sanitiser and iteration order", "why_tests_cant": "The property ranges over all interleavings of the accesses with changes of other programs.", "anchors": ["src/onenote/mod.rs: Parser::parse_notebook, Parser::parse_section, Parser::parse_section_group, Parser::read, resolve_entry_path"]}
{"id": "C74", "title": "Under every schedule only paths below the directory are looked at; links can be raced", "statement": "Whatever other programs do meanwhile, loading a notebook looks only at the given file and at paths that lie below its directory by name, with no '..' or separator in a name; so changes elsewhere never matter. While only contents change, every section file opened is really inside the directory, links followed. If links may change, this is not so: a file that is replaced by a link out of the directory after it was checked and before it is opened is read.", "quantifier": "every schedule: an arbitrary file system at every access of the run, every table of contents, every sanitiser", "why_tests_cant": "An attacker who can write to the directory chooses the schedule.", "anchors": ["src/onenote/mod.rs: Parser::parse_notebook, Parser::parse_section, Parser::parse_section_group, Parser::read, resolve_entry_path"]}
{"id": "C75", "title": "Crashes and termination while the file system changes", "statement": "Under every schedule a crash needs a file which at some moment has one of the two defects of C50; change alone never makes the parser crash. If one bound on the nesting of directories holds all the time, loading ends. If each moment only has its own bound, it need not: directories created during the run can keep it busy forever, although every moment shows a finite tree without links.", "quantifier": "every schedule: an arbitrary file system at every access of the run, every depth of nesting", "why_tests_cant": "Termination under interference ranges over infinite schedules.", "anchors": ["src/onenote/mod.rs: Parser::parse_notebook, Parser::parse_section, Parser::parse_section_group, Parser::read, resolve_entry_path"]}
{"id": "C76", "title": "One parser, several threads: calls do not affect each other", "statement": "The parser is documented as stateless and shareable across threads. For every number of concurrent calls and every interleaving of their accesses to the file system, the result of each call is exactly that of the same call made alone at the moments at which it got to move; what the others read does not matter; no call waits for another; and if the files do not change, every call returns the notebook it would return alone.", "quantifier": "every number of threads, every schedule of their file system accesses, every file system at every moment", "why_tests_cant": "A test runs a few interleavings; the property is about all of them.", "anchors": ["src/onenote/mod.rs: Parser (thread safety), Parser::parse_notebook, Parser::parse_section_group, resolve_entry_path"]}
{"id": "C77", "title": "Changing a section file changes the sections read from it and nothing else", "statement": "If two file systems differ only in the contents of some files that are not tables of contents, and a notebook can be read from both, then both have the same colour, the same entries in the same order, the same section groups, and the same sections, except for sections read from the changed files. The notebook stays readable if the changed files are still sections. But reading is all or nothing: one section of the notebook that is not readable, and no section is reported.", "quantifier": "every pair of file systems, every set of changed files, every depth of nesting", "why_tests_cant": "What may leak from one file to another part of the result is arbitrary; the property compares two arbitrary runs.", "anchors": ["src/onenote/mod.rs: Parser::parse_notebook, Parser::parse_section_group, Parser::parse_section"]}
{"id": "C78", "title": "What an error says is so, about the first file that cannot be read", "statement": "An error of reading a notebook that names a file or a directory names one that is as the error says: the file named by 'not a table of contents' is a readable OneNote file of another kind, reached as the table of contents of the notebook or of one of its groups; the file named by 'not a section' is listed, is a file and is a readable OneNote file of another kind; the directory named by 'table of contents missing' is listed, is not a file, and no name in it has the extension onetoc2. And it is the first: everything listed before it, at every level above it, can be read. Conversely, if the first thing that cannot be read is of one of these three sorts then the error names it. The message about a refused name says what is wrong with that name.", "quantifier": "every file system, every notebook, every depth of nesting, every listed name", "why_tests_cant": "A test checks the message of one broken notebook. That the file named is never another one must hold for every tree and every place at which it can be broken.", "anchors": ["src/onenote/mod.rs: Parser::parse_notebook, Parser::parse_section, Parser::parse_section_group, Parser::parse_section_buffer, resolve_entry_path", "src/errors.rs: ErrorKind"]}
{"id": "C79", "title": "Each listed section and group costs one opened file, and nothing is looked at after a failure", "statement": "A call that returns a notebook has opened its table of contents and one file for each section and section group of the result, at every depth, even if the files change meanwhile. If they do not change, the opened files are, in document order, exactly the tables of contents and the section files the notebook consists of, and the file system is asked at most seven times per listed name. A file or directory that cannot be read, or a file that is not a OneNote file, is the last thing looked at, whatever is listed after it, and its error is the error of the call.", "quantifier": "every file system at every moment, every notebook, every depth of nesting, every moment of failure", "why_tests_cant": "How often and in which order files are opened cannot be seen in the result, and a test would have to instrument every possible tree.", "anchors": ["src/onenote/mod.rs: Parser::parse_notebook, Parser::parse_section, Parser::parse_section_group, resolve_entry_path"]}
{"id": "C80", "title": "Listed names cannot leave the directory on Windows either", "statement": "On Windows, where paths have two separators and drive letters and where appending a text with a drive replaces the directory: a listed name with a drive, at a root or server, or with a '..' part is refused, with every sanitiser. If the sanitiser lets no separator and no colon pass, the accepted names are exactly the relative ones made of names it leaves alone, and each stands for those names below the directory. A path that exists is inside the directory, links followed. Names without backslash and colon mean the same on Unix; all others are refused there.", "quantifier": "every directory, every listed name, every file system, every sanitiser (with the stated contract where needed), every way to recognise server prefixes", "why_tests_cant": "The tests run on one platform and with a few names; which texts Windows takes for a drive, a root or a separator has to be considered for every text.", "anchors": ["src/onenote/mod.rs: resolve_entry_path (Component::Prefix, sanitise, PathBuf::push, Path::join)"]}
{"id": "C81", "title": "Where the reading of a damaged file stops", "statement": "Every answer about a buffer other than UnexpectedEof is given by a shortest beginning of it: with fewer bytes the answer is UnexpectedEof, and nothing that follows changes it. MalformedData is given at a byte that starts no extended GUID, where one was wanted: with the null one in its place reading goes on. UnexpectedEof is given only if the container is complete (then an object's data is too short), or if some further bytes complete it or bring a different answer. MalformedOneStoreData is given only if the file names neither layout, or its header places the container before its own end or beyond 64 bits, or the container is complete; and always in the first two cases.", "quantifier": "every buffer, every file name, every hash iteration order, every recursion allowance, all further bytes", "why_tests_cant": "The position at which a damaged file is refused and the kind reported there depend on all bytes before it; damaged files cannot be enumerated.", "anchors": ["src/onenote/mod.rs: Parser::parse_section_buffer", "src/errors.rs: ErrorKind", "src/fsshttpb/packaging.rs: OneStorePackaging::parse", "src/fsshttpb/data/exguid.rs: ExGuid::parse", "src/fsshttpb/data/stream_object.rs: ObjectHeader"]}
{"id": "C82", "title": "The size of an opened store", "statement": "A space of an opened file - its objects, properties, compact ids, value bytes and table entries - is never larger than the file, and the number of spaces and the file data of any one object fit beside it. All spaces together are at most a quarter of the square of the file's length, and that order is reached: cells that share one revision are read once per cell, so a file of 400k+2500 bytes opens to k times k objects. A page of which no object is listed twice has no more parts than the file has bytes.", "quantifier": "every byte string that opens, every hash iteration order, every recursion allowance, every space and object; every k below 2^31", "why_tests_cant": "A bound on memory must hold for all files, including hostile ones that repeat groups and share revisions between cells.", "anchors": ["src/onestore/mod.rs: parse_store", "src/onestore/object_space.rs: ObjectSpace::parse", "src/onestore/revision.rs: Revision::parse, parse_group", "src/onestore/object.rs: Object::parse", "src/onestore/mapping_table.rs: MappingTable::from_entries", "src/onestore/types/prop_set.rs: PropertySet::parse"]}
{"id": "C83", "title": "Why an opened document cannot be read", "statement": "If a file opens but its document cannot be read, the kind of the error tells what is wrong with something the document reaches from its root: a missing root, page space or object or an item of a wrong kind (MalformedOneNoteData), an object that is not of its kind or lacks something required (MalformedOneNoteFileData), a GUID or indents that end early (UnexpectedEof), half a surrogate pair in a formula (Utf16Error). Conversely anything of that sort, anywhere the document reaches, prevents a result; a document with faults of one kind only gets no other error and one without faults gets none. The same holds of tables of contents.", "quantifier": "every byte string, hash iteration order, recursion allowance and file name; every opened store and every object reached in it", "why_tests_cant": "Which of many possible defects an error stands for, and that no reachable defect is passed over in silence, are statements about all documents.", "anchors": ["src/onenote/section.rs: parse_section", "src/onenote/page.rs: parse_page", "src/onenote/page_series.rs: parse_page_series", "src/onenote/outline.rs", "src/onenote/content.rs", "src/onenote/rich_text.rs", "src/onenote/table.rs", "src/onenote/image.rs", "src/onenote/ink.rs", "src/onenote/embedded_file.rs", "src/onenote/notebook.rs: parse_toc", "src/one/property_set/*.rs: parse", "src/one/property/*.rs"]}
{"id": "C84", "title": "Which files open, and why others do not", "statement": "A file opens exactly when it can be taken apart into its elements, nothing in it stands in the way, and no cell that is read leads round in circles of base revisions. What stands in the way is listed without reference to the order of reading: a missing table or root cell; a cell whose revision, base revision or group is missing or which declares an unknown root; an object that has not its two entries, whose kind or property set ends early, or whose references, cells or file do not match; a header that cannot be found or lacks its values. The error returned is always the kind of one of these, the one kind if there is only one; circles give such an error or no result.", "quantifier": "every byte string, hash iteration order and recursion allowance", "why_tests_cant": "That the listed obstacles are all there are, and that none is passed over, is an equivalence over all files.", "anchors": ["src/onestore/mod.rs: parse_store, parse_object_space, find_header_cell_id, find_data_root_cell_id", "src/onestore/object_space.rs: ObjectSpace::parse", "src/onestore/revision.rs: Revision::parse, parse_group", "src/onestore/object.rs: Object::parse", "src/onestore/header.rs: StoreHeader::parse", "src/onestore/revision_role.rs", "src/fsshttpb/data_element/mod.rs: find_objects"]}
{"id": "C85", "title": "What becomes of a section file: read, refused, crashed or endless", "statement": "A file is read as a section exactly when it opens, says that it is a section, none of the objects looked at is at fault, none of the lists looked at has a number format without room for its length and none of the paragraphs too few references for its ink, and no object looked at leads back to itself. The reading crashes only because of such a list or paragraph. It has a result, the same for every larger recursion allowance, unless revisions or objects lead round in circles; an allowance of two for each object of a page's space, and one, suffices. If only one of the obstacles is present it decides: the one kind of error, the crash, or no result whatever the allowance. A table of contents never crashes and is read exactly when nothing in it is at fault and no entry leads back to itself.", "quantifier": "every byte string, hash iteration order, file name and recursion allowance; every object space for tables of contents", "why_tests_cant": "It divides all files by what happens to them; tests only show single files, and never that a reading does not end.", "anchors": ["src/onenote/mod.rs: parse_section_buffer", "src/onenote/section.rs: parse_section", "src/onenote/outline.rs: parse_outline_item, parse_outline_element", "src/onenote/content.rs: parse_content", "src/onenote/table.rs: parse_table", "src/onenote/list.rs: parse_list", "src/onenote/rich_text.rs: parse_rich_text", "src/onenote/notebook.rs: parse_toc"]}
{"id": "C86", "title": "What becomes of a notebook: read, refused, crashed or endless", "statement": "parse_notebook returns a notebook exactly when nothing is wrong with the tables of contents the notebook is made of or with anything they name, none of the section files they name makes the reading crash, nothing in any of these files leads round in circles (revisions, objects of a page, entries of a table of contents), and the section groups are nested only to some depth. The call crashes only because of a section file of the notebook. It has a result, always the same from some recursion allowance on, unless something leads round in circles or groups contain groups without end; it needs as many levels as there are. If there is only one kind of obstacle, it decides: that kind of error, the crash, or no result whatever the allowance. The same holds for a single section file given by its path.", "quantifier": "every file system, name sanitiser, hash iteration order, path, nesting depth and recursion allowance", "why_tests_cant": "It divides all directories by what happens to them; tests show single directories, and never that a call does not end.", "anchors": ["src/onenote/mod.rs: parse_notebook, parse_section, parse_section_group, resolve_entry_path", "src/onenote/notebook.rs: parse_toc"]}
{"id": "C87", "title": "Why reading a notebook fails while its files change", "statement": "Whatever other programs do to the files during parse_notebook, an error has its reason in one of the tables of contents of the notebook or in something they name, as it was at some moment of the call: every kind of obstacle of C68, each fact at its own moment. A crash has its reason in a section file of the notebook that at some moment of the call held a section whose reading crashes. If no file of the notebook ever leads round in circles and section groups are never nested beyond some level, the call has a result, the same from some recursion allowance on. If nothing changes these are exactly the obstacles of C68 and C86. There need not be one moment to blame: reading can fail although at every moment the notebook could be read.", "quantifier": "every history of file systems (an arbitrary file system at every question of the call), name sanitiser, hash iteration order, path, nesting depth and recursion allowance", "why_tests_cant": "It is about every interleaving of the call with arbitrary changes; a test would have to hit particular moments.", "anchors": ["src/onenote/mod.rs: parse_notebook, parse_section, parse_section_group, resolve_entry_path, read"]}
{"id": "C88", "title": "GUIDs as texts", "statement": "Guid::from_str accepts exactly the documented texts of a GUID - 32 digits, the hyphenated form, that form in braces or after urn:uuid:, digits in either case - and returns the number they denote; every other text is refused with InvalidUuid and none crashes. The text displayed for a GUID is the one in braces, hyphenated, in capitals, and nothing else; reading it gives the same GUID, so different GUIDs have different texts. A GUID stored in a file is displayed as its fields: three little-endian numbers, then byte by byte. Every GUID written out in the program is accepted, so that the guid! macro never panics.", "quantifier": "every text, every 128-bit GUID, every 16 stored bytes, every literal of the program", "why_tests_cant": "There are 2^128 GUIDs and unboundedly many texts; the exact set of accepted texts is a statement about all of them.", "anchors": ["src/shared/guid.rs: Guid::from_str, Display for Guid, Guid::parse", "src/macros.rs: guid!", "src/errors.rs: From<uuid::Error>"]}
{"id": "C89", "title": "One result in every process", "statement": "Reading the same determined file (at most one storage manifest, a determined storage index, no serial number shared by two revisions) gives the same section in every process, whatever the random order of the hash tables: the same section after the same number of steps, a crash exactly when every other process crashes, and, where the store can be built, the same error. The same holds for section files and for whole notebooks of such files, even if each file that is opened (also one opened twice) has its tables in an order of its own. Refuted in general: that a determined file which one process rejects is rejected by all - another process may read it for ever.", "quantifier": "all byte sequences that are determined, all file systems of such files, all pairs of hash orders, all sequences of hash orders, all paths, all numbers of steps and depths", "why_tests_cant": "The order of hash tables is random per process and table; a test sees a few of the exponentially many orders.", "anchors": ["src/onenote/mod.rs: Parser::parse_notebook, Parser::parse_section, Parser::parse_section_buffer", "src/onestore/mod.rs: parse_store", "src/fsshttpb/data_element/mod.rs: DataElementPackage"]}
{"id": "C90", "title": "How deep a document nests and how many steps decide", "statement": "The number of calls of the reader that must be open at once (its stack) to read a page can be read off the finished page: with that many the page is read, with fewer it is not. It is at most two for each level of nesting (groups, elements, tables, rows, cells) and one, and a page never has more levels than its object space has objects nor than the file has bytes. So 2*n+1 open calls decide what becomes of a section buffer or file of n bytes: whatever result it ever has it has then, and if it has none then it never has one; the same for a notebook whose files have at most n bytes. No fixed number is enough for all files: for every k there is a readable file whose page has k+1 levels and that k open calls cannot read.", "quantifier": "all byte sequences, hash orders, object spaces, file systems, folder depths and numbers of steps; all k below 2^31", "why_tests_cant": "Whether a recursion ends, and how deep it goes, must be settled for every file; a test sees a single depth.", "anchors": ["src/onenote/outline.rs: parse_outline_item, parse_outline_element", "src/onenote/content.rs: parse_content", "src/onenote/table.rs: parse_table", "src/onenote/page.rs: parse_page", "src/onestore/revision.rs: RevisionManifest", "src/onenote/mod.rs: Parser::parse_section_buffer, Parser::parse_section, Parser::parse_notebook"]}
{"id": "C91", "title": "One result on every target", "statement": "A file that is shorter than the memory, is not cut off, and whose objects announce fewer references than a usize can count gives the same section, notebook or error on targets with a usize of any width, in release and in debug builds. On a 64-bit target this holds for every file of less than 4 GiB, whatever it holds: no sum overflows and no length is cut. On a 32-bit target it does not hold for all files: a length of 2^32+3 is taken for 3, so a file that a 64-bit reader refuses as cut off can be read; and counts of references that sum to 2^32 make a release build read another section, without an error, while a debug build panics.", "quantifier": "all byte sequences, hash orders, file systems, steps and folder depths; all widths of usize, with and without overflow checks", "why_tests_cant": "Tests run on the machine of the developer; the difference needs another width of usize and a crafted count in the file.", "anchors": ["src/fsshttpb/data/binary_item.rs: BinaryItem::parse", "src/fsshttpb/data_element/data_element_fragment.rs: DataElement::parse_fragment", "src/fsshttpb/packaging.rs: OneStorePackaging::parse_packaging", "src/one/property/object_reference.rs: ObjectReference::count_references", "src/one/property/object_space_reference.rs: ObjectSpaceReference::count_references", "src/onenote/mod.rs: Parser::parse_section_buffer, Parser::parse_section, Parser::parse_notebook"]}
{"id": "C92", "title": "Opening a file takes bounded work", "statement": "For every input, whether it is accepted or rejected, the number of steps is bounded by the number n of its bytes, whatever counts and lengths the file announces: taking the container apart takes at most 4n + 4 steps, taking the data of one object apart at most 4n + 1 steps, and opening the store (container, revisions, groups, objects, all spaces) at most (n + 2)^3 steps, unless it follows revisions that come round and so does not end. A step is a call of the byte reader, a look at the next byte, or a finished turn of a loop.", "quantifier": "all byte sequences, hash orders and amounts of fuel", "why_tests_cant": "Tests measure the time of some files; whether a crafted file of a few kilobytes can keep the reader busy for hours is a question about all files.", "anchors": ["src/reader.rs: Reader", "src/fsshttpb/packaging.rs: OneStorePackaging::parse", "src/fsshttpb/data_element/mod.rs: DataElementPackage::parse", "src/onestore/object_prop_set.rs: ObjectPropSet::parse", "src/onestore/mod.rs: parse_store", "src/onestore/object_space.rs: ObjectSpace::parse", "src/onestore/revision_role.rs", "src/onestore/object.rs: Object::parse"]}
{"id": "C93", "title": "On Unix the spelling of a path does not matter, and entries stay below the directory as texts", "statement": "With paths as the texts that are given to the operating system: a notebook or section is read as if its path were taken apart into components, so two texts with the same components (doubled separators, '.' between separators) give the same result. The text of the directory of a table of contents is the beginning of the text of that table. Every text made from an entry is the text of the directory, one separator, and the names of the entry joined by single separators; none of these names is empty, '.', '..' or contains a separator, and the sanitiser leaves each alone. What exists there has a canonical path below that of the directory.", "quantifier": "all texts, entries, file systems (C93_entry, C93_directory) and file systems that take plain texts apart (the others), sanitisers, hash orders and amounts of fuel", "why_tests_cant": "Tests open a few paths; joining, taking the parent and trimming texts has many corner cases (root, '.', repeated separators) and an entry is chosen by the author of the file.", "anchors": ["src/onenote/mod.rs: Parser::parse_notebook", "src/onenote/mod.rs: Parser::parse_section", "src/onenote/mod.rs: Parser::parse_section_group", "src/onenote/mod.rs: resolve_entry_path"]}
{"id": "C94", "title": "The text of an error names the file that was given or one below its directory, and determines the error", "statement": "On Unix: the path in an error of parse_notebook is the path the caller gave, letter for letter, when that file is not a table of contents, and otherwise the text of its directory, one separator, and names none of which is empty, '.', '..' or contains a separator; the path in an error of parse_section and parse_section_buffer is the path or file name the caller gave. The public Error type shows only its text: two errors of the parser with the same text are of the same kind, name the same path and, for a bad path, have the same problem (and the same offending name), whatever text the operating system and the layers below contribute.", "quantifier": "all texts, file systems, contents of files, sanitisers, hash orders and amounts of fuel; for the place of the path, file systems whose directory listings have proper names; for the components of C78, file systems that take plain texts apart", "why_tests_cant": "Tests compare the message of a few failures; that no two kinds of failures can be confused, and that the path shown is never built from anything but the given path and proper names, holds for every input.", "anchors": ["src/errors.rs: ErrorKind", "src/errors.rs: Error", "src/onenote/mod.rs: Parser::parse_notebook", "src/onenote/mod.rs: Parser::parse_section", "src/onenote/mod.rs: Parser::parse_section_buffer", "src/onenote/mod.rs: Parser::parse_section_group", "src/onenote/mod.rs: resolve_entry_path"]}
{"id": "C95", "title": "Paths are bytes on Unix: Unicode paths behave as texts, other paths are read too and shown with replacement characters", "statement": "On Unix a path is any sequence of bytes. If it and the names in the file system are UTF-8, notebooks and sections are read, and errors made, exactly as with texts. A notebook in any directory, Unicode or not: the path made from an entry is the bytes of the directory, one separator and the UTF-8 of the entry's names, and the section or group shown for it has exactly the last of these names. No error ever says that an entry is not Unicode. The path in an error is the given path or one below its directory, decoded: decoding gives a Unicode text for every path, the right one if there is one, and otherwise one that contains U+FFFD.", "quantifier": "all byte sequences, Unicode entries, file systems over bytes (for Unicode paths: those that answer for UTF-8 as a file system over texts does; for errors: with proper names in listings and bytes in files), sanitisers, hash orders and amounts of fuel", "why_tests_cant": "File names that are not UTF-8 are rare in tests; that the byte-wise handling of separators and dots never cuts a character, and that nothing is replaced in the name of a section, must hold for every name.", "anchors": ["src/onenote/mod.rs: Parser::parse_notebook", "src/onenote/mod.rs: Parser::parse_section", "src/onenote/mod.rs: Parser::parse_section_buffer", "src/onenote/mod.rs: Parser::parse_section_group", "src/onenote/mod.rs: resolve_entry_path"]}
{"id": "C96", "title": "The program for any command line: what it prints and when it panics", "statement": "onenote-parse, started with any arguments (sequences of bytes): it prints something exactly when there are at least two arguments (its own name and a path), both are Unicode, and the library reads the path, as a notebook if its file name ends in '.onetoc2' and as a section otherwise; it prints what the library returns. Without two Unicode arguments it panics, whatever the files hold; further arguments make no difference, even if they are not Unicode; it never ends with an error value, failures are panics. So a notebook in a directory whose name is not Unicode can be read with the library and not with the program (C96_example).", "quantifier": "all lists of arguments, file systems over bytes, sanitisers, hash orders and amounts of fuel", "why_tests_cant": "Tests run the program on a few command lines; that no other command line makes it print or read something, and that the rest of the command line is ignored, is about all of them.", "anchors": ["src/bin/onenote-parse.rs: main"]}
{"id": "C97", "title": "Notebooks on Windows", "statement": "On Windows, with paths as texts ('/' and '\\' separate, drive letters, push): if a directory holds the same files under the same names as a directory on Unix, a table of contents in it is parsed to the same notebook, or fails with the same error, as on Unix, provided no table of contents there lists a name with a backslash; a section file is always parsed to the same section. Without the proviso, what Unix does not refuse with InvalidPath is the same on Windows; a name such as 'a\\a.one' is a file in a directory on Windows and refused on Unix (C97_same_refuted). The result does not depend on any file outside the directory of the table of contents, links followed, other than what names ending in '.onetoc2' lead to; and parsing ends if the depth of existing paths is bounded.", "quantifier": "all directories and their spellings, table-of-contents and section files, disks, sanitisers that let no separator and no colon pass, hash orders, depths and amounts of fuel; paths that do not begin with two separators", "why_tests_cant": "Tests run on one platform, on a few directories; that the two path libraries lead to the same notebook whatever the tables of contents list, and that no listed name on Windows leads outside, is about all of them.", "anchors": ["src/onenote/mod.rs: Parser::parse_notebook, parse_section, parse_section_group, resolve_entry_path"]}
{"id": "C98", "title": "What is looked up while a section is made", "statement": "Making a section from an opened file uses nothing of it but the objects and page spaces it looks up: a store that answers these look-ups alike gives the same section or the same error, by the same look-ups. Every part of the resulting pages was looked up. If no object of a page's space is listed twice as a part, and none is part of itself, the look-ups for the page are at most 3 + w(2w + 6), where w counts the properties, bytes and references of the space, whether the page can be read or not; if this holds for all spaces of a file of n bytes, parse_section_buffer makes at most 2(n + 2)^4 look-ups; and there are such files of 400(k + 15) bytes, k < 2^22, whose document has k^4 strokes, each looked up (C98_reached). Without it, there are files of 320k + 5000 bytes for which it makes 2^k (C98_shared_refuted).", "quantifier": "all files, stores, hash orders, file names and amounts of fuel, all outcomes including errors", "why_tests_cant": "Tests measure a few files. That nothing else is read, and that no file whose objects form trees makes the parser do more than polynomially many look-ups, is about all files.", "anchors": ["src/onenote/section.rs: parse_section", "src/onenote/page_series.rs: parse_page_series", "src/onenote/page.rs: parse_page", "src/onenote/outline.rs: parse_outline_item, parse_outline_element", "src/onenote/content.rs: parse_content", "src/onenote/rich_text.rs: parse_rich_text", "src/onenote/ink.rs: parse_ink_data", "src/onestore/object_space.rs: ObjectSpace::get_object"]}
{"id": "C99", "title": "What the accessors report", "statement": "Start at a section returned by parse_section, parse_section_buffer or, through entries() of notebooks and section groups, by parse_notebook, and follow accessors any number of steps: page_series, pages, title, contents, outline, items, element, children, list_contents, rich_text, table, image, embedded_file, ink, ink_strokes, path, note_tags, definition, text_run_formatting, embedded_objects and so on. Whatever is reached, every attribute its accessors report is the value of the documented property of an object of the documented kind in the file the section was read from (or its default if the property is absent); every list has as many elements as the file has references there; and at most one of the accessors that pick a variant answers, the one for the kind of the object.", "quantifier": "all files, file names, hash orders, file systems and notebooks; all sequences of accessor calls of any length; all values reached", "why_tests_cant": "There are about 180 accessors and unboundedly many paths through a document; two exchanged fields, or a property read from the wrong place, show only in files that store different values there.", "anchors": ["src/onenote/section.rs: Section, SectionGroup, SectionEntry", "src/onenote/page.rs: Page, Title", "src/onenote/page_content.rs: PageContent", "src/onenote/outline.rs: Outline, OutlineItem, OutlineGroup, OutlineElement", "src/onenote/content.rs: Content", "src/onenote/table.rs: Table, TableRow, TableCell", "src/onenote/image.rs: Image", "src/onenote/embedded_file.rs: EmbeddedFile", "src/onenote/ink.rs: Ink, InkStroke, InkPoint, InkBoundingBox", "src/onenote/rich_text.rs: RichText, ParagraphStyling, EmbeddedObject", "src/onenote/list.rs: List", "src/onenote/note_tag.rs: NoteTag, NoteTagDefinition", "src/onenote/math_inline_object.rs: MathInlineObject", "src/one/property/color.rs: Color", "src/one/property/layout_alignment.rs: LayoutAlignment", "src/one/property/note_tag.rs: ActionItemStatus", "src/one/property/note_tag_property_status.rs: NoteTagPropertyStatus"]}
{"id": "C100", "title": "How large a section can be", "statement": "What a section returned by parse_section_buffer holds (its parts, the characters of its texts, the bytes of its images and files, the points of its drawings, its tags, styles and list numbers) is at most eight times what the objects hold that were looked up while it was made, counted as often as they were, apart from a name that is taken from the file name. No look-up brings more than the file has. If no object of a page's space is listed twice, a file of n bytes gives a section of at most 16 (n + 2)^5. This power is reached: for every k below 2^22 a file of 400 (k + 15) bytes, of such spaces, gives a section with k^5 points. If objects may be listed twice the size can be exponential in the length of the file.", "quantifier": "all files, file names, hash orders and fuel; all k", "why_tests_cant": "Files that multiply do so by sharing at several levels at once; a bound is a statement about every way to share, and no sample shows that there is no worse one.", "anchors": ["src/onenote/mod.rs: Parser::parse_section_buffer", "src/onenote/section.rs: parse_section", "src/onenote/page_series.rs: parse_page_series", "src/onenote/page.rs: parse_page", "src/onenote/outline.rs: parse_outline_item", "src/onenote/ink.rs: parse_ink_stroke, parse_ink_path", "src/onenote/image.rs: parse_image", "src/onenote/rich_text.rs: parse_rich_text", "src/onestore/object_space.rs: ObjectSpace::get_object"]}
{"id": "C101", "title": "How many sections a notebook can have", "statement": "If no object of a table of contents is listed twice and no folder contains itself, the table gives no more names than it has objects and the notebook has no more entries than the table of contents has bytes. If every file read is at most n bytes long and section groups are nested less than d deep, the notebook has at most n^d sections in all. Reading it, while nothing changes, opens files at most 1 + (2n)^d times. Any call, also one that fails and also while files change, asks the file system at most 7 (2n)^d questions. If moreover no object of a page is listed twice and file names have at most m characters, all that the notebook holds (parts, characters, bytes, points, group names) is at most (2n)^d (1 + m + 16 (n + 2)^5). Without the first condition the bound fails: a folder listing another one twice, level after level, gives a directory of three short files whose notebook has 2^(k+1) entries at 320 bytes a level. The bound n^d is reached but for a constant factor of n: for every k below 2^22 a table of contents of 320 k + 3200 bytes that is a tree gives k^(j+1) sections in directories nested j deep. And the exponent d is needed even for one short table of contents: one naming the directory inside as \"a\" and as \"./a\", repeated in every directory, gives 2^(k+1) sections k directories deep.", "quantifier": "every file system, path, table of contents, nesting depth, file-name sanitiser and hash order", "why_tests_cant": "The bounds hold for every directory tree and every table of contents; the counterexamples are families with one member for each k.", "anchors": ["src/onenote/mod.rs: Parser::parse_notebook, resolve_entry_path, parse_section_group", "src/onenote/notebook.rs: parse_toc, parse_toc_entry", "src/one/property_set/toc_container.rs: parse"]}
