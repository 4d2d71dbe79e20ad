{"id": "C01", "title": "Load-save-load fidelity", "statement": "If GvasFile::read_with_hints accepts some bytes and yields a file value, then GvasFile::write of that value succeeds, and reading the written bytes again with the same hints yields exactly the same value (same header, same properties in the same order, same float bit patterns), as long as the written file is smaller than 4 GiB and no two keys of a map that are equal only up to the order of struct fields collide in the hash table of the second read. The last condition is necessary: such keys compare equal but hash differently, so whether they are merged depends on the random hash seed.", "quantifier": "every byte string, every hint table, both build profiles, every destination state and container mode, every hashing behaviour of the first read", "why_tests_cant": "Tests only replay ~20 sample saves; the claim ranges over every accepted input, including nestings, re-encoded strings, duplicate keys, unknown property types and custom versions no sample contains.", "anchors": ["src/lib.rs: GvasFile::read_with_hints, GvasFile::write", "src/properties/mod.rs: Property::new, PropertyTrait::write"]}
{"id": "C02", "title": "Save-load round trip, exactly for representable files", "statement": "Writing a file value and reading the bytes back with given hints returns that same value if and only if the value is representable: integers in range, strings at most 131071 units, header versions in the supported window, containers in the form their constructors build, struct values matching their type name and the large-world-coordinates version, no property named None, no empty repeated field, hints present for untyped structs, and so on (spec: wf_file).", "quantifier": "every file value (all nestings, all sizes), every hint table", "why_tests_cant": "The set of values is infinite and nested; tests pick a handful of values and cannot show the side conditions are both sufficient and necessary.", "anchors": ["src/lib.rs: GvasFile::write, GvasFile::read_with_hints", "src/properties/*.rs: read/write of every property type"]}
{"id": "C03", "title": "Saving is canonical", "statement": "Saving is a fixed point after one load: for accepted bytes b, save(load(save(load b))) = save(load b) byte for byte; and two file values that can both be read back from their own saved bytes and save to the same bytes are equal.", "quantifier": "every accepted byte string; every pair of representable file values", "why_tests_cant": "Idempotence and injectivity relate pairs of unbounded inputs; no finite set of samples settles either.", "anchors": ["src/lib.rs: GvasFile::read_with_hints, GvasFile::write"]}
{"id": "C04", "title": "A truncated save is never accepted as something else", "statement": "If bytes b are accepted and the parser stops k bytes before the end, then for every n: reading the first n bytes of b returns the same file if n >= |b|-k, and otherwise fails with an unexpected-end-of-file I/O error - it never succeeds with partial data, never reports a different error and never panics.", "quantifier": "every accepted byte string and every truncation point (crash point of whoever wrote the file)", "why_tests_cant": "Each accepted file has as many crash points as bytes and the property relates all of them; tests check none or a few.", "anchors": ["src/lib.rs: GvasFile::read_with_hints", "src/cursor_ext.rs: ReadExt"]}
{"id": "C05", "title": "Bytes after the terminator are ignored", "statement": "A read that gets an answer other than unexpected-end-of-file gets the same answer (same value, same error with the same position, same panic) when arbitrary bytes are appended to the input; in particular the four padding bytes and anything after the closing None never influence the result. An accepted Palworld container is still read as the same file, or, only when compressed twice and the decoder does not take a cut stream for an error, refused with an I/O error; never as another file.", "quantifier": "every input and every appended suffix; for containers every zlib decoder that ignores what follows the end of its stream and, given more input, delivers at least what it delivered before, whether or not it reports cut streams", "why_tests_cant": "Universally quantified over suffixes; needs that no code path looks at the input length.", "anchors": ["src/lib.rs: GvasFile::read_with_hints"]}
{"id": "C06", "title": "Reading always terminates", "statement": "For every input the reader reaches an answer (value, error or panic) after a number of nested and repeated steps bounded by the input length plus declared element counts: the name/value loops of files and custom structs and the mutual recursion of properties, structs and texts cannot run forever.", "quantifier": "every byte string, hint table and build profile", "why_tests_cant": "Termination is a statement about all inputs; fuzzing can only fail to find a hang.", "anchors": ["src/lib.rs: read_with_hints loop", "src/properties/mod.rs: Property::new", "src/properties/struct_property.rs: read_custom", "src/properties/text_property.rs: FText::read"]}
{"id": "C07", "title": "String codec round trip", "statement": "A string (or null string) written with write_fstring is read back by read_fstring unchanged, consuming exactly the bytes written, if and only if its encoded length including terminator is at most 131072 units; longer strings are written without complaint and then rejected on reading.", "quantifier": "every Unicode string of every length, at every stream position and with any following bytes", "why_tests_cant": "Ranges over all scalar values including surrogate-pair encodings and lengths at the 131072 boundary.", "anchors": ["src/cursor_ext.rs: read_fstring, read_string, write_string, write_fstring"]}
{"id": "C08", "title": "String reader accepts exactly the well formed encodings", "statement": "read_fstring succeeds exactly when the input starts with a 4-byte length in -131072..=131072 followed by that many units ending in a zero unit and holding valid UTF-8 (positive) or UTF-16 (negative); an out-of-range length is reported as InvalidString with that length and the start position, before anything else is read; the result contains only Unicode scalar values and at most 131071 units.", "quantifier": "every input and stream position", "why_tests_cant": "Needs the decoder's accept set over all byte strings, not samples.", "anchors": ["src/cursor_ext.rs: read_fstring"]}
{"id": "C09", "title": "Which strings keep their bytes across load and save", "statement": "Re-encoding a decoded string reproduces the original bytes exactly when the original used the canonical form: one byte per unit for pure ASCII, UTF-16 otherwise. A non-ASCII UTF-8 string or an ASCII UTF-16 string changes representation but not value.", "quantifier": "every accepted string encoding", "why_tests_cant": "Equivalence over all encodings; the shipped samples only contain canonical ones.", "anchors": ["src/cursor_ext.rs: read_fstring, write_string"]}
{"id": "C10", "title": "Header round trip", "statement": "GvasHeader::write followed by GvasHeader::read gives back the same header (custom versions in the same order) and stops right after it, for every header whose versions are in the supported window; GvasHeader::read followed by write and read is the identity on accepted headers.", "quantifier": "every header value and every following byte string", "why_tests_cant": "Unbounded custom version lists and strings.", "anchors": ["src/lib.rs: GvasHeader::read, GvasHeader::write", "src/engine_version.rs: FEngineVersion", "src/custom_version.rs: FCustomVersion"]}
{"id": "C11", "title": "Header acceptance window", "statement": "GvasHeader::read succeeds only if the magic is GVAS, the save version is 2 or 3, the package version is in 0x205..=0x20D, the UE5 package version (present exactly for save version 3) is in 1000..=1009 and the custom version format is 3; each violation yields InvalidHeader naming that field and value.", "quantifier": "every byte string", "why_tests_cant": "Statement over all 2^32 values of each field in combination.", "anchors": ["src/lib.rs: GvasHeader::read"]}
{"id": "C12", "title": "Header reading never panics", "statement": "GvasHeader::read returns Ok or Err on every input, never panics.", "quantifier": "every byte string", "why_tests_cant": "Absence of panics over all inputs.", "anchors": ["src/lib.rs: GvasHeader::read"]}
{"id": "C13", "title": "Declared sizes are enforced", "statement": "If a property with a header of a size-checked kind is accepted then the number of value bytes consumed equals the size declared in its header (and for arrays of structs also the inner size field); changing the declared size of an accepted property makes it rejected or, for the kinds that use the size, never accepted with a different amount of data. ByteProperty is the only kind whose declared size is not enforced.", "quantifier": "every accepted property of every kind", "why_tests_cant": "Relates two runs of the parser over unbounded nested input.", "anchors": ["src/properties/mod.rs: impl_read_header", "src/properties/array_property.rs: read_body", "src/properties/int_property.rs: check_size, ByteProperty::read"]}
{"id": "C14", "title": "Written sizes are exact", "statement": "Every property written with a header carries, after its type name, the exact number of value bytes that follow its header, so a consumer can skip any property using only the size field; likewise for the inner size of struct arrays. Holds for value parts below 4 GiB.", "quantifier": "every property value", "why_tests_cant": "All nestings; sizes are computed through nested buffers.", "anchors": ["src/properties/mod.rs: impl_write", "src/properties/array_property.rs: write_body"]}
{"id": "C15", "title": "Unknown property types survive verbatim", "statement": "A property with a type name the library does not know is kept as raw bytes and written back byte for byte, at top level, in structs, and as elements of arrays and sets.", "quantifier": "every unknown type name and payload, every container count", "why_tests_cant": "All type names and payloads, and all ways of dividing an array payload evenly.", "anchors": ["src/properties/unknown_property.rs", "src/properties/mod.rs: Property::new"]}
{"id": "C16", "title": "Large world coordinate gating", "statement": "Vector, Vector2D, Rotator and Quat values are read as double precision exactly when the file's FUE5ReleaseStream custom version is at least LargeWorldCoordinates, else single precision, and writing a value of the wrong precision for the file's versions fails with a serialization error instead of emitting bytes that would be misread.", "quantifier": "every custom version table and every struct value", "why_tests_cant": "Interaction of an arbitrary version table with every nested struct.", "anchors": ["src/properties/struct_property.rs: read_vector.., write_body", "src/properties/mod.rs: PropertyOptions::supports_version"]}
{"id": "C17", "title": "Text version gating", "statement": "Format arguments are 64 bit exactly when the file's versions say so, culture-invariant strings are present exactly when the editor version says so, and writing an integer format argument of the wrong width never emits bytes (it panics); the only silent loss is a culture-invariant string written to a file whose version does not support it.", "quantifier": "every custom version table and every text value, arbitrarily nested", "why_tests_cant": "Recursive texts and arbitrary version tables.", "anchors": ["src/properties/text_property.rs: FTextHistory, FormatArgumentValue"]}
{"id": "C18", "title": "Array constructor is lossless", "statement": "ArrayProperty::new never changes the data: whenever it succeeds, the array it builds has the given element type, the given struct info and exactly the given elements in order, and it serializes to the same bytes as the untyped list of those elements would.", "quantifier": "every element type name, struct info and element list", "why_tests_cant": "All element lists and all fallbacks of the normalisation.", "anchors": ["src/properties/array_property.rs: ArrayProperty::new, write_body"]}
{"id": "C19", "title": "Map constructor is lossless", "statement": "MapProperty::new never changes the data: the map it builds has the given key type, value type, allocation flags and exactly the given entries in order, and serializes to the same bytes as the untyped map of those entries.", "quantifier": "every key/value type, flags and entry list with distinct keys", "why_tests_cant": "All entry lists and all ten specialised representations.", "anchors": ["src/properties/map_property.rs: MapProperty::new, write_body"]}
{"id": "C20", "title": "Map order and duplicate keys", "statement": "Reading a map keeps entries in file order; a repeated key keeps the position of its first occurrence and the value of its last; so a map without repeated keys is read without loss and one with repeated keys has one entry per distinct key. Keys equal only up to struct field order may or may not be merged, depending on hash collisions.", "quantifier": "every sequence of entries", "why_tests_cant": "Sequences of any length with any duplication pattern.", "anchors": ["src/properties/map_property.rs: read_body", "src/types.rs: HashableIndexMap"]}
{"id": "C21", "title": "Top-level names: last value wins", "statement": "In a file whose property list repeats a name, the resulting property map has one entry per distinct name, at the position of the first occurrence and with the value of the last; nothing else is dropped or reordered.", "quantifier": "every sequence of top-level properties", "why_tests_cant": "Sequences of any length with any duplication pattern.", "anchors": ["src/lib.rs: read_with_hints"]}
{"id": "C22", "title": "Adding hints never changes a successful read", "statement": "If a file is accepted with some hints, it is accepted with the same result when more hints are supplied; if it fails with anything but MissingHint it fails the same way. A file that parses without hints is unaffected by any hints.", "quantifier": "every input and every pair of hint tables one extending the other", "why_tests_cant": "Relates runs under all pairs of hint tables.", "anchors": ["src/properties/mod.rs: Property::new", "src/lib.rs: read_with_hints"]}
{"id": "C23", "title": "Missing-hint report is exact and actionable", "statement": "A MissingHint error names a path that is absent from the hint table, together with the stream position at which the untyped struct starts; supplying a hint for exactly that path makes the next read get past that point (it never reports that same path again).", "quantifier": "every input and hint table", "why_tests_cant": "Relates runs of the parser before and after changing the hints, on all inputs.", "anchors": ["src/properties/mod.rs: Property::new"]}
{"id": "C24", "title": "The property path is restored after every property", "statement": "Reading a property, struct or map entry leaves the location stack exactly as it was, so the path used for hints is always the chain of names and types enclosing the current struct.", "quantifier": "every property read, at every nesting depth", "why_tests_cant": "Invariant over all executions of a mutable stack guarded by scope objects.", "anchors": ["src/scoped_stack_entry.rs", "src/properties/mod.rs: Property::new", "src/properties/map_property.rs: read_body"]}
{"id": "C25", "title": "Custom version lookup", "statement": "A version requirement is met exactly when the last entry for that GUID in the header is at least the required number; files without an entry count as version 0.", "quantifier": "every custom version list, with duplicates", "why_tests_cant": "Unbounded lists.", "anchors": ["src/properties/mod.rs: get_custom_version, supports_version", "src/lib.rs: GvasHeader::read"]}
{"id": "C26", "title": "Palworld container round trip", "statement": "For each of the three compression modes, a representable file written in that mode is read back unchanged with GameVersion::Palworld, provided zlib decompression inverts compression; the mode itself is preserved.", "quantifier": "every representable file below 4 GiB, every mode, every zlib implementation meeting the contract", "why_tests_cant": "All payloads, all stream positions.", "anchors": ["src/lib.rs: read_with_hints, write", "src/game_version.rs"]}
{"id": "C27", "title": "Palworld framing fields", "statement": "The written container is 4-byte decompressed length, 4-byte length, PlZ, mode byte, payload. The first field is the exact decompressed length; the second always equals the number of payload bytes plus 4 (the shipped sample has exactly the number of payload bytes).", "quantifier": "every file, mode and start offset of the output stream", "why_tests_cant": "Exact arithmetic for all payloads and stream offsets.", "anchors": ["src/lib.rs: GvasFile::write"]}
{"id": "C28", "title": "Failed saves leave the destination untouched", "statement": "If the value cannot be serialized, GvasFile::write returns the error without having written to, or moved, the destination stream; if it succeeds, the bytes before the start position and after the end of the written region are unchanged and the stream is positioned right after the written region.", "quantifier": "every file value, every prior content and position of the destination, every mode", "why_tests_cant": "Quantifies over destination states and all failing values.", "anchors": ["src/lib.rs: GvasFile::write"]}
{"id": "C29", "title": "Short writes", "statement": "On a destination that may accept only part of each write call, GvasFile::write still delivers every byte in order, whatever the schedule of short writes; GvasHeader::write used directly on such a destination may silently drop part of an ASCII string.", "quantifier": "every schedule of partial writes", "why_tests_cant": "Schedules are infinite objects; Cursor<Vec<u8>> used by tests never writes short.", "anchors": ["src/lib.rs: GvasFile::write, GvasHeader::write", "src/cursor_ext.rs: write_string"]}
{"id": "C30", "title": "Guid conversions", "statement": "The byte, four-u32 and u128 views of a Guid are mutually inverse bijections consistent with little-endian order, and is_zero holds exactly for the all-zero Guid.", "quantifier": "every Guid, every [u32;4], every u128", "why_tests_cant": "2^128 values.", "anchors": ["src/types.rs: Guid"]}
{"id": "C31", "title": "Guid text form", "statement": "Parsing the printed form of any Guid gives it back; parsing accepts exactly (ignoring dashes, surrounding white space and one pair of braces) the text 0 or sixteen two-character groups each being two hex digits or a plus sign and one hex digit; it panics exactly when the cleaned text is 32 bytes long with a multi-byte character straddling a group boundary before any bad group.", "quantifier": "every Guid and every string", "why_tests_cant": "All Unicode strings.", "anchors": ["src/types.rs: Display for Guid, FromStr for Guid"]}
{"id": "C32", "title": "Equality and hashing of values", "statement": "Property equality is an equivalence relation (symmetry needs maps without repeated keys, which holds of every value the library can build) that ignores field order inside custom structs and identifies equal floats (NaN with NaN, 0 with -0): two values without repeated keys are equal exactly if one becomes identical to the other, up to the bits of NaNs and the sign of zero, after reordering entries of maps at any depth; the lookups by hash with which maps keyed by properties are compared never find more than that, find at least identical keys, and make no difference if no key holds anything that can be reordered; hashing agrees with equality only up to that order: two equal custom structs with fields in different order hash differently, violating the Hash contract, while values that differ only in float representation hash equally.", "quantifier": "every pair of property values", "why_tests_cant": "Relations over an infinite recursive type.", "anchors": ["src/types.rs: HashableIndexMap Hash, PartialEq", "src/properties/mod.rs: derive(PartialEq, Eq, Hash)"]}
{"id": "C33", "title": "Byte counts returned by write", "statement": "The usize returned by the write functions differs from the number of bytes written by exactly: n+1 too much per ASCII string of n characters, n-4 too much per gameplay tag container of n tags, and 17 too little per NameProperty written with a header. So it is exact for values without these, over-reports strings, and can under-report a NameProperty. No size stored in the file depends on these counts.", "quantifier": "every value", "why_tests_cant": "Exact arithmetic over all values.", "anchors": ["src/cursor_ext.rs: write_string", "src/properties/mod.rs: impl_write", "src/properties/struct_property.rs: write_body"]}
{"id": "C34", "title": "Where reading can panic", "statement": "Reading can panic only at: a nonzero separator or array index of a scalar, byte or unknown property, an array of structs whose inner type is not StructProperty, an unsupported text history or format argument kind, a negative element count, and - in debug builds only - a byte property or set whose declared size underflows or a repeated struct field with the wrong index. Each of these is reachable. Reading back anything the library wrote, or any truncation of it, never panics.", "quantifier": "every input and build profile", "why_tests_cant": "Absence of panics over all inputs outside the listed sites; reachability of each.", "anchors": ["src/properties/int_property.rs", "src/properties/unknown_property.rs", "src/properties/text_property.rs", "src/properties/set_property.rs", "src/properties/struct_property.rs: insert_property"]}
{"id": "C35", "title": "Error positions lie inside the input", "statement": "Every position reported in a read error is between 0 and the input length. Reading a plain file never reports an error of the container, of zlib or of saving: it fails with a deserialization error or a short read.", "quantifier": "every input", "why_tests_cant": "All error paths on all inputs.", "anchors": ["src/error.rs: DeserializeError"]}
{"id": "C36", "title": "Input-bounded work except zero-size unknown elements", "statement": "Every element of an accepted container consumes at least one input byte, so the number of elements of a loaded file (all depths, all containers) is bounded by the bytes consumed, except elements of unknown type with computed size zero, which only occur in arrays and sets of unknown element type: a file of fewer than 200 bytes is accepted with any number of such elements up to 2^32-1.", "quantifier": "every accepted container", "why_tests_cant": "Amplification needs a bound over all inputs and a family of witnesses of unbounded size.", "anchors": ["src/properties/array_property.rs: read_body", "src/properties/set_property.rs: read_body", "src/properties/unknown_property.rs: read_with_length"]}
{"id": "C37", "title": "Engine version tables", "statement": "get_version maps (major, minor) to the matching enumerator for 4.0-4.27 and 5.0-5.2 and to UNKNOWN otherwise, injectively on the known range; the editor version table is monotone in the engine version except that the automatic version is mapped above automatic version plus one.", "quantifier": "every (major, minor) pair; every pair of table rows", "why_tests_cant": "2^32 pairs.", "anchors": ["src/engine_version.rs: get_version", "src/custom_version.rs: VERSION_MAPPINGS"]}
{"id": "C38", "title": "Struct fields: grouping and order", "statement": "Reading a custom struct yields, for each distinct field name in order of first occurrence, the list of its values in file order; saving writes each group contiguously. In debug builds a read is accepted only if indices count up from zero.", "quantifier": "every sequence of fields", "why_tests_cant": "Sequences of any length and interleaving.", "anchors": ["src/properties/struct_property.rs: read_custom, insert_property, write_body"]}
{"id": "C39", "title": "Debug and release builds agree", "statement": "Whenever the debug build does not panic, the release build gives the same answer (same value or same error) on the same input; likewise it saves the same bytes or gives the same error. While saving, only the negation of the length of a string is checked: it panics exactly for texts that are not ASCII and have 2^31 - 1 UTF-16 units (modulo 2^32), so never where less than 4 GiB are saved, and never for a loaded file.", "quantifier": "every input, every file", "why_tests_cant": "Relates two builds over all inputs.", "anchors": ["src/properties/struct_property.rs: insert_property", "src/properties/set_property.rs: read_body", "src/properties/int_property.rs: ByteProperty::read", "src/cursor_ext.rs: write_string"]}
{"id": "C40", "title": "Saved size is bounded by loaded size", "statement": "Saving a loaded file produces at most twice the bytes consumed by loading plus 4 bytes of trailer; so any accepted file below 2 GiB satisfies the size condition of C01 and reloads from its own saved bytes. The factor two is approached (non-ASCII text stored as UTF-8 is re-encoded as UTF-16).", "quantifier": "every accepted input", "why_tests_cant": "A resource bound over all inputs.", "anchors": ["src/lib.rs: GvasFile::write", "src/cursor_ext.rs: write_string"]}
{"id": "C41", "title": "The byte format is exactly a stated grammar", "statement": "There is a grammar of save files, written as tables and layouts without reference to readers or writers (headers, strings, all property kinds with and without header, texts, structs, containers), such that loading succeeds with a value exactly on inputs that start with a derivation of that value, and consumes exactly that derivation. Derivations are unambiguous and prefix-free. Saving a representable file emits a derivation followed by four zero bytes; a property is written as its type name followed by a derivation.", "quantifier": "every input, every value, every hint map, every version table", "why_tests_cant": "Round trips cannot tell a correct format from one that reader and writer get wrong in the same way; and acceptance must be decided for all byte strings.", "anchors": ["src/lib.rs: GvasFile::read_with_hints, GvasFile::write", "src/properties/mod.rs: Property::new", "src/properties/*.rs: read, read_body, write, write_body", "src/types/*.rs"]}
{"id": "C42", "title": "JSON round trip is the identity exactly on finite values", "statement": "Turning a file (or a property) whose fields are in the range of their Rust types into JSON values and reading it back gives the identical value if it contains no infinite and no NaN float, and a reported error (never a panic or another value) otherwise. On finite values the conversion is injective. The only proviso is on the hash function: map keys that are equal up to field order must not collide, or be absent.", "quantifier": "every typed file and property, every hash function", "why_tests_cant": "The repository's templates are 85 examples; untagged and flattened serde enums select variants by trial, so a value of one variant might be read as another for some contents.", "anchors": ["src/lib.rs: GvasFile, GvasHeader derive(Serialize, Deserialize)", "src/properties/mod.rs: Property", "src/properties/array_property.rs: ArrayProperty (untagged)", "src/properties/map_property.rs: MapProperty (untagged)", "src/types/mod.rs: Guid serde impls"]}
{"id": "C43", "title": "Loaded files survive the JSON round trip unless a float is not finite", "statement": "For every accepted input, the JSON of the loaded file is well formed and reads back as the identical file (hence saves to the same bytes) exactly when the file contains no infinite and no NaN float; there are accepted files for which it does not.", "quantifier": "every accepted input, game version, hint map", "why_tests_cant": "Needs the invariant that everything the binary reader accepts lies in the domain of the JSON round trip.", "anchors": ["src/lib.rs: GvasFile::read_with_hints", "src/lib.rs: GvasFile derive(Serialize, Deserialize)"]}
{"id": "C44", "title": "Files read from JSON are in range and stable", "statement": "Every file read from well-formed JSON has all integers in the range of their fields, strings of Unicode scalar values, 16-byte guids and no repeated map keys; writing and reading it again gives the same file unless a number overflowed to infinity in a single-precision field, in which case it is rejected.", "quantifier": "every JSON value", "why_tests_cant": "Quantifies over JSON documents that no serializer produced.", "anchors": ["src/lib.rs: GvasFile derive(Deserialize)", "src/properties/*.rs: derive(Deserialize)"]}
{"id": "C45", "title": "JSON output is well formed and ordered", "statement": "The JSON of a typed file has 64-bit integers, finite floats, valid strings and no repeated object key (in particular flattened fields never clash with tags, and distinct guids have distinct texts); it holds the header and then the properties under their names in order, each tagged with the name of its variant.", "quantifier": "every typed file", "why_tests_cant": "Key clashes from flattening depend on combinations of optional fields and contents.", "anchors": ["src/lib.rs: GvasFile, GvasHeader derive(Serialize)", "src/properties/mod.rs: Property", "src/properties/text_property.rs: FText (flatten)", "src/properties/struct_property.rs: StructProperty (flatten)"]}
{"id": "C46", "title": "Reading JSON panics only on guid texts outside ASCII", "statement": "Reading a file from JSON never panics unless some string or key of the document makes Guid::from_str panic, and such a string contains a non-ASCII character; the JSON of a file never panics. A well-formed document that panics exists.", "quantifier": "every JSON value, every hash function", "why_tests_cant": "Absence of panics on arbitrary documents.", "anchors": ["src/types/mod.rs: Guid::from_str, Deserialize for Guid", "src/lib.rs: GvasFile derive(Deserialize)"]}
{"id": "C47", "title": "Reading does not depend on where the stream starts", "statement": "Reading a file, header, property, text or Palworld container from a stream positioned d bytes further on gives the same value or the same failure; the final position and every position inside an error are d larger.", "quantifier": "every input, offset, options, outcome (values, errors, panics)", "why_tests_cant": "The tests read from position 0 only; sizes are computed as differences of positions in every container.", "anchors": ["src/lib.rs: GvasFile::read_with_hints", "src/properties/mod.rs: impl_read!", "src/properties/array_property.rs: read_body"]}
{"id": "C48", "title": "Versions matter only through three features", "statement": "Reading and writing of properties depend on the custom version table only through whether FUE5ReleaseStreamObjectVersion reaches 12, 28 and FEditorObjectVersion reaches 32; all outcomes agree for tables that agree on these, a file saved with another header differs in the header bytes only, and each of the three makes a difference.", "quantifier": "every pair of version tables without repeated guids, every input and value", "why_tests_cant": "Version tables are unbounded; the tests use those of a few engine versions.", "anchors": ["src/properties/mod.rs: PropertyOptions::supports_version", "src/properties/struct_property.rs: read_body, write_body", "src/properties/text_property.rs: FTextHistory::read, FormatArgumentValue::read"]}
{"id": "C49", "title": "Edits are local", "statement": "A saved file is a header, one segment per property and a terminator, where each segment depends on its property and the header only; replacing a part at any depth by one whose bytes have the same length replaces exactly these bytes.", "quantifier": "every header, property list, place of the edit and replacement", "why_tests_cant": "Places of edits and nesting are unbounded; length fields of all enclosing containers are involved.", "anchors": ["src/lib.rs: GvasFile::write", "src/properties/mod.rs: impl_write!", "src/properties/array_property.rs: write_body"]}
{"id": "C50", "title": "Nesting is limited by the input size only", "statement": "The nesting depth of properties and texts in a loaded file is at most a sixth of the bytes read, and for every n below the format's size limit there is a file of 6n+90 bytes with depth n+2.", "quantifier": "every input; every n", "why_tests_cant": "Unbounded depth.", "anchors": ["src/properties/text_property.rs: FText::read, FTextHistory::read", "src/properties/struct_property.rs: read_body"]}
{"id": "C51", "title": "Numbers in JSON are rounded once, to the nearest", "statement": "A single-precision float is written to JSON as a double with the same value; reading any finite double or integer into a single-precision field, or any integer into a double-precision field, gives the nearest representable number, ties to even, infinite from half way beyond the largest finite number, with the sign kept.", "quantifier": "every bit pattern of a float and every integer", "why_tests_cant": "2^32 and 2^64 bit patterns, and rounding is decided by ties and by the edges of the subnormal and infinite ranges.", "anchors": ["src/properties/int_property.rs: FloatProperty, DoubleProperty", "src/properties/struct_types.rs: VectorF, QuatF, LinearColor", "src/properties/array_property.rs: floats"]}
{"id": "C52", "title": "The sizes around an edit follow, nothing else changes", "statement": "Replacing a part at any depth by another that can be written gives a file that can be written, in which the bytes of the part are replaced, each size field around it holds the new size, and every other byte is as before; the file grows by as much as the part.", "quantifier": "every header, property list, place of the edit, number of enclosing size fields and replacement", "why_tests_cant": "Places of edits, nesting and lengths are unbounded.", "anchors": ["src/lib.rs: GvasFile::write", "src/properties/mod.rs: impl_write!", "src/properties/array_property.rs: write_body"]}
{"id": "C53", "title": "Loading does not depend on how the source delivers the data", "statement": "Loading from a source that hands out its data in arbitrary pieces, starting anywhere in a stream, gives the same result as loading the bytes at once (only the position reported for an unknown compression type is relative to the stream); if a call on the source fails, loading reports an I/O error, or, if it was the query for the position of an unknown compression type, reports that type with position 0; the source is only read forwards, a plain file up to its end and an uncompressed container up to the end of its payload.", "quantifier": "every source, size of each piece, buffer size, failing call, start position and input", "why_tests_cant": "Schedules of short reads and failures are unbounded; tests read from memory or local files.", "anchors": ["src/lib.rs: GvasFile::read_with_hints", "src/cursor_ext.rs: read_enum"]}
{"id": "C54", "title": "The JSON form is the documented one", "statement": "For every file there is exactly one JSON document that follows the rules of the JSON form (names of fields, variants and enumerators, order, omitted fields, representation of numbers, guids and bytes), and it is the one produced; it is read back as that file if it has no infinite or NaN float.", "quantifier": "every file, property and text with fields in the range of their types, in particular every loaded one", "why_tests_cant": "Values are unbounded and nested; a consistent renaming on both sides survives every round-trip test.", "anchors": ["src/lib.rs: GvasFile, GvasHeader", "src/properties/mod.rs: Property", "src/properties/text_property.rs: FTextHistory, FormatArgumentValue, RoundingMode, DateTimeStyle, TransformType", "src/properties/struct_property.rs: StructPropertyValue", "src/properties/array_property.rs: ArrayProperty", "src/properties/map_property.rs: MapProperty", "src/game_version.rs: PalworldCompressionType"]}
{"id": "C55", "title": "What is edited in a loaded file is what is read back", "statement": "If a loaded file is changed by any sequence of edits (a value anywhere in the tree replaced by another that fits its type, elements, entries and fields removed, fields added; map keys untouched), it can be saved, in any container and onto any destination, and reading it gives exactly the edited properties. The exceptions are stated: removing a null key from a map that is generic only because of it, removing the last element of an array of named bytes, and changing the length of one raw element of a set or array.", "quantifier": "every input, place, new value and number of edits", "why_tests_cant": "Edits, places and their combinations are unbounded, and whether an edited value reads back depends on how its neighbours are encoded.", "anchors": ["src/lib.rs: GvasFile::read, write", "src/properties/mod.rs: Property, make_matcher!", "src/properties/map_property.rs: MapProperty::new", "src/properties/array_property.rs: ArrayProperty::new"]}
{"id": "C56", "title": "Typed accessors are exact", "statement": "An accessor returns the fields of exactly the properties of its documented variant; every property except a bare struct value has exactly one accessor; a change through a mutable accessor is seen by it, keeps the variant, and the wrong accessor changes nothing. Struct values likewise, except that two-dimensional vectors, time spans, colours and tag containers have none. A map built from pairs keeps first positions and last values. The text form of an engine version is its four decimal numbers and branch, and tells versions apart.", "quantifier": "every accessor, property, struct value, list of pairs and version", "why_tests_cant": "35 accessors over unbounded values; the text form ranges over all numbers and branches.", "anchors": ["src/properties/mod.rs: make_matcher!, Property", "src/properties/struct_property.rs: StructPropertyValue accessors and From", "src/types.rs: HashableIndexMap", "src/engine_version.rs: Display for FEngineVersion"]}
{"id": "C57", "title": "The order of members in JSON does not matter", "statement": "Two JSON documents that differ only in the order in which objects list their members, at any depth, are both rejected or are both read, as files that are equal up to the order of their maps; the same for single properties and texts. Exempt are the insides of the keys of maps written as pairs, properties that select two kinds of value at once, and custom versions given under two spellings of one guid: there the order does matter.", "quantifier": "all pairs of JSON documents that differ by reordering, all hash functions", "why_tests_cant": "Other tools are free to reorder members; there are factorially many orders of unboundedly many documents, and equality must hold after untagged and flattened parsing.", "anchors": ["src/lib.rs: GvasFile, GvasHeader (serde derives)", "src/properties/*.rs: serde derives, untagged and flattened enums", "src/types.rs: Guid, HashableIndexMap"]}
{"id": "C58", "title": "Accepted files never ask for more room than they can fill", "statement": "While an accepted file is read, the buffers and capacities requested up front (vec![0; n], with_capacity(n)) add up to fewer items than bytes are read, and no request exceeds the bytes left at that point, except for elements of a type the library does not know; an accepted container asks for exactly the unpacked size. The requests of each kind cover what the file holds of it, and a string asks once for exactly its bytes or code units. On any input each request is in the range of its count field and there is at most one non-empty request per byte. Rejected files are not so bounded: 112 bytes for each suffice for any number of requests for 2^32-1 properties.", "quantifier": "all inputs, hints, build modes and zlib implementations", "why_tests_cant": "Requests depend on counts up to 2^32-1 at every nesting level of inputs of unbounded size; a test that tries the large ones runs out of memory.", "anchors": ["src/lib.rs:224,435,441", "src/cursor_ext.rs:66,82", "src/properties/array_property.rs:305", "src/properties/set_property.rs:65", "src/properties/map_property.rs:468", "src/properties/text_property.rs:335,352,366", "src/properties/struct_property.rs:395", "src/properties/delegate_property.rs:108", "src/properties/field_path_property.rs:35", "src/properties/unknown_property.rs:30"]}
{"id": "C59", "title": "Files kept byte for byte are exactly the canonical ones", "statement": "Loading a file and saving it again gives the same bytes if and only if the file is canonical: the format with every open choice made (narrow strings when ASCII, no name, key or custom version twice, fields of one name together, byte properties with their true length, exact lengths everywhere) and closed by exactly four zero bytes. Whatever is saved after a load is canonical and holds the loaded value, and a value has one canonical form. The same holds for a single string, text or property.", "quantifier": "all inputs below 4 GiB, hints and build modes, with hashing free of collisions; canonical files come back for any hashing and any size", "why_tests_cant": "A round trip on sample files shows that those files are kept; it cannot say which of the infinitely many accepted inputs are altered, nor that every departure from one canonical form is.", "anchors": ["src/lib.rs:170-345,404-560", "src/cursor_ext.rs:46-200", "src/properties/mod.rs:300-500", "src/properties/int_property.rs:150-325", "src/properties/map_property.rs:430-560", "src/properties/struct_property.rs:100-300", "src/properties/array_property.rs:280-460", "src/properties/text_property.rs:124-940"]}
{"id": "C60", "title": "Failures while saving are reported, except when compressing twice", "statement": "When any write, seek or position query on the destination may fail or take only part, a successful GvasFile::write has delivered what it delivers to a faultless destination, unless the file is compressed twice: then the errors of what the inner encoder writes in its Drop are lost, and a beginning of the payload containing at least the earlier pieces is there, with a length field for what is there. A failed write reports the serialization error with the destination untouched, or an I/O error after a beginning of the file. A plain file or uncompressed container left by a failed save to an empty destination, and a file left by the unreported failure, loads as the saved file or not at all.", "quantifier": "every schedule of failing and short calls, every destination content and position, every way of the encoders to cut up their output, all files, hints and zlib implementations that stop at the end of their stream", "why_tests_cant": "Cursor<Vec<u8>> and disks with room never fail; there are infinitely many schedules and the loss depends on when the encoders flush.", "anchors": ["src/lib.rs:517-570"]}
{"id": "C61", "title": "Error texts tell the error", "statement": "The error of a failed load or save prints as documented: in the words of error.rs, numbers in decimal, and where a position is known, ending in \" at position 0x\" and that position in lower-case hexadecimal without leading zeros. Every error has a text except those zlib makes. When a save is refused, the text names something that is in the file (a struct value without its header, or a kind of struct whose precision the file's version does not allow), and the kind of struct it says to use instead would not be refused. Two failed loads or saves that print the same text failed with the same error: kind, values, path or property name, and position can be recovered from the text.", "quantifier": "all inputs, files, hints, game versions and zlib implementations, all property names and paths (which may themselves look like messages), any distinct names of enums without backquotes", "why_tests_cant": "The texts contain arbitrary names from the file; that none of them can make two different errors look alike is a statement about all pairs of inputs.", "anchors": ["src/error.rs:10-129", "src/lib.rs:170-222,418-429", "src/cursor_ext.rs:46-142", "src/properties/mod.rs:586-620", "src/properties/array_property.rs:90-104", "src/properties/struct_property.rs:219-321"]}
{"id": "C62", "title": "JSON text of a file comes back", "statement": "The parser of JSON text accepts exactly the texts of the JSON grammar that nest at most 127 brackets, and gives the value they denote; decimal fractions become the nearest double, ties to even. Both printers write texts that denote the value printed. A file that was loaded, printed as JSON text and read from it is the same file if its floats are finite and its JSON form nests at most 127 brackets, and is refused otherwise; files with properties nested at most 25 deep always come back, files nested 127 deep or deeper never do, and both limits are sharp.", "quantifier": "all texts, all JSON values, all accepted files, hints, game versions and zlib implementations, every way of writing finite floats that denotes them, every map hash", "why_tests_cant": "The round trip tests use two dozen files of small depth; that every accepted file outside the stated limits comes back, and that no text outside the grammar is accepted, are statements about infinitely many inputs.", "anchors": ["tests/serde_tests/serde_json_round_trip.rs:8-16", "tests/serde_tests/serde_json_template.rs:43-58", "Cargo.toml:19-32", "src/lib.rs:325-341", "src/properties/mod.rs:488-548"]}
{"id": "C63", "title": "Files through text written directly", "statement": "serde_json::to_string and to_string_pretty of a loaded file, read by from_str, give the file in which every single precision number has become the single nearest to the double nearest to its text, if all floats are finite and the JSON form nests at most 127 brackets, and an error otherwise. So the file comes back unchanged exactly if every single survives this. A single moves at most to a neighbour, only if its last bit is set, and only if the double is exactly half way; files whose singles are all even come back unchanged. The shortest text of a single does not always survive: with it, there is an accepted file that comes back changed.", "quantifier": "all accepted files, hints, game versions, zlib implementations, all printers of singles and doubles whose texts denote them, all map hashes", "why_tests_cant": "The tests round trip two dozen files; whether a file comes back depends on every single in it, and each single on the digits chosen for it.", "anchors": ["tests/serde_tests/serde_json_round_trip.rs:10-12", "tests/serde_tests/serde_json_template.rs:43-58", "src/properties/mod.rs:488-493", "Cargo.toml:29"]}
{"id": "C64", "title": "Exactly these JSON documents are read, and as these files", "statement": "from_value on a JSON document gives a file exactly if the rules of reading say so, and the file they say: members in any order, unknown members ignored, no member of a struct twice, structs also as arrays of all their fields, enumerators and (below the top) kinds of properties also by number, unit variants also as objects holding null, absent members only where there is a default, null only where an option is read, the first form of an array or map that fits, the first member that names a variant, integers also for floats (to the nearest), guids in any spelling, of repeated keys of a map the last value in the first place. The rules allow at most one file; all other documents are refused. A JSON text is read exactly if it is a text of the grammar that nests at most 127 brackets and denotes such a document. Every document that is written is among those read.", "quantifier": "all JSON documents and texts in which no string or key panics as a guid (so all ASCII ones), all files, every map hash without collisions; with the insertion order made explicit, every map hash", "why_tests_cant": "Tests read documents the library wrote. The rules are about all documents, including shapes that serde accepts although no code writes them, and refusal of everything else cannot be sampled.", "anchors": ["src/lib.rs:113-160,325-345", "src/properties/mod.rs:488-548", "src/properties/array_property.rs:29-84", "src/properties/map_property.rs:23-180", "src/properties/struct_property.rs:37-98", "src/properties/struct_types.rs:50-62", "src/properties/text_property.rs:22-90,174-330,733-760,858-900,939-975", "src/properties/int_property.rs:33-60,88-160,264-275", "src/types.rs:90-210,340-375", "Cargo.toml:19-32"]}
{"id": "C65", "title": "Files read straight from JSON text", "statement": "serde_json::from_str::<GvasFile> reads exactly the texts that are an object or array with white space around it in which the values of the three fields of a file are texts of the JSON grammar nesting at most 127 brackets in all, while any other member at the top need only have the form of JSON (numbers of any size, lone surrogates, any depth), and whose tree, with all members kept, the rules of C64 allow; and it gives the file that they say. By way of serde_json::Value the same text is read with repeated keys settled, which is the only difference for texts of the grammar that nest at most 127 brackets; so both ways agree if no key repeats. Every text that is printed from a loaded file, compact or pretty, from its Value or directly, is read alike in both ways. In general the two ways differ.", "quantifier": "all texts, all loaded files, hints, game versions, zlib implementations, all printers of floats whose texts denote them, all map hashes (reading rules: without collisions, and texts in which no string panics as a guid)", "why_tests_cant": "The tests read back what they printed. Which texts are read at all, and that two parsers with different rules for repeated and unknown members agree on all printed texts, is about all texts.", "anchors": ["tests/serde_tests/serde_json_round_trip.rs:10-12", "tests/serde_tests/serde_json_template.rs:43-58", "src/lib.rs:325-342", "Cargo.toml:29"]}
{"id": "C66", "title": "Texts of structs and numbers", "statement": "A struct of fixed layout prints as the names and numbers of its fields in order, each followed by a space. Two structs of one kind that print the same have the same fields, up to the bits of floats that are not a number; the text also tells the names of the fields, but not the kind of struct (a DateTime prints as a Timespan). The Debug text of a numeric property tells its type and its value, whatever numeric type it is compared with, and is never that of a boolean.", "quantifier": "all kinds of struct, all field values, all printers of floats whose texts have no spaces and are equal only for equal floats", "why_tests_cant": "That texts of different values differ is about all pairs of values, including negative numbers and floats that print without a point.", "anchors": ["src/properties/struct_types.rs:76-85", "src/properties/int_property.rs:63-67,133-137,296-300"]}
{"id": "C67", "title": "What the hasher sees of a value", "statement": "Two values of the Rust types feed the same bytes to the hasher exactly if they are the same up to the bits of NaNs and zeros and up to doubles that OrderedFloat hashes alike (NaN and -1.5*2^51; zero and 2^-1023; subnormal doubles whose mantissas differ by 2^51), provided one of them has no map in it or ends in a single map of such values: no field, discriminant or end of string is lost, and no value's bytes continue another's. The discriminant hashed is the place of the variant in its declaration. For nested maps this fails: HashableIndexMap hashes its entries without their number, so moving a field from a struct into its last inner struct does not change what is hashed. Hence for every n there are n+1 different keys with one hash under every hasher and seed, and files with maps of them load.", "quantifier": "all properties, texts, histories, arguments and struct values with integers in range and strings of Unicode scalar values, hash streams shorter than 2^64 bytes; all numbers of colliding keys up to 131072", "why_tests_cant": "No test hashes a value. That no two different values are confused is about all pairs, and the colliding keys have to be constructed.", "anchors": ["src/types.rs:251-256", "src/properties/mod.rs:494-548", "src/properties/struct_property.rs:53-86", "src/properties/text_property.rs:65-74,174-294,734-751,881-899", "src/properties/map_property.rs:24-96", "src/properties/array_property.rs:28-90", "src/properties/struct_types.rs:17-38"]}
{"id": "C68", "title": "What is assumed about zlib holds of a decoder of the format", "statement": "A decoder of zlib streams written from RFC 1950 and RFC 1951 (stored blocks, fixed codes, codes of their own, checksum) accepts exactly the byte strings that begin with a stream by the rules of these documents, stated separately, and delivers what the stream stands for. By the rules a stream stands for one thing and says where it ends. More input never takes back delivered bytes and changes neither a result nor an error in the data; the decoder's loops never run out of fuel. Hence with every compressor that follows the rules the contract used for containers in C01, C05, C26, C55 holds, without assumption about the decoder, and such a compressor exists. The compressed test file of the repository is a stream by the rules and loads with the decoder.", "quantifier": "all byte strings, all data, all compressors whose output follows the rules, all files and destinations", "why_tests_cant": "The tests decode two compressed files. That every stream decodes to one thing, that nothing else is accepted and that cutting a stream never changes what was delivered is about all byte strings.", "anchors": ["src/lib.rs:405-455", "src/lib.rs:536-570", "resources/test/palworld_zlib.sav"]}
{"id": "C69", "title": "Moving a file to other versions", "statement": "The properties of a loaded file can be saved under another header exactly if the number its custom versions give for FUE5ReleaseStreamObjectVersion (0 if none) suits every struct value and integer argument of the content: below 28 for single precision, 28 or more for double precision, below 12 for 32 bit and 12 or more for 64 bit arguments. Some table allows saving unless the content mixes precisions or widths that no number suits. What is saved loads under the new header as the same content, less the culture-invariant strings if the editor version is below 32, provided no keys fall together by that; from 32 on nothing is lost. Moving back gives the old bytes exactly if nothing was lost. Without the condition on keys an entry of a map can vanish: two text keys that differ only in culture-invariant strings become one.", "quantifier": "all headers, properties, files that load, target headers with values in range, outputs under 4 GiB", "why_tests_cant": "The tests never change the versions of a file. Which versions suit an arbitrary content, and that nothing else changes on the way, is about all pairs of tables and all nestings.", "anchors": ["src/lib.rs:332-343", "src/properties/struct_property.rs: write_body", "src/properties/text_property.rs: FTextHistory::write, FFormatArgumentValue::write", "src/properties/mod.rs: PropertyOptions::supports_version"]}
{"id": "C70", "title": "What Debug prints tells values apart", "statement": "Two properties, or two files, have the same {:?} text exactly if they are the same value up to the sign and payload of NaNs, and likewise the same {:#?} text; without NaNs and infinities the text determines the file. In particular properties that are unequal for == print differently, so that a failed assert_eq! shows a difference; the converse fails for the two zeros. {:?} never contains a line break, whatever the strings hold. The error for an array of structs with a foreign element shows the first such element.", "quantifier": "all properties and files whose numbers, strings and guids are in the range of their Rust types, every choice of printable characters, and every way of printing floats that gives words and tells apart all floats but NaNs", "why_tests_cant": "The tests print nothing. That no two of infinitely many nested values share a text, with strings that can contain any bracket, quote or comma, is not something examples can show.", "anchors": ["src/lib.rs: GvasFile, GvasHeader", "src/types.rs:106-111", "src/properties/int_property.rs:63-67", "src/properties/array_property.rs:226-244", "src/properties/mod.rs: Property", "src/properties/text_property.rs: FText, FTextHistory"]}
{"id": "C71", "title": "JSON and Debug show the same things under the declared names", "statement": "The JSON form of a save, a header or a property is what Debug shows for it, field by field in the order of the declarations: the same numbers, strings, guids and names of variants, every struct and variant with exactly its declared fields. It differs only by what serde's attributes ask for: tags in place of the names of variants, fields flattened into their parent, absent values, zero flags, indices and guids and the default game version left out, bytes of arrays in hexadecimal, maps with property keys as lists of pairs, and null for floats that are not finite.", "quantifier": "all files and properties whose numbers, strings and guids are in the range of their Rust types, and every way of printing floats", "why_tests_cant": "The serde tests compare a few files and values with stored JSON and never look at Debug; a name misspelt in one of 67 declarations shows only for values that use it.", "anchors": ["src/lib.rs: GvasFile, GvasHeader", "src/properties/mod.rs: Property", "src/properties/text_property.rs: FText, FTextHistory, NumberFormattingOptions", "src/properties/array_property.rs:28-90", "src/properties/map_property.rs:24-96", "src/properties/struct_property.rs:38-86"]}
{"id": "C72", "title": "Errors tell the truth about the input", "statement": "If loading a file fails for any reason but the end of the input, there are bytes in the input that the error is about: they lie at the position the error gives, they encode the values it reports (length, terminator, index, enumeration value, version, declared and found size, type name, path), these values really are wrong for the reason given, and every input that agrees up to the end of these bytes is refused with the same error. Panics are caused by the bytes that their assertion is about in the same way. In a container the magic bytes, the kind of compression, the compressed stream or the unpacked data is to blame.", "quantifier": "all inputs, options and zlib implementations", "why_tests_cant": "The tests check five messages for five inputs; a position off by one, exchanged expected and found values or a wrong check shows only at the place where it was made.", "anchors": ["src/error.rs:10-84", "src/cursor_ext.rs: read_string, read_bool, read_enum", "src/properties/mod.rs: header macros", "src/lib.rs: GvasHeader::read, GvasFile::read_with_hints"]}
{"id": "C73", "title": "The end of the input is reported exactly when the bytes given leave the result open", "statement": "Loading a plain file fails with a short read if and only if there are two continuations of the input that load differently. So whenever the bytes given already decide the result it is reported, and whenever more bytes are asked for they can change the result; no input asks for data without end. In a container the end of the input is reported exactly if the frame is cut, if the payload (once unpacked) is shorter than declared without being malformed, or if what it holds leaves the result of a load open; an uncompressed container whose content is all there but cut stays so, whatever follows.", "quantifier": "all inputs and options; for containers also all zlib decoders", "why_tests_cant": "Quantifies over all inputs and all their continuations; the tests cut no file.", "anchors": ["src/lib.rs: GvasFile::read_with_hints", "src/cursor_ext.rs: read_string", "src/properties/mod.rs: Property::new"]}
{"id": "C74", "title": "What is hashed follows the declarations", "statement": "The bytes that a property, a struct value or a text feeds to the hasher are exactly those that derive(Hash) makes of the declarations for the value that Debug shows: for an enum the place of the variant in eight bytes (one byte for repr(i8)), then the fields in the order in which they are declared, each by its declared type; integers in their width, booleans in one byte, strings in UTF-8 with 0xFF behind, vectors and guids with their length before, maps entry by entry without their length, floats as the integer mantissa, exponent and sign that ordered-float makes of them. So values that Debug shows alike are hashed alike.", "quantifier": "all properties, struct values and texts with integers in range and strings of Unicode scalar values; all ways to print floats that keep floats other than NaNs apart", "why_tests_cant": "No test hashes a value, and hashes are not stable across runs, so a test could only compare equal values; an exchanged field or a changed width would go unnoticed.", "anchors": ["src/types.rs:8-10,251-256", "src/properties/mod.rs:494-548", "src/properties/struct_property.rs:38-86", "src/properties/struct_types.rs:17-38,47-180", "src/properties/text_property.rs:23-29,65-74,174-294,733-751,858-966", "src/properties/int_property.rs:31-67,139-160,335-342", "src/properties/array_property.rs:28-90", "src/properties/map_property.rs:24-96", "src/properties/delegate_property.rs:13-174"]}
{"id": "C75", "title": "What unwrap prints for an error names the declared variant, tells the error, and names the true cause", "statement": "Every error of a load or a save other than one of zlib has a Debug text. It shows the wrapper, the declared variant and the fields in order, and the same fields put into the declared format string give the Display text. Errors with the same Debug text, on one line or on several, are the same error, down to the bytes of a string that is no text; the form on one line contains no line break, whatever names the file holds. Error::source is something only for strings that are not UTF-8 or UTF-16. For UTF-8 its text is about the bytes of the string stored at the position in the error, and gives the length of the longest start of them that is valid and how many bytes behind it belong to no character, or that the end is missing.", "quantifier": "all errors of all loads (plain and in containers, all hints, zlib decoders and hash collisions) and of all saves; all names of enums that are texts and differ; all tables of printable characters; all byte strings for the position of the first bad byte", "why_tests_cant": "Tests use unwrap and expect and never look at the text; the number of kinds of error times positions times strings is unbounded, and whether two errors print alike is a question about pairs.", "anchors": ["src/error.rs:10-50", "src/error.rs:87-96", "src/error.rs:118-129", "src/cursor_ext.rs:82-93"]}
{"id": "C76", "title": "Texts on several lines are the texts on one line with blanks in known places", "statement": "The text of serde_json::to_string_pretty for a value or a loaded file is the text of to_string with new lines, two spaces for each open bracket, behind brackets that open and behind commas and before brackets that close, none in empty brackets, and a space behind colons; the places follow from the characters of the text alone, brackets and commas in strings count for nothing. The text on one line has no blanks outside of strings, and is what is left of the other without them. The text of {:#?} for a file, a property or an error is that of {:?} with new lines, four spaces for each open bracket, and a comma behind the last field or element, again by rules on its characters alone; the digits of guids stay on the line.", "quantifier": "all JSON values with strings of Unicode scalar values, all loaded files, all typed properties and files, all errors of loads and saves other than those holding std's FromUtf16Error; all ways to print floats as numbers or words; all tables of printable characters", "why_tests_cant": "Tests read JSON back and never look at its layout, and print Debug texts without looking at them; depth and strings are unbounded.", "anchors": ["src/lib.rs:20", "src/lib.rs:59", "src/lib.rs:366", "src/lib.rs:401", "src/types.rs:106-110", "src/properties/array_property.rs:236-244", "src/properties/int_property.rs:63-67"]}
{"id": "C77", "title": "A hint is asked for exactly where a struct of unstated type stands, under the names that lead to it", "statement": "A load fails with MissingHint for a path at a position exactly if the bytes before the position are a file up to a struct without a header, an element of a set or a key or value of a map, the path is the names of the fields and types around that struct joined with dots from the outside, and no hint is given for that path. What comes before the struct is whole; what encloses it need only have begun; what follows does not matter. In a container the content asks, and the position is one in the content.", "quantifier": "all byte strings, hints, builds, hash collisions and zlib decoders; any nesting of structs, arrays, sets and maps", "why_tests_cant": "Tests have a few files with hints two or three levels deep; the claim is about all files, also broken ones, and about the absence of the error as well.", "anchors": ["src/properties/mod.rs:586-602", "src/properties/mod.rs:548-560", "src/properties/set_property.rs", "src/properties/map_property.rs", "src/properties/struct_property.rs", "src/scoped_stack_entry.rs", "src/lib.rs:465-485"]}
{"id": "C78", "title": "Which keys a map takes for equal never decides whether a file loads, and decides values only where keys repeat", "statement": "Two loads of the same bytes with the same hints in the same build, whatever keys of maps are found equal by hash in each: they fail with the same error or panic, or both succeed, read the same header and stop at the same byte. The values read where no hash collides are the values read under every hash behaviour if and only if no map among them holds two keys that are equal up to the order of the fields of structs. If equal keys always find each other, no map holds two equal keys.", "quantifier": "all byte strings, plain and in containers, all hints, all zlib decoders, all pairs of hash behaviours", "why_tests_cant": "The hasher is seeded randomly in each process, so a test sees one behaviour at a time.", "anchors": ["src/types.rs:223-257", "src/properties/map_property.rs", "src/properties/struct_property.rs", "src/lib.rs:469-483"]}
{"id": "C79", "title": "Hash collisions while JSON is read decide no failure, and values only where keys repeat", "statement": "For every JSON document and any two hash behaviours: both refuse it, both panic, or both read a file with the same game version, the same header and properties of the same names in the same order; the same for JSON texts, with and without an intermediate Value. The file read where no hash collides is read under every hash behaviour if and only if no map in it holds two keys that are equal up to the order of the fields of structs. If equal keys always find each other, no map of the file read holds two equal keys.", "quantifier": "all JSON documents and texts, all pairs of hash behaviours", "why_tests_cant": "The hasher is seeded randomly in each process; collisions of keys that differ in the order of fields are never met in tests.", "anchors": ["src/types.rs:221-257", "src/types.rs:365-373", "src/properties/map_property.rs:25-96", "src/lib.rs:331-345"]}
