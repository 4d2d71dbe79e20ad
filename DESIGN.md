# Formal model of `gvas` (Rocq/Coq 8.16.1)

The model is a hand translation of the reader and writer of `/repo/src` (the
`gvas` crate, Unreal Engine save files) into Gallina, function by function.
Every model definition cites the file and lines it follows.

## 1. Modelling choices

* **Bytes** are `Coq.Init.Byte.byte`; an input is any `list byte`, no
  well-formedness hypothesis is needed.  Fixed width integers are `Z`, decoded
  little-endian; floats are their bit patterns (`Z`), since the code only moves
  them; strings are lists of Unicode scalar values (`list Z`); GUIDs are 16
  bytes.
* **Outcomes**: `Ok a | Fail fault`, `fault := Err error | Panic site | Oof`.
  `error` mirrors `DeserializeError`/`SerializeError` with payloads and stream
  positions, plus the I/O error `UnexpectedEof`.  `Panic` marks every
  `assert!`, `unimplemented!`, checked arithmetic and capacity overflow.  `Oof`
  ("out of fuel") is a modelling artefact and is excluded by a theorem (C06).
* **Cursor**: `{pos; rest; stk}`; `stk` is the mutable `properties_stack` used
  for hint paths, with explicit push and pop at scope ends.
* **Environment** of a read (`opts`): `dbg` (debug assertions and overflow
  checks on/off), `hints` (path to type, a partial function), `probe` (an
  arbitrary function standing for hash-bucket collisions of `IndexMap`).  The
  custom version table `vs` is passed separately, since it comes from the
  header of the file.  All theorems quantify over all of these.
* **Writers** return the bytes and the `usize` the Rust function reports (they
  differ, see C33).
* **zlib** (`flate2`) is a pair of functions with the contract
  `inflate (deflate x ++ t) = (x, ZDone)`, passed as a universally quantified
  record; never an axiom.  A decoder ends at the end of its stream, out of input
  or with an error; whether a cut stream is an error is left open, since it depends on
  the backend of `flate2`.  What a decoder delivers before an error is taken not to
  depend on how much is asked for at a time.  The contract is proved for a decoder of
  the format (`Inflate.v`, C68); that `flate2` is such a decoder is not.
* **Destination** of `GvasFile::write` is a device (content, position) with
  overwrite/extend semantics and seeking; short writes and failing calls are
  schedules (`ShortWrite.v`).  How an encoder cuts up its output, what of it is
  written only in its `Drop`, and what it adds after a failure are arbitrary
  functions.
* **Maps** (`IndexMap`) are association lists in insertion order.  `insert`
  replaces in place or appends.  For maps keyed by properties the equality used
  by the table (`eqv`, the derived `PartialEq`) is coarser than what the hash
  sees (`same`, which respects field order): `mins` (Props.v) always finds a
  `same` key and finds a key that is merely `eqv` exactly when `probe` says that
  their hashes collide (hashbrown compares seven hash bits before it compares
  keys, so a collision is not even rare).  `eqv` itself is the comparison as it would be if
  lookups never missed; the comparison with lookups is `real` (`MapEq.v`).
* **Hashing** (`Hash.v`) is the byte stream a value feeds to the hasher.  That `OrderedFloat` feeds
  a `u64` of mantissa, exponent and sign is taken from the source of ordered-float 5.1 and
  num-traits (`integer_decode`) as remembered: neither is in the sandbox.

### Files

| file | contents |
|------|----------|
| `Base` `Str` `Types` `Versions` `VersionTables` `Text` `Props` `File` `Guid` `Hash` `ShortWrite` `Json` `Source` `Access` `Alloc` `Message` `JsonSyntax` `JsonDirect` `JsonFrom` `Inflate` `Display` `Debug` `ErrorText` `MapEq` `DebugSave` | the model; no proofs |
| `Spec` | which values a file can represent (`file_ok`, `wf_prop`), stated on values only |
| `Grammar` `Tidy` `JsonSpec` `JsonForm` `JsonDoc` `JsonGrammar` `JsonLoose` `Singles` `InflateSpec` `HashSpec` `DebugSpec` `NamesSpec` `BlameSpec` `FedSpec` `ErrorSpec` `LayoutSpec` `AskSpec` `EqSpec` | the byte format as a grammar; its canonical part; typed and finite values, well-formed JSON; the JSON documents written and read, as rules; JSON text as a grammar, also as read directly; single precision numbers in files; the zlib format as rules; what is hashed, printed, shown and blamed, how texts are laid out, where hints are asked for, and which values are equal |
| `Samples` `JsonSamples` `RepoFiles` | concrete files and JSON templates used by the examples |
| `RepoTests` `RepoRun` | the repository's own tests, run on the model |
| `Prop*` except `Props` | the theorems `Cnn_...`, each followed by `Print Assumptions`, and examples meeting their hypotheses |
| the rest | lemmas |

## 2. Trusted base

* Coq 8.16.1's kernel and the standard library.  `Print Assumptions` is run for
  every theorem in the `Prop*.v` files and prints "Closed under the global
  context" for each: no axioms at all, not even of the standard library.  (A
  list of all constants without body in the loaded libraries also shows
  `Coq.ssr.ssrunder.Under_rel.*`; these are fields of a module type used by the
  standard library's own `ssreflect` plugin files; no theorem depends on them.)
* The fidelity of the translation (this section and the comments in the model
  files).  Not modelled: `Debug` formatting of options, the texts of zlib's
  errors, what std prints for a `FromUtf16Error` (a parameter in `ErrorText.v`), how floats are printed by `Display` and `Debug` and which characters std takes for
  printable (parameters in `Display.v` and `Debug.v`), memory exhaustion
  (allocations below `isize::MAX` are assumed to succeed; what is asked for is modelled in
  `Alloc.v`), stack overflow on deep
  nesting, targets other than 64 bit, sources that are interrupted forever.  The overflow
  check in `-(len as i32)` (cursor_ext.rs:160), which panics in a debug build when a
  non-ASCII text of exactly 2^31-1 (mod 2^32) UTF-16 words is written, is modelled in
  `DebugSave.v` only; the other theorems on saving are about the release build, from which
  the debug build differs for files of 4 GiB and more at most (C39).
* Of `serde`, the conversions to and from `serde_json::Value` are modelled
  (`Json.v`), the conversions between `Value` and text (`JsonSyntax.v`), and the text
  that is written without a `Value` (`JsonDirect.v`), where single precision numbers have
  fewer digits, and text that is read without a `Value` (`JsonFrom.v`), where repeated keys
  are kept and members that are not asked for are only skipped.  In `JsonFrom.v` the whole
  text is parsed before anything is decoded: of a text that is both malformed further on
  and panics, the model says that it is refused.  How `serde_json` skips and buffers is
  recalled from its version 1.0.145; it is not in the repository.
  The digits that `ryu` chooses for a float are parameters; the theorems ask that the text of every
  finite single denotes a number to which it is the nearest (`prints_singles`), and that of a double
  denotes that float (`prints_floats`).  Kinds of syntax errors are not told apart, and
  decimal exponents are unbounded (serde_json's are cut at 2^31, which matters
  only for texts of that length).  Reading covers all encodings that derived
  `Deserialize` accepts, also those that `Serialize` never produces (structs from arrays,
  variants by number where serde buffers, unit variants as objects, repeated keys).  Of
  several faults in one document the model reports the first in declaration order.
  Other formats are not modelled.
* `byteorder`, `indexmap`, `num_enum`, `ordered-float`, `flate2`, `serde`,
  `serde_with`, `serde_json` and `std` are modelled by their documentation.

Validation of the translation (not part of the proofs): the repository's own tests
are run on the model in the build (`RepoTests.v`, `RepoRun.v`): the unit tests of
`tests/gvas_tests`, eleven of the save files in `/repo/resources/test` with the hints, the
values and the JSON texts that the tests state for them (`RepoFiles.v`, generated by
`tools/repo_files.py`), and the 79 JSON templates (`JsonSamples.v`, generated by
`tools/json_templates.py`; `C42_templates`).  The other files were evaluated with
`vm_compute` outside of the build (Palworld containers unpacked beforehand).  All are
accepted and save back to identical bytes, as the repository's tests expect of the code.
The decoder of `Inflate.v` was compared outside of the build with the zlib of the Python
interpreter on 350 streams, most of them damaged or random (`tools/zlib_cases.py`): the data
delivered and the way of ending (done, short, wrong) were the same in all of them.

## 3. Where each property is proved

| id | model | proof |
|----|-------|-------|
| C01 | `load`, `save` | accepted values are representable (`Accept*`, induction on fuel), representable values read back (`Decode*`, induction on the value); composed in `RoundTrip`, `WholeSave` |
| C02 | same | both directions from the two halves of C01 |
| C03 | same | corollary of C01/C02 |
| C04, C05 | all readers | compositional predicate `sane`: success consumes a prefix, extending the input preserves every non-EOF outcome, cutting the consumed prefix yields EOF; containers under `zlib_more` (nothing after the end of a stream matters, more input never takes delivered bytes back), with or without `zlib_strict` (a cut stream is an error) |
| C06 | fuel | every recursive call is preceded by consumption; fuel `S (length b)` never runs out, and more fuel never changes a result |
| C07-C09 | `Str.v` | UTF-8/UTF-16 codec inverses by induction on the string (`StrFacts`, `StrThm`) |
| C10-C12 | `File.v` header | decoding lemma, inversion, absence of `Panic` (`HeaderThm`) |
| C13, C14 | headers | inversion of readers; equation for writers (`FrameThm`) |
| C15 | `PUnknown` | `UnknownThm` |
| C16, C17 | `Props.v`, `Text.v` | `GateThm`, against independently stated tables |
| C18, C19 | `array_new`, `map_new` | `CtorThm` |
| C20, C21, C38 | `fold insert` | `OrderThm`, `MapFacts`, `NamedThm`: first-occurrence order and last value |
| C22, C23, C39 | all readers | `Rel`, `HintRel`, `HintThm`, `HintPath` |
| C39 for saving | all writers again with the string writer as a parameter (`DebugSave`); `units` and `is_str` of `Spec` | a relation between what two writers give (the same, or a panic against at least 4 GiB) preserved by sequencing, repetition and buffers (`DebugSaveThm`); for representable, so for loaded, files equality, as their texts are short (`DebugLoad`); with the model's string writer the copies are convertible with the model |
| C24 | `stk` | component of `sane` |
| C25, C37 | version tables | `VersionThm` |
| C26-C28 | device | `Device`, `Whole`, `WholeSave` |
| C29 | schedules | `ShortThm` |
| C30, C31 | `Guid.v` | `GuidThm` |
| C32 | equality, hash streams; `level`, `moved` of `EqSpec` | `EqFacts`, `EqSym`, `HashFacts`, `UniqThm`; without reordering, equality is equality of the levelled values by induction on values (`EqLevel`); with it, entries are matched by pigeonhole (`EqMove`); comparison through hash lookups (`MapEq`) lies between the two (`RealThm`) |
| C33 | reported counts | `CountThm` |
| C34, C35 | faults | `Panics`, `Sane` |
| C36, C40 | sizes | `SizeThm`, `BoundThm` |
| C41 | all readers and writers | specification in `Grammar`; acceptance implies derivation by induction on fuel (`GrammarText`, `GrammarProp`), derivation implies acceptance by mutual induction on derivations (`GrammarText`, `GrammarComplete`); files and writers in `GrammarFile` |
| C42-C46 | `Json.v` | specification in `JsonSpec`; round trip by mutual induction on values (`JsonText`, `JsonProp`, `JsonFile`, floats in `JsonFloat`), typedness of loaded files (`JsonTyped`), well-formedness (`JsonWell`), typedness and panics of reading by induction on the size of the document (`JsonBack`, `JsonPanic`) |
| C47, C48 | all readers and writers | `Shift`: a relation between a run and a run on the same bytes later in the stream with other versions, for every reader; `ShiftThm`; writers by induction on values |
| C49 | writers | `Patch`: congruence of the writers, induction on the place that is edited |
| C50 | readers | `Depth`, from the byte counts of `SizeThm`; deep files by induction |
| C51 | float conversions of `Json.v` | `Nearest`: values of bit patterns as rational numbers (`number`), "nearest, ties to even" as inequalities between them, and a proof about the rounding shift |
| C52 | writers | `Grow`: as C49, with the size fields around the place counted |
| C53 | `Source.v` | `SourceThm`: each reading primitive either meets a failing call or does what the in-memory reader does |
| C54 | `Json.v` | rules in `JsonForm`; equivalence with the functions by mutual induction on values in `JsonFormThm` |
| C55 | all readers and writers | `Session`: each step keeps a file representable (induction on the place of the edit), then C02 |
| C56 | `Access.v` | `AccessThm` |
| C57 | `Json.v` | `Reorder` (specification at the top), `ReorderEx` |
| C58 | `Alloc.v` | `AllocThm`: erasing the log gives the readers of the model; then one invariant, closed under sequencing, with three budgets (bytes per item, bytes per request, requests before a failure); `AllocLow`: the requests cover the value returned, kind by kind; `AllocEx` |
| C59 | all readers and writers | canonical form in `Tidy`; it lies in the grammar and is what the writers produce (`TidyText`, `TidyProp`, by induction on derivations), and they produce nothing else (`TidyBack`, by induction on values); `TidyFile` |
| C60 | schedules | every call of `GvasFile::write` inverted in turn (`LostThm`); `load_more` (C05) and `truncated` (C04) for what is left behind |
| C61 | `Message.v` | `MessageThm`: wording as a relation over numerals (`Numeral`); the last ` at position 0x` of a text splits it uniquely, then case analysis; refused saves from the verdict of C16 |
| C62 | `JsonSyntax.v` | grammar of JSON text in `JsonGrammar`; the parser reads nothing else (`JsonRead`, induction on fuel) and everything (`JsonComplete`, mutual induction on derivations); decimals in `DecimalThm`, by inequalities between rational numbers; printers in `JsonPrint`, by induction on values; brackets of a file in `JsonDepth`; files in `JsonWhole` |
| C63 | `JsonDirect.v` | the tree printed and the tree read differ in their floats (`DirectTree`, by induction on values); reading back with rounded singles (`DirectBack`, like C41); rounding twice against the midpoints of singles, which are doubles (`SinglesThm`); files in `DirectThm` |
| C64 | `Json.v` | rules in `JsonDoc`; each reading function agrees with its rule in both directions, by induction on the size of the document (`JsonExact`, `JsonExactProp`, `JsonExactFile`); that nothing panics from `JsonPanic` (C46) |
| C65 | `JsonFrom.v` | texts in `JsonLoose`; the parser of C62 is generic in how numbers, strings and repeated keys are treated, so its soundness and completeness are instantiated (`JsonFromThm`); skipped members, settled keys and printed texts in `JsonFromFile`, by induction on derivations |
| C66 | `Display.v` | `DisplayThm`: no name has a colon and no number a space, so each field can be split off; the ends of debug texts are compared |
| C67 | `HashSpec.v` (`flat`, `ends_flat`, `blur`, declared orders), `t_prop` of `JsonSpec.v` | `HashTell`: each piece of a stream can be split off its front, given a bound on the whole; `HashFloat`: which floats look alike; `HashTellAll`, `HashBlur`: by induction on the value; `HashCollide`: the fields of an inner struct run on into those of the outer one |
| C68 | `InflateSpec.v`: bits, canonical words, items, runs, blocks, streams as inductive relations; closed formulas for the tables; checksum as sums | `InflateCode`: reading bits and words, Kraft sums against the counting of free words; `InflateThm`: each reader takes exactly the bits its relation allows (both directions), compositional relations for more input (`more`) and for fuel (`same_on`) |
| C69 | `says`, `wants`, `mixed` of `MoveThm`; `leaves`, `strip` of `GateThm`; `uniq` of `Spec.v` | a representable content stays so under another table after stripping, by induction on values (`moves_all`); then `save_load_iff` (C02) and the verdict of C16 |
| C70 | `quiet`, `float_texts` of `DebugSpec` | the text of a tree determines the tree, whatever follows it (`show_split`, induction on trees); the trees of two values are equal iff the values are up to NaNs (`prop_trees`, `values_back`); equality through `near_prop` |
| C71 | `declared`, `shows` of `NamesSpec` | the declarations written out once, and the effect of serde's attributes as rules; structural induction on values |
| C72 | `blamed`, `tripped` of `BlameSpec` | a reader that fails points at bytes among those it consumed (`T`: relative to what was read before it, so that sizes declared earlier can be blamed); preserved by `bind`, repetition and scopes; that the rest does not matter comes from C05 |
| C73 | statement on `load_plain` alone | continued with bytes 0xFF every read ends: no string can be read from these, so fuel for the bytes given suffices (`ends`, `e_file`), and more fuel changes nothing (C06); the other direction is C05; containers by cases on the frame (`OpenBox`) |
| C74 | `fed` of `FedSpec`: the declarations with the types of their fields, and the rules of `derive(Hash)` | structural induction on values (`FedThm`); the rules determine the bytes, as names are declared once and texts of numbers determine them (`FedOne`) |
| C75 | `shown`, `first_bad`, `utf8_text` of `ErrorSpec`: error.rs's variants with their format strings, and std's description of `Utf8Error` | the trees of errors are in the shape of C70, so their texts determine them; names and paths in errors are texts (`ErrorClean`, preserved by `bind` and scopes); where a text stops being UTF-8 by induction on its length (`ErrorUtf8`); the bytes of the string through C72 |
| C76 | `json_lines`, `tight`, `unblank`, `debug_lines` of `LayoutSpec`: rules on characters | by induction on values (`LayoutThm`) and on trees (`LayoutDebug`), whatever follows; that numbers, words and escapes hold no bracket, comma, quote or blank; blanks added are taken away again, by induction on the text |
| C77 | `asks`, `file_asks` of `AskSpec`: rules on bytes, on top of the grammar of C41; `dotted` of `Spec` | one direction by invariants of the readers preserved by `bind`, repetition and scopes (`AskThm`), the other by induction on the rules (`AskBack`); hash collisions are removed by C78; containers by cases on the frame (`AskBox`) |
| C78 | statement on `load` and `parse` alone; `uniq` of `Spec` for unique keys | a relation between two runs of a reader (`twin`: same fault, or same cursor), preserved by `bind`, repetition and scopes (`HashFree`); for the values the relation is `near` (equal if the first has unique keys), preserved by the insertions of a map (`HashSame`); the converse runs the file where all equal keys hit, with the invariant of C02 at `eqv` |
| C79 | statement on `from_json`, `text_file` and `read_direct`; `uniq` of `Spec` for unique keys | the relation `near` of C78 between two decoders on documents of bounded size, preserved by the combinators of `Json` (`JsonHash`); the converse by the invariant that no two keys are equal where all equal keys hit |

## 4. Disagreements between expectation and code

What was expected of the code first, found false of the faithful model, and
either stated as a `_refuted` theorem or turned into the exact statement.

* **C01/C20, hashing**: keys of a map that are equal up to the order of struct
  fields compare equal but hash differently, violating the `Hash` contract
  (`C32_hash_contract_refuted`).  Whether such keys are merged depends on the
  random seed, so loading the same file twice can give different values
  (`C01_any_hashing_refuted`, `C20_any_hashing_refuted`).  C01 is proved for all
  hashings in which such keys do not collide.
* **C02**: values that save without complaint but do not read back: a property
  called "None" (truncates the file), an empty `Vec` of a repeated field (lost),
  `EnumProperty`/`ByteProperty` without type name (unreadable), containers inside
  arrays, sets and maps (unreadable), a namespaced byte value in a map, repeated
  fields that were not adjacent (regrouped), a culture-invariant string in a file
  whose version does not support it (dropped, C17).
* **C03**: saving is not injective on unrepresentable values
  (`C03_unconditional_refuted`).
* **C05**: with a decoder for which a cut stream merely ends early, a container compressed
  twice that lacks the end of a stream is read; with more bytes after it, it may be refused
  (`C05_container_lenient_refuted`).
* **C13**: the declared size of a `ByteProperty` is not enforced
  (`C13_byte_size_refuted`).
* **C27**: the compressed-length field counts four bytes more than the payload
  (`lib.rs:561-566` subtracts the position of the field, not of the payload).
  `palworld_zlib.sav` (3669 bytes) has 3657 = size - 12 there, as other tools
  write it.  Reading ignores the field.
* **C29**: `write_string` uses a bare `write` for ASCII text
  (cursor_ext.rs:153-154), so `GvasHeader::write` on a destination that takes
  short writes can silently drop part of a string (`C29_header_refuted`).
  `GvasFile::write` buffers and is not affected.
* **C31**: `Guid::from_str` accepts a plus sign as the first digit of a pair and
  panics on some inputs with multi-byte characters (slicing off a character
  boundary); both are characterised exactly.
* **C32**: see C01.  Symmetry fails on association lists with repeated keys,
  which no `IndexMap` can hold (`C32_symmetric_refuted`).  Two maps whose keys are
  equal up to the order of fields can compare as different, since the comparison
  looks the keys up by hash (`C32_lookups_exact_refuted`).
* **C33**: the returned counts over-report ASCII strings and tag containers and
  under-report `NameProperty` headers.
* **C34**: reading can panic at ten sites, all reachable; three only in debug
  builds.
* **C36**: elements of unknown type with computed size zero consume nothing: a
  file below 200 bytes yields any number of elements up to 2^32-1.
* **C37**: `FEditorObjectVersion::LatestVersion` is above `VersionPlusOne`
  (`C37_latest_above_plus_one`).
* **C40**: a saved file can be almost twice the size of the loaded one: text with
  a non-ASCII character stored as UTF-8 is re-encoded as UTF-16 (1051 bytes
  become 2056 in `C40_factor`).
* **C42/C43**: infinite and NaN floats become `null`, which does not read back as
  a float: a loaded file containing one has JSON that cannot be read
  (`C42_injective_refuted`, `C43_all_refuted`).
* **C44**: a JSON number such as 1e300 in a single-precision field is accepted
  and becomes infinite (`C44_all_refuted`).
* **C46**: reading JSON can panic, through `Guid::from_str`
  (`C46_never_refuted`).
* **C50**: nothing limits nesting; a text inside a text takes six bytes, so a file
  of a megabyte makes the reader call itself 170000 levels deep.  (The stack is not
  modelled.)
* **C53**: when a source cannot tell its position, an unknown compression type is
  reported at position 0 instead of as an I/O error (`unwrap_or_default`, error.rs:82).
* **C55**: three edits that look harmless make the file read back as a different
  variant or not at all (`C55_drop_null_key_refuted`, `C55_drop_last_byte_refuted`,
  `C55_raw_length_refuted`).
* **C56**: `Vector2F`, `Vector2D`, `Timespan`, `LinearColor` and
  `GameplayTagContainer` values have no accessor (`C56_struct_none`).  The text form of
  an engine version writes `+++` before a branch that itself starts with `++` (the
  sample files have `++UE4+Release-4.27`), where the engine writes one plus sign.
* **C57**: the order of members matters in three places: inside struct keys of maps
  written as pairs (their hash depends on it, `C57_keys_refuted`), in a property that
  gives two kinds of value (`C57_kinds_refuted`), and for a custom version given under
  two spellings of its guid (`C57_spellings_refuted`).
* **C58**: counts are trusted before the data is seen.  A file of 152 bytes asks for room
  for 2^32-1 properties before it is rejected, and 12 bytes of a container for 4 GiB
  (`C58_rejected_refuted`, `C58_container_refuted`).  Refusing any count above the number
  of bytes left would not reject any file that is accepted now, except ones with elements
  of unknown type (`C58_accepted`).
* **C60**: with `ZlibTwice`, `encoder.finish()?` (lib.rs:557) finishes the outer
  encoder only and returns the inner one, which is finished in its `Drop`, where
  errors are discarded.  So `GvasFile::write` can return `Ok` although the payload is
  incomplete, or for small files missing (`C60_twice_refuted`).
* **C62**: the parser of serde_json refuses more than 127 brackets inside one another.
  A property inside a property takes up to five, so accepted files that nest
  deeper than 25 may not come back from their JSON text (`C62_all_refuted`), and none that
  nests 127 deep or deeper does (`C62_deep`).
* **C63**: `serde_json::to_string(&file)`, as in the tests, prints a single precision
  number with the shortest digits for an f32, but `from_str` reads numbers inside of a `Property` as f64
  first, since its tag makes serde buffer them.  Rounding twice changes some numbers: the
  f32 7.038531e-26 (bits 0x15AE43FD) comes back as its successor (`C63_all_refuted`).
  `to_value` and `from_value` do not have this problem (C41, C62).
* **C64**: more is read than the documented form: the kind of a property may be a number,
  but only inside of another property; a struct may be an array.  An array or map whose
  first form does not fit (`"bytes": "zz"`) is not refused when another form fits.
* **C65**: `from_str::<GvasFile>` and `from_value` of the same text differ.  Of a repeated
  variant of a byte property the first counts directly and the last by way of `Value`
  (`C65_same_refuted`); a field that occurs twice is refused directly only
  (`C65_value_refuted`); a number out of range, a lone surrogate or deep nesting in a member
  that is not asked for is refused by way of `Value` only (`C65_directly_refuted`).  No
  text that is written shows a difference (`C65_written`).
* **C66**: the text of a struct does not tell its kind: a `DateTime` prints as a `Timespan`
  (`C66_struct_kind_refuted`).
* **C67**: structs inside structs are not told apart by what is hashed, as
  `HashableIndexMap` (types.rs:251-256) hashes neither the number of entries nor an end mark:
  `{s: {x}, y}` and `{s: {x, y}}` feed the same bytes (`C67_nested_refuted`).  So a file can hold
  a map with any number of keys of one hash, which the random seed of the hasher does not change
  (`C67_crowd`, `C67_crowd_loads`).  The keys are kept apart by equality, but each insertion then
  compares with all earlier keys.  Nor are all doubles told apart: `OrderedFloat` keeps 52 of the
  53 bits of the mantissa, so 0 and 2^-1023 are hashed alike (`C67_doubles_refuted`); `C67_told_apart`
  says which others are.
* **C69**: loading a file, lowering its editor version below 32 and saving it succeeds without
  complaint, but texts lose their culture-invariant strings, and keys of a map that differed in
  them only become one entry on the next load (`C69_keys_refuted`).
* **C70**: `0.0 == -0.0` for `OrderedFloat`, but they print as different texts
  (`C70_equal_refuted`).
* **C73**: for containers the end of the input is also reported where nothing that could follow helps:
  an uncompressed one whose declared size cuts what it holds (`C73_container_refuted`).

## 5. Assumptions printed

Every `Print Assumptions` in the build prints "Closed under the global context".

## 6. Mutation tests

`seeded/mutants.py` lists wrong programs (edits of the model), `seeded/auto.py` makes more
of them by rule; `tools/mutate.py`
builds each in a scratch copy and reports which theorems no longer hold.  The log
is `seeded/LOG.jsonl`.
Of the programs in the log that no theorem tells from the model, `sw_header_len` makes no
other call, `dg_struct_empty` changes how a struct without fields is printed, which no value
is (the variant `Empty {}` is a word in `Debug.v`), and two rename enumerators of `VersionTables.v` that the library never asks for:
such names exist at compile time only (the enums derive `IntoPrimitive` alone).  All 108 names
were compared with the sources by a script, in order.
