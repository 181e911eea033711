# Formal model of trimmer-io/go-xmp in Rocq (Coq 8.16.1)

## 1. Approach

`/repo` is read as text only; nothing is built or run. The model is a set of total, computable Gallina
functions, one per Go function, each with a comment giving the file and lines it models. Proofs live in
separate `*Facts.v` files; small specifications, independent of the model's helpers, live in `Spec*.v`; the property
theorems live in `Prop*.v` files, each closed by `exact <lemma>.` with `Print Assumptions` below and `Example`s
(`Cnn_hyps…`) showing that its hypotheses are met by concrete non-trivial cases.

Where the code does not have the property, the theorem about the guarded case is named `…_partial` and a theorem
named `…_refuted` shows a concrete (or, where possible, every) input for which it fails. Section 5 lists these findings.

Conventions

* Go `string`/`[]byte`: Coq `string` (a list of 8-bit `ascii`, i.e. bytes).
* Go `int`/`int64`: `Z`; range checks are explicit where the code parses numbers, wrap-around where the code relies on it.
* Pointers/nil: explicit `option`, or explicit heap addresses where aliasing is the property (C18, C19, C61).
* Calls that return an error: `result A := Ok a | Err e | Panic`; a Go run-time panic is a separate outcome.
* Go `map`: association list; where Go's map iteration order is unspecified the theorem quantifies over it.
* Goroutines: a step relation over explicit states, theorems hold for every schedule (C12, C18, C70).
* Reflection: Go types are described by an inductive universe of type descriptions (`ty`) and values (`gval`).
* Slices: lists; where capacity is observable (`VArr l spare`) the rest of the backing array is part of the value.

## 2. What is modelled and what is not

| model file | code |
|------------|------|
| GoStr | the functions of `strings`, `strconv`, `unicode` (ASCII part) that the library calls |
| GoMap | Go maps with string keys |
| Names, RegistryM | `xmp/namespace.go`, `xmp/registry.go`, with a concurrent machine around `sync.RWMutex` |
| PathM, PVList | `xmp/path.go` 28-240, 1255-1271 |
| Semver, SyncFlags | `xmp/semver.go`; `xmp/sync.go` 74-142 |
| FilterM | `xmp/filter.go` |
| NodeM | `xmp/node.go` (trees), node part of `xmp/path.go` and `xmp/unmarshal.go` |
| PoolM | `xmp/node.go` 25-136 in memory: pool, recycling, copying |
| XmlM | `xmp/node.go` 339-390 on token streams |
| DocM | `xmp/document.go`, `xmp/sync.go` 142-274, document part of `xmp/path.go`, `Filter.Apply` |
| ArrayM | `xmp/array.go`: AltString, StringArray, StringList |
| CodecM, GenreTable | `MarshalText`/`UnmarshalText` of `xmp/xmp_types.go`, `xmp/units.go` and of the models |
| DateM | dates: `time.Parse`/`Format` for the layouts of the library, `ParseDate`, `ParseTime`, and the date types of the models |
| ReaderM | `xmp/reader.go` with a step-by-step `bufio.Scanner` |
| WriterM | `xmp/marshal.go` 56-93, 212-273 (size limit, framing, padding) |
| MmM | `models/xmp_mm` history and versions, `models/xmp_dm` markers and parts |
| TypeM | `xmp/marshal.go` 276-624, `xmp/unmarshal.go` 221-346, 400-519, `MarshalArray`, `UnmarshalArray` |
| DecodeM | `Decoder.Decode`, `Encoder.Encode` on whole documents |
| TagM, TinfoM | `xmp/typeinfo.go`: tags, field lookup; the type cache under concurrent use |
| TPathM | typed path access: `xmp/path.go` 281-438, 543-975, 1001-1286 |
| JsonM | `xmp/json.go` |
| NativeM | `xmp/native.go`; tag routing of `models/qt/model.go` |
| ModelTypes | the struct types of all models in `/repo/models` (generated from the source text by `/verif/tools/gen_models.py`) |
| SyncModelsM | `SyncToXMP`/`SyncFromXMP` of all models of the library |
| SliceM | the dictionaries of `models/ixml` over Go slices that share arrays; `IXML.upgrade` |
| ExtM | `xmp/xmp_ext.go`, `AddPantry` |
| FormsM | XMP methods of `Identifier`, `IdentifierArray`, `Timecode`, `Uri`; records read by `UnmarshalText` only; `SMPB` |
| NativeTags, NativeTagM | struct tags of the 28 models with native tags (generated); `CanTag`, `GetTag`, `SetTag`, `GetLocaleTag`, `SetLocaleTag`, `ListTags` of the RIFF, EXIF, ExifEX, ID3 and DJI models, `mapV11Tag`/`mapV22Tag` tables |
| NumM | `NullFloat`, `NullFloat64`, decimal form of `Rational`, `FloatToRational`, EXIF GPS coordinates and times, over exact decimals |
| DurM | `Duration` with `time.Duration.String` and `time.ParseDuration` of the Go library; JSON forms of `NullInt` and `NullBool` |
| IdSyncM | `XmpBase.SyncModel` with its list of sources and `prefixer`, `Document.SyncMulti`, `Document.SyncModels` for documents with an `XmpBase` model |
| MediaM | QuickTime location (`Location`, `QtMetadata.SyncFromXMP`, `SyncToXMP`), RIFF `StringArray` and `AltString` texts, TIFF `YCbCrSubSampling` |
| IxmlM | `SyncPointList` and `TrackList` read from and written to a stream of XML tokens (`Decoder.Token`, `Skip`, `DecodeElement` as functions on the stream) |
| GrowM | `growSlice` with the limits of memory and of 64 bits, which TPathM.grow_slice leaves out (they agree below the limits: C132_grow_partial) |
| SpecMerge, MergeFacts, MergeTypedFacts, PropMerge | no new code: Merge (xmp/sync.go:253-274, in DocM) on models that hold simple values; the typed models of SyncModelsM are shown to be such models |
| RateM, SpecRate, RateFacts, PropRate | models/xmp_dm/types.go VideoFrameRate.UnmarshalText, xmp/xmp_types.go Rational.Value; numbers are exact as in NumM |
| Base64M, SpecBase64, PropBase64 | xmp/marshal.go:664-725 ToString, ToRawString, isBase64; models/xmp_base/types.go NewIdentifierArray; base64.StdEncoding of the Go library is modelled; floats are left out |
| SpecCreate, PropCreate | no new code: SetPath and Sync (DocM) on documents without the namespace of the path |
| NodeSliceM, SpecNodeSlice, PropNodeSlice | node.go: NodeList.AddNode, AppendNode, Index, RemoveNode on shared arrays, the loop check of Node.AddNode; document.go: Nodes, RemoveNamespace(ByName) |
| PoolCloseM, PropPoolClose | node.go: Close, Clear; document.go: Close, on the memory of PoolM |
| MarkerSortM, PropMarkerSort | models/xmp_dm/types.go MarkerList Len, Swap, Less, Sort; sort.Sort is any sequence of exchanges after which no element is less than the one before it |
| PoolStatsM, PropPoolStats | the counters npAllocs, npFrees, npHits, npReturns of node.go and the numbers of dump.go DumpStats; printing is left out; `++` by several goroutines is a load and a store |
| LogM, PropLog | log.go; fmt.Sprintf for `%s`, `%v`, `%%` and string arguments, and the newline of package log are modelled |
| GroupM, PropGroup | namespace.go NamespaceGroup.Namespaces, Contains, NamespaceGroupList.Contains |
| CmdM, PropCmd | cmd/xmpinfo.go (all), reader.go Read and Scan, over the packet scanner of ReaderM; Unmarshal, MarshalIndent, json.MarshalIndent, ListPaths and DumpStats are parameters (any functions); debug log messages are left out |
| DocNsM, PropDocNs, PropDocNsRead | document.go Document.Namespaces over DocM |
| SelfRefM, PropSelfRef | models/xmp_mm/model.go AddHistory, GetLastEvent, SelfResourceRef with pointers |
| PropHistPaths | CodecM and MmM together: recorded paths written and read |
| RefSliceM, PropRefSlice | models/xmp_mm/types.go ResourceRefArray.Index and DeleteIndex on the array behind the slice |
| LenientM, PropLenient | xmp_types.go DateList.UnmarshalXMP, models/dc/types.go LocaleArray.UnmarshalXMP (ModelTypes has these two as plain arrays) |
| EnumM, PropEnum | models/ixml/enum.go Parse functions and TimecodeFlag, models/itunes/enum.go MediaType.String, models/dc/types.go LocaleArray.Default |
| SpecMergeNew, MergeNewFacts, PropMergeNew | no new code: Merge (DocM) into documents that lack namespaces of the other document |
| SpeedM | `Speed.XmpTimecode`, `ParseTimecodeFormat`, `Rational.Value` over exact rationals |

The typed documents (ModelTypes) treat the single text that DateList and LocaleArray also accept as an error; LenientM models that form by itself.

Not modelled: XML and JSON lexing, escaping and printing (`encoding/xml`, `encoding/json`: both sides work on token
streams, trees and JSON values), floating point formatting and parsing (a parameter where a codec needs it), logging
(`xmp/log.go`), debug output (`xmp/dump.go`), unicode case folding and space classification outside ASCII, memory allocation failure,
`cmd/`, the iXML text format (`ParseXML`), fields tagged `xmp:"-"` of QuickTime models in the sync methods,
and codecs that exist only in one direction.
Model types with hand-written XMP methods that are not described are `special` in ModelTypes.v: no value of such a type counts as
storable, so no theorem speaks about models that hold one.

## 3. How each group of properties is modelled and proved

| id | model and proof |
|----|-----------------|
| C01-C03 | `Path` functions over strings; induction on segment lists, characterisation of index/split/join |
| C04-C05 | `PathValueList` as list of records; induction; Diff against a finite-map specification |
| C06-C08 | `Version` as triple of Z; Atoi/Itoa round trip; `Between` against the documented meaning |
| C09 | ParseSyncFlags; induction on the list of names; bits via Z.lor |
| C10-C11 | registry as fold over Register calls; refinement to "last entry in history" |
| C12 | small-step machine of goroutines around an RWMutex; invariant and linearization by history |
| C13-C14 | list and string inductions |
| C15-C16 | filter functions over documents; induction over node list; string round trip |
| C17 | AddNode/AddAttr; induction over operation sequences |
| C18 | heap and pool machine; invariant over every operation history of any number of goroutines |
| C19 | heap of nodes, copyNode allocating; separation by fresh addresses |
| C20-C22 | Node.GetPath/SetPath/ListPaths by recursion on path; induction |
| C23-C24 | token stream encoder/decoder with stack; induction on trees |
| C25-C33 | document state machine; SetPath gating decision table; Merge by induction on path list |
| C34-C39 | universe of types/values; induction on types; slices with capacity |
| C40-C44 | AltString and arrays; induction over operations |
| C45-C51 | codecs; number printing/parsing lemmas |
| C52-C53 | split function and bufio.Scanner loop over arbitrary read partitions |
| C54-C55 | countWriter as state machine, padding loop |
| C56-C57 | JSON value tree conversions; panic outcome explicit |
| C58-C60 | decoder over node trees |
| C61-C63 | media management/marker functions, memory with addresses for C61 |
| C64-C66, C69 | further codecs and orders |
| C67 | decoder version against the ranges of the fields |
| C68 | version list operations |
| C70 | machine for the type cache; invariant over every schedule |
| C71 | panic freedom of the decoder by induction over trees and types |
| C72-C73 | whole documents: Encode, XML tree reading, Decode; the JSON way |
| C74 | ListPaths of a document for every sorting function |
| C75-C80 | native tags over the same type universe |
| C81-C83 | C72/C73 instantiated at every model type of the library; side conditions by computation (LibCheck.v) |
| C84-C91, C122 | sync methods as lists of guarded assignments between models; ownership of properties computed from them |
| C92-C98 | `time.Parse`/`Format` for the layouts of the library over symbolic digits; every layout in front of the right one is shown to fail |
| C99-C102 | a heap of arrays with slice headers; loop invariants over the heap; growth of append is arbitrary |
| C106-C111 | hand-written XMP methods on top of the typed encoder and decoder; case analysis on the forms, induction over fields and lists |
| C112-C114 | own field and no other: induction over the field table, instantiated at every model (the tables are computed by the kernel); spellings by induction on strings; old frames by cases on the tables |
| C115, C116 | integer division laws; linear arithmetic over rationals |
| C117-C121 | decimal texts denote rationals; induction over digits, Euclid's algorithm, linear arithmetic over rationals |
| C123-C126 | texts of durations as lists of parts with units; induction over digits and parts; integer division |
| C127 | the list of identifiers as a fold over the sources; each sync step is one step of the fold; induction over sources and nodes |
| C128-C130 | case analysis of the texts; splitting lemmas; all pairs by case analysis |
| C131 | a separate grammar of well-nested documents (SpecIxml); induction over it |
| C132 | values that fit their types (SpecSafePath) as an invariant; induction over types and paths; each library model by computation on its fields |
| C133 | good models as an invariant of documents (SpecSafeDoc), generic in the model interface; valid node references inside SetPath; instance for the library models from C132 |
| C134 | texts with the rate they name (SpecRate); a decimal with a unit is refused as a rational, then the unit is removed; decimals without a unit by C119 |
| C135 | base64 as a relation between data and text (SpecBase64, RFC 4648); the encoder produces it, the decoder inverts it, by induction on groups of three bytes |
| C136 | node lists as slice headers over shared arrays (SliceM); invariant of the walk: kept nodes, remaining nodes, copies of the last node; by induction on the remaining nodes |
| C137 | reachability in the graph of children, before and after one edge is added |
| C138 | induction on the depth of the trees; the nodes given back are counted against the room in the pool |
| C139 | IsSmaller is a strict weak order by cross multiplication; exchanges are permutations; neighbours in order give all pairs in order |
| C140 | invariants kept by every elementary step of NewNode and Close; invariant over all schedules for the unprotected increments |
| C141 | induction on the history; induction on the pieces of a format |
| C142 | from C10 |
| C143 | case analysis of the program over all flags; C53 for the packets |
| C144 | invariant of MakeModel, AddModel and RemoveNamespace over all histories |
| C145 | induction over all histories of a program using the pointers |
| C146 | C61 and the round trip of part lists (C49) composed |
| C147 | refinement of the list model by the array model; invariant of the loop |
| C148 | induction over the items; both forms computed |
| C149 | case analysis on the switches; split and join, number parsing |
| C103-C105 | extensions on top of the tree reader and the decoder; induction over trees and lists |

Every property can be expressed in a model; where the runtime matters (goroutine scheduling by the Go runtime, the
`encoding/xml` lexer, Unicode tables) the model carries the logical part and the note below says so.

Status of each property (from MANIFEST.json):

| id | property | status | restriction |
|----|----------|--------|-------------|
| C01 | Path.Push and Path.Pop are inverse | proved |  |
| C02 | Walking a path with PopFront visits every segment once and terminates | proved |  |
| C03 | Array index and language suffixes survive printing and parsing | proved | The rejection of indices below -1 is part of the GetPath/SetPath model. |
| C04 | Path lists never contain empty values and Unique keeps one entry per path | proved |  |
| C05 | Diff reports exactly the changed paths, with an operation that can be applied | partial | Which paths are mentioned is proved for all lists; flags and carried values are proved for two non-empty lists. Applying the diff does not give y: REPLACE carries the old value and an empty side yields no flags (refuted theorems). |
| C06 | Version strings round-trip | proved |  |
| C07 | Version comparison is a total order | proved |  |
| C08 | Version ranges on model fields are inclusive and open-ended as documented | partial | Proved for a non-zero lower bound. With a zero (open) lower bound the upper bound is exclusive and no version matches an unbounded range (refuted theorems). |
| C09 | Sync flag names parse to the union of their bits | proved |  |
| C10 | The registry returns the last registration | proved |  |
| C11 | Prefix and URI lookups agree | partial | Proved for histories in which prefix and URI determine each other; refuted for re-registration of a prefix under another URI (both directions). |
| C12 | Concurrent registry use is linearizable | proved | sync.RWMutex is modelled (writer announcement, reader list); map accesses are single steps. Go memory-model effects below map-access granularity are not modelled. |
| C13 | Namespace list helpers behave as sets keyed by name/URI | proved |  |
| C14 | Qualified names split and join losslessly | proved | Expand("") is the bare prefix, so the local part is recovered for non-empty local names; the prefix for all. |
| C15 | Filters keep included and drop excluded namespaces | partial | With an include list the prefixes of all top-level nodes must be known; a node with an unknown prefix is kept (refuted). |
| C16 | Filter strings round-trip | partial | String round-trip proved for names that are not group keywords and contain no comma; refuted for prefix "xmp" which re-parses as the group. Strict parsing is characterised completely. |
| C17 | Child and attribute names stay unique and the last write wins | proved | GetAttr ignores prefixes, so its theorem asks that no other attribute has the same name under another prefix. |
| C18 | Recycled nodes are clean and never shared | proved | Any number of goroutines. The protocol (only live nodes are written or closed, each closed once) is a hypothesis; a double Close is shown to hand one node to two callers. Field resets of Close and NewNode are modelled field by field in one step each. |
| C19 | Copied nodes are independent of the original | proved | Memory model with node cells and attribute arrays; the copied subtree must be a finite tree. |
| C20 | Value set through a raw node path is read back | partial | Proved for all addressable paths (definition in SpecNode.v). Refuted for attributes, arrays without index, missing or duplicate languages, and indexes into alternatives. |
| C21 | Setting one raw path leaves unrelated paths alone | proved | For nodes whose children carry no typed model; any flags, any outcome. |
| C22 | ListPaths of a raw node lists what GetPath returns | partial | Soundness for all trees of the XMP data model; completeness when array items hold their data in child nodes. Refuted for simple array items. |
| C23 | Node trees survive XML token round-trips | partial | Token level; the lexer and printer of encoding/xml are not modelled. With indentation, text next to children is lost (refuted). |
| C24 | Empty nodes are recognised recursively | proved |  |
| C25 | MakeModel/AddModel give one node per model | partial | All of MakeModel and AddModel is characterised for every document. AddModel onto a node that already has a model discards that model (refuted). |
| C26 | RemoveNamespace removes exactly one top-level node | proved |  |
| C27 | Models are synchronised before export exactly when the document changed | partial | Order, early stop and dirty flag of syncToXMP for all models that do not add or remove models of other nodes. SetPath with NOFAIL can add a node without marking the document (refuted). Marking by MakeModel/AddModel/RemoveNamespace is part of C25 and C26. |
| C28 | SetPath honours the CREATE/REPLACE/DELETE/APPEND/UNIQUE flags | partial | All flags, values and models, for a namespace with a settled node or no node. A path that is just a namespace removes everything under the default flags (refuted). |
| C29 | SetPath then GetPath returns the value | partial | For settled namespaces and for namespaces the document does not have yet (a model or a raw node is added at the end), NOFAIL off; models must answer with the assigned value (hypothesis "answers"), raw nodes by C20. Refuted with NOFAIL. |
| C30 | NOFAIL never reports an error | partial | Exact list of the sources of an error under NOFAIL; two of them are reachable with valid paths (refuted). |
| C31 | A failing SetPath leaves the document unchanged | partial | For settled namespaces. CREATE with an empty value adds a model before it fails (refuted). |
| C32 | Sync copies a value between two paths according to its flags | partial | The complete decision table for models that exist and for models that Sync adds. If there is nothing to copy an empty model is added all the same (refuted). Sync with CREATE into a namespace without model type panics (refuted). SyncMulti is the iteration of Sync. |
| C33 | Merge adds without destroying | partial | Source unchanged when it was not dirty; merging present values changes no node; nodes of other namespaces untouched. For models that hold simple values (shown for the simple properties of all typed models): what d says stays, what is missing is added, unlisted paths are untouched, and merging the same document again changes nothing. Refuted for raw nodes and for lists: their values are overwritten. The same where d has nothing for a namespace of b: a new model is added once and takes the values (C33_merge_new_partial, C33_merge_new_again_partial). Not proved: new raw nodes, language alternatives. |
| C34 | Typed models survive marshal/unmarshal | partial | All types built from the described kinds and all storable values (SpecType.v); names must not contain blanks as tags never do. Wrapper mode (models at top level) is not included. Refuted for slices without methods, nil array items, empty arrays flagged empty. |
| C35 | Unknown properties are preserved through decode/encode | partial | What the document keeps is proved exactly, for every input tree, registry and set of model types. Written again: proved for non-empty properties whose names differ; of several unknown properties with one name only the last survives and empty ones are dropped (refuted). The whole way is stated for models whose Sync methods do nothing. |
| C36 | Field lookup finds the named field and nothing else | proved | Path access (findField) and the decoder (findStructField); with several fields of one local name the first is taken. |
| C37 | Typed path access is consistent with the model fields | partial | Typed fields, without extension types and raw nodes. Reading back needs the fields on the way to be shown (not zero for their type), setting an alternative needs flags without UNIQUE when it exists, listing needs distinct local names and languages; refutations show each is needed. |
| C38 | Slice editing by path follows list semantics | partial | Slices with MarshalXMP/UnmarshalXMP and every flag combination of the edits relation; a deleted last element can come back (refuted), so the slice must hold no leftovers behind its end. |
| C39 | Struct tags are parsed into flags and version ranges as documented | partial | Tag texts: complete. Duplicate names: complete without versions; with versions a field is rejected only when its range lies inside an earlier one, other overlaps are accepted (refuted). Incomplete version signs crash (refuted). |
| C40 | AltString keeps at most one default and finds values by language | partial | All histories of calls on an AltString that starts empty. Get returns the value last stored unless Add/AddUnique is called for a language that is present, or RemoveLang after AddDefault for a language that was present (both refuted). |
| C41 | AltString operations do not panic | partial | Exact characterisation of the panics for every history, every AltString value and every constructor call; two witnesses of a panic. |
| C42 | AltStrings survive marshal/unmarshal | partial | Items with the same value as the default confuse the reader (refuted); otherwise every AltString in which each item but the default has a language. |
| C43 | String lists behave like sets/lists | partial | Everything but Remove; Remove of a present value is shown to repeat the part up to the value and never to remove it (refuted for every list). |
| C44 | Ordered/unordered arrays survive marshal/unmarshal | proved |  |
| C45 | Text codecs of the base types round-trip | partial | Bool, NullBool, NullInt and Rational without restriction (numbers are 64-bit). StringList: non-empty lists of items without newline and trailing carriage return. NullFloat is the subject of C117; float parsing is a parameter for Rational here. |
| C46 | SplitInt keeps 32-bit values | partial | Decimal values below 2^31 and bytes below 128; every larger decimal value is rejected (refuted). |
| C47 | GUID parts are consistent | proved |  |
| C48 | Time zone repair only completes truncated zones | partial | Zones Z, +hh:mm (unchanged) and +h, +h:mm (completed). The complete zone +hhmm is damaged for every timestamp and the repair is not idempotent (refuted). |
| C49 | Media frame counts, rates and parts round-trip | partial | Exact sets of values that survive; what is lost outside them is listed in C49_refuted. |
| C50 | Model specific text codecs round-trip | partial | ContentRating and Identifier never survive (refuted for all values); everything else is proved. |
| C51 | Exif flash bits decode exactly | proved |  |
| C52 | Packet scanning does not depend on read boundaries | partial | For every stream that meets "fits" and every schedule of reads of 16 bytes or more. Smaller reads, or packets less than 15 bytes apart, can lose packets (refuted). |
| C53 | Every complete packet is returned once, and scanning terminates | partial | bufio.Scanner is modelled step by step (buffer, growth, shifting). Packets over 64 KiB fail the whole scan, and a header/trailer pair less than 51 bytes before the end of the buffer panics (refuted). The split function and termination are covered without restriction. |
| C54 | Output never exceeds the configured limit | partial | Bound for every io.Writer and every sequence of writes; output and overflow exactly for a writer that takes everything. An empty write at the limit is reported as overflow (refuted). |
| C55 | Padded packets have exactly the requested size | proved | The XML text is a parameter, in any non-empty pieces. |
| C56 | JSON export/import preserves documents | partial | Trees holding records, texts, lists and alternatives (SpecJson.v) with distinct unreserved member names, no lists in lists and a well formed default; Bag/Seq and attribute/element are not kept. Refutations show what is lost otherwise. |
| C57 | Malformed JSON is reported, not a crash | partial | Exact characterisation of the JSON values that crash the conversion; whole documents without such values are read without a crash unless a model has a list of numbers or booleans (refuted). |
| C58 | Namespace prefixes are translated to the registered ones | partial | Declared namespaces; the iff needs different prefixes for different URIs, without that names fall together (refuted). |
| C59 | Namespaces declared on any ancestor are accepted | partial | Declarations on x:xmpmeta and rdf:RDF do not count: proved for every document (so the property is refuted). Accepted placements are proved for documents without models. |
| C60 | Decoder rejects structurally invalid packets and only those | partial | A broken chain leaves everything but the toolkit name unchanged; the toolkit name changes (refuted) and is lost by every successful Decode. |
| C61 | Version history is append-only | partial | Pointers are modelled with a memory. An entry that was added twice changes in both places (refuted). |
| C62 | Deleting by index removes that element or nothing | partial | The index equal to the length panics for every list (refuted). |
| C63 | Marker filters select by type | proved |  |
| C64 | ID3 genres are read back | partial | The list is read back when every name is in the table; an unknown name makes the whole text an entry (refuted). |
| C65 | EXIF tables in text form are read or rejected, never crash | partial | The positive part for CFAPattern and DeviceSettings is C50_cfa_pattern and C50_device_settings. OECF tables with names are rejected, negative dimensions panic (refuted). |
| C66 | Media durations in clock notation are read exactly | proved | Below 9e9 seconds (no overflow of int64 nanoseconds). |
| C67 | A decoder version selects the fields of that version | partial | With a version set, no field without a version in its tag is ever read or written (refuted for all types); the range test itself is C08. |
| C68 | The previous version id can be set and read | partial | SetPreviousVersionId renames the last entry and never the previous one (refuted for every history). |
| C69 | Frame counts are ordered by time | partial | Exact arithmetic instead of float64. The code multiplies by the rate instead of dividing (refuted); correct for equal rates. |
| C70 | Type descriptions do not depend on concurrent use | proved | Machine with single map accesses as steps and a model of sync.RWMutex; fairness of the lock is not modelled. |
| C71 | Decoding never crashes | partial | All trees, for model types without lists of numbers, booleans or plain lists (refuted for them) and with text readers that do not crash. |
| C72 | Documents of models survive encoding and decoding | proved | For storable documents (SpecTrip.v): bare models, values that their field types can store. The text layer of encoding/xml is modelled by xml_read, not verified. |
| C73 | Documents of models survive the JSON form | partial | For storable documents whose models JSON can hold (json_model in SpecTrip.v); a model whose written properties hold no text is lost (refuted), lists of type Alt and what C56 refutes are excluded. |
| C74 | A document lists every path once and in order | proved | For every sorting function; the models are arbitrary (any listing). |
| C75 | A native tag is stored in and read from its field | partial | For texts that mean something for the type of the field (reads_as). Refuted: lists and catch-all fields accept any text and store nothing; a refused text leaves an allocated pointer; blanks around strings are dropped. |
| C76 | A model says which tags it knows | partial | For fields whose value has a text. Refuted: CanTag of a list of structs or a language alternative is false once it has values. |
| C77 | A language of a native tag can be set and read | partial | For alternatives with one default at the front and fields that are not pointers. Refuted: GetLocaleField panics for fields of other types and cannot read pointers. |
| C78 | Listing native tags gives all that is set | partial | Exact description of the successful listings. Refuted: listing panics for lists without text form and fails altogether for structs. |
| C79 | A list of tags survives a document | partial | For keys without dash and different pairs of key and language; both restrictions are needed (refuted). |
| C80 | QuickTime tags reach their part | partial | Storing and reading is proved; CanTag is refuted for every tag longer than the prefix (swapped arguments), and for the tags of embedded documents and tags with the sign of copyright. |
| C81 | Documents of the library's own models survive XML | partial | For all models of the library and every text form; values with reading or writing methods that are not described (special in ModelTypes.v), and in five models fields of other namespaces, are excluded. Refuted for the marker and track types of xmpDM and for fields of other namespaces. |
| C82 | Documents of the library's own models survive JSON | partial | As C81, for alternatives with the languages JSON needs, without lists of type Alt and without properties that hold no text at all. |
| C83 | Only empty records are left out | partial | For twelve of the record types; refuted for ResourceRef (ManageUI) and MediaTime (numerator of the scale). OECF, CFAPattern and DeviceSettings are wrong too but can only be read as text. |
| C84 | Saving keeps what the main models say | partial | For title, creator, description and rights of Dublin Core and for the modification date and tool of the basic model, for all documents. Refuted for the creation date (ID3) and for the media properties (ID3, iXML). Native fields of EXIF and RIFF models are modelled (the same for all models of a document); those of QuickTime models (embedded XMP, iXML and location) are not. |
| C85 | Saving brings native properties into the main models | partial | For all 22 shared properties. Native fields of EXIF and RIFF models are modelled (the same for all models of a document); those of QuickTime models (embedded XMP, iXML and location) are not. |
| C86 | Saving twice is saving once | partial | For all documents of models of the library. Native fields of EXIF and RIFF models are modelled (the same for all models of a document); those of QuickTime models (embedded XMP, iXML and location) are not. |
| C87 | Saving touches nothing else | partial | For all documents of models of the library and all outcomes. Native fields of EXIF and RIFF models are modelled (the same for all models of a document); those of QuickTime models (embedded XMP, iXML and location) are not. |
| C88 | A document can always be saved | partial | Exact condition; refuted for ID3 models with a date and time of ID3 v2.3 but no recording time (panic). Native fields of EXIF and RIFF models are modelled (the same for all models of a document); those of QuickTime models (embedded XMP, iXML and location) are not. |
| C89 | Reading brings XMP properties into native models | partial | For the 46 fields that are copied as they are; the 19 computed ones are only known to be the only others that change. Refuted for the tool of Exif (inverted test) and for a list of creators in Exif (comma and semicolon). Native fields of EXIF and RIFF models are modelled (the same for all models of a document); those of QuickTime models (embedded XMP, iXML and location) are not. |
| C90 | Reading settles | partial | For all fields but the genres of ID3, for which it is refuted for every document with a genre. Native fields of EXIF and RIFF models are modelled (the same for all models of a document); those of QuickTime models (embedded XMP, iXML and location) are not. |
| C91 | What is set in a main model is what is written | partial | Refuted: PDFInfo has the same property, and the later node wins. For documents without such models C81 shows that the values set are read back. |
| C92 | Dates survive their text form | partial | For years 0 to 9999 and zones of whole minutes within a day, up to the second. Refuted: every fraction of a second is lost; years from 10000 on are not read back; seconds of a zone are lost. |
| C93 | All documented date forms are read as what they denote | partial | All forms of the XMP specification and eleven others. Refuted: a timestamp with zone +hhmm, one of the listed layouts, is never read (repairTZ damages it). |
| C94 | Times of day survive their text form | partial | Clock and zone, for zones of whole minutes within a day. Refuted for the day, which a time.Time carries. |
| C95 | EXIF dates survive their text form | partial | All listed forms are read; the clock survives. Refuted: the zone is lost, so the moment changes by its offset; ISO days, months and minutes with zone are rejected. |
| C96 | EXIF sub-seconds are added to the date | partial | Refuted: no sub-second text is ever added, and the error is reported exactly when there is none (inverted test). |
| C97 | ID3 v2.3 dates are read as the frames define | partial | Times are right. Refuted for dates: the layout is MMDD, so days after the 12th are rejected and other days are taken for months. |
| C98 | Dates that are read exist | partial | Existence and panic freedom for all texts; normalisation for zones less than a day. Refuted for zones beyond 99:59, which are read but written as texts that are not. |
| C99 | The dictionaries of iXML act as sets | partial | Del for lists without duplicates; refuted for lists with a value twice (Del removes the last one). |
| C100 | Union and difference of iXML dictionaries | partial | Merge in full. Sub for lists in different arrays and without duplicates; refuted for a list minus itself. |
| C101 | Predefined function lists stay what they are | partial | Add and Merge on lists without spare room, and every operation on lists in different arrays. Refuted for Del, Sub and Add after Del on copies of the predefined lists. |
| C102 | Upgrading old iXML data keeps what it says | proved | For every record; the sizes of integers are not modelled. |
| C103 | Named extensions survive XML | partial | Names and nodes come back, attributes with one more. Refuted: after one trip the written element has two attributes of one name; the text is lost; of two extensions with one name the first is lost. |
| C104 | Unknown iXML properties are kept | partial | Goes to the Extension field (decoder without version); child nodes are kept. Refuted for the name, the text and the attributes: nothing is left of a property without children. |
| C105 | Pantry items survive XML | partial | For items of properties without a model, written as elements. Refuted: properties written as attributes are dropped; AddPantry items are written with an extra element for each model; rdf:about in an item makes decoding fail. |
| C106 | Identifiers survive XML | partial | Ids without scheme and three forms, for a decoder without version. Refuted: every identifier with a scheme is read as an empty one. |
| C107 | Time codes survive XML | partial | Format and numbers (not negative) come back. Refuted: the value is never written, so a time code made from its text becomes 00:00:00:00; one with just numbers counts as empty. |
| C108 | Records that are written field by field are read again | partial | Text form of SMPB. Refuted for eleven record types: what is read does not depend on what was written. |
| C109 | URIs are read in both forms | partial | The text form. Refuted: an rdf:resource attribute is never found in a packet that declares the prefix. |
| C110 | Thumbnail fields have their names | partial | Format and image. Refuted: width and height are swapped. |
| C111 | Identifier lists act as sets | partial | Contains and AddUnique in full, Remove of absent ids. Refuted: Remove never removes. |
| C112 | A native tag has its own field | partial | For the models whose type can be read: 26 of 28. Refuted: no native tag of the RIFF model works (two fields with tag IARL, two with ICMS); the tags of ExifEX are declared under another key. |
| C113 | EXIF tags are found in any case | partial | GetTag, SetTag and the locale functions. Refuted: CanTag is case sensitive; the fifteen Aux fields declare tags that are never found. |
| C114 | Frames of old ID3 versions mean their successors | partial | For frames whose successor is listed right. Refuted: TCO stands for TMED instead of TCON; a lost frame; the languages of comments. |
| C115 | The time code of an iXML file is the time of its samples | partial | Hours, minutes and seconds for numbers that do not overflow; frames when the numerator is 1000 times a whole rate. Refuted: with a rate such as 25/1 the frame is always 0; sample rate 0 with rate 0/1 crashes. |
| C116 | Every frame rate gets its time code format | partial | Rates are exact rational numbers. Refuted for 59.94 without drop frames, which gets the drop frame format. |
| C117 | Floating point numbers survive their text | partial | Numbers are exact decimals, so rounding to 32 or 64 bits is not covered. Text in full; JSON for finite numbers and NaN. Refuted: JSON swaps the infinities; an exponent with a capital E is refused or read as another number. |
| C118 | A unit after a number is ignored | partial | Units without digits, signs, points and the letter e. Refuted: with an e in the unit (sec, meter) every number is refused. |
| C119 | A decimal text is read as a rational of its value | partial | Numbers from 1 on, and the fractions 1/n. Refuted: between 20/39 and 1 everything is read as 1/1; negative numbers as 1/0; zero has numerator 1. |
| C120 | GPS coordinates keep their angle | partial | Angles of both directions up to rounding. Refuted: the sign is dropped on reading; minutes can be written as 60; degrees beyond 360 and NaN are accepted. |
| C121 | A GPS time is the date plus its hours, minutes and seconds | partial | Fractions that are not negative, less than 3 ns off; whole numbers exactly. Refuted: a component with denominator 0 counts as one unit. |
| C122 | Saving computes the XMP properties of native EXIF and RIFF data | partial | For all 13 computed properties of EXIF models and all 3 of RIFF models; the native fields are the same for all models of a document. |
| C123 | Durations survive their text | proved | All durations, text and JSON. |
| C124 | Texts of durations are read as what they denote | partial | All texts with units (decimals that are whole nanoseconds), with white space anywhere; all whole numbers that fit. Refuted: more seconds than 64 bits hold wrap around; a number of seconds with white space is refused. |
| C125 | Rounding durations | partial | Exact behaviour where floating point quotients are exact (up to 2^53 ns): away from zero. Refuted: Truncate never truncates, RoundTo counts begun units. |
| C126 | Simple values survive JSON | partial | All values and placeholders; refuted for null, which is an error or sets false. |
| C127 | Identifiers of other models are collected once | partial | Documents whose models do not crash when asked for an identifier; shown for all documents of library models with well-typed values. Refuted: four QuickTime identifiers are never collected; a value equal to the first identifier without its mark is skipped. |
| C128 | The location of a QuickTime file survives synchronization | partial | Locations with a name and without plus signs in the coordinates; altitudes are exact decimals. Refuted: the documented form +43.5968+005.4797+362.904/ gives an empty latitude and shifts the others; a location without a name is dropped. |
| C129 | Lists of texts in RIFF files are read as their items | proved | All texts. |
| C130 | Names of chroma subsampling | proved | All pairs of factors. |
| C131 | Lists in iXML documents are read entry by entry and survive XML | proved | All token streams of well-nested elements; the entries themselves are abstract (encoding/xml decodes them). |
| C132 | Access by path never crashes | partial | All 24 models of the library whose types can be read, provided their MarshalText and UnmarshalText methods do not crash, and indices below the limits of memory. Refuted: deleting the default text of an alternative with three or more languages crashes; so does creating an entry at an index above 2^47. |
| C133 | Working with documents never crashes | partial | The exact list of reasons for a crash: deleting a language, synchronizing to a namespace without a model type, a destination model that is not in the document. Both of the first are shown to crash (refuted). SyncToXMP is assumed not to crash; memory limits as in C132. |
| C134 | Texts of video frame rates are read as the rate they name | partial | Names, whole numbers and ratios are exact, decimals with a unit are exact, decimals from 1 on without a unit are within 1/20000 (1/2000000 up to 2147). Refuted: fractions between 20/39 and 1 without a unit, the empty text and ratios with denominator 0 are read as 1. Floating point rounding is not modelled. |
| C135 | Values are turned into texts without loss | partial | Binary data is written as base64 (after RFC 4648) or left as it is; it is encoded if it has a byte foreign to base64 or a length that is not a multiple of 4; base64 stays as it is; the data of a base64 text is unique. Refuted: data and its own base64 have the same text; data that happens to look like base64 is not encoded. Floating point numbers are not modelled here. |
| C136 | Lists of nodes taken from a document stay as they were | partial | Lists taken before stay as they were when nodes are added. Refuted for removal (the earlier list loses the node and repeats its last one) and for replacing; walking Document.Nodes() while removing leaves every other node but the last (for all lists). With the names collected first, as FilterNamespaces does, all nodes go. |
| C137 | No node is its own descendant | partial | The check refuses only a node added to itself; the nodes stay a tree exactly if the parent is not below the new child, as with new nodes. Refuted: two nodes added to each other form a loop. Modelled on AppendNode; AddNode has the same check. |
| C138 | Closing gives back exactly the nodes of a document | proved | For documents whose nodes are in use and occur once; a node that is in two documents is given back twice (shown). Calls are uninterrupted; interleaved calls are the subject of C18. |
| C139 | Sorting markers orders them by time | partial | No marker is lost; the order is right for markers of one positive frame rate that do not start at maximum. Refuted: maximum is sorted in front of 0. Different rates are refuted by C69. That sort.Sort ends is not modelled; that IsSmaller is a strict weak order, which it needs, is proved. |
| C140 | The statistics of the node pool are right | partial | For uninterrupted calls: the pool number always, the number in use when only held nodes are closed. Refuted: a node closed twice makes the number negative; increments of several goroutines get lost (for every number of goroutines), as the counters are not protected. They never count too much. Counters are unbounded in the model. |
| C141 | Log messages of a sufficient level are written as they are | partial | Levels for all histories; the text for Errorf, Warnf, Infof and Debugf with string arguments and verbs %s. Refuted for Error, Warn, Info and Debug: every message comes out as %!(EXTRA ...) on a second line. |
| C142 | A group contains exactly the namespaces registered in it | partial | Namespaces in full; Contains compares the prefix only, so it is right where no prefix is used for two URIs (refuted otherwise). |
| C143 | xmpinfo prints what its flags ask for | partial | For any functions in place of those of the library. The exit code in full (library without panics). The forms without -quiet and -debug. Refuted: -path prints with -quiet too; -all has no effect on -xmp, -json and -path, and with -orig switches them off. |
| C144 | Document.Namespaces lists the namespaces of the models | partial | A document just read lists exactly the declared namespaces (registrations as in C11), each once. New documents: each once for every history; exactly the namespaces of the models where every model has one namespace; without removals those of all models are listed. Changes to documents that were read are not covered. Refuted for models with two namespaces (exif): RemoveNamespace leaves one behind, and takes away one that another model still has. |
| C145 | A reference to a document is a snapshot of it | proved | Every history of assigning fields, making, changing and recording events (nil ones and the same one twice too) and making references. |
| C146 | Recorded changes survive writing and reading | partial | For all paths without semicolon and without the word time followed by a colon; writing again is stable for all paths. Refuted for the others: a semicolon splits the path, a time that is no number makes the history unreadable. |
| C147 | Lists of references keep what they had when references are deleted | partial | The list itself is right for every array (refinement of C62), and deleting from the last to the first empties it. Refuted: an earlier list is overwritten (exactly when it changes is proved), and deleting each reference in a range loop leaves the second of three or more. |
| C148 | A single value in place of a list is read as a list of one | partial | Proved for dc:language and lists of dates with a text that is not blank. Refuted for a blank element and for every other list type: reading fails. |
| C149 | Enumerated values keep their names | proved | Holds. Words of a list may not hold a comma. |

## 4. Trusted base

* Coq's kernel (8.16.1), its virtual machine (`vm_compute`) and the build tool chain.
* The reading of the Go code: each definition cites its source, simplifications are stated in the comment.
* The semantics of Go and its standard library as listed in section 1 and in GoStr.v, ReaderM.v (`bufio.Scanner`), DateM.v (`time.Parse`, `Format`), XmlM.v and
  DecodeM.v (`xml_read`: what a namespace-aware parser makes of the written names), JsonM.v, and the machines of `sync.RWMutex` and `sync.Pool`.
* Axioms: none of ours. `Print Assumptions` is run below every property theorem and answers "Closed under the global context" for
  all of them. The checker `coqchk` lists seven axioms for the loaded library as a whole, all from the standard library's
  `Coq.ssr.ssrunder` (`Under_rel.…`, a sealed module used by the ssreflect rewriting tactics); no theorem here depends on them.

## 5. Findings: where the code does not have the property

Base library
* Diff (C05): REPLACE entries carry the old value; with an empty side no flags are set.
* Version ranges (C08): an open lower bound makes the upper bound exclusive; an unbounded range matches nothing. With a decoder
  version set, fields without a version are never read or written (C67).
* Registry (C11): registering a prefix again under another URI leaves the old URI answering with the new prefix.
* Filter (C15, C16): a node with unknown prefix passes an include list; prefix `xmp` re-parses as the group of that name.
* AltString (C40-C42): `Add` for a language that is present hides the new value; `AddDefault` and constructors can panic; items with
  the default's text become default when read.
* StringArray/StringList.Remove (C43) repeats the part before the value and never removes it.
* SplitInt (C46) rejects decimal values from 2^31 on. repairTZ (C48) damages the complete zone `+hhmm`.
* Scanner (C52, C53): packets closer than 15 bytes or reads under 16 bytes lose packets; packets over 64 KiB fail the scan; a trailer
  near the end of the buffer panics.
* Writer (C54): an empty write at the limit is an overflow.
* Raw paths (C20, C22): attributes, arrays without index, and indexes into alternatives are not read back; simple array items are not listed.
* Documents (C25-C33): AddModel onto a node discards its model; SetPath with NOFAIL can add a node unmarked; a bare namespace path removes
  everything under the default flags; CREATE with an empty value adds a model before it fails; Sync into a namespace without a model type panics.
* Decoder (C59, C60): declarations on `x:xmpmeta` and `rdf:RDF` do not count; the toolkit name is lost by every successful Decode.
* Encoder (C34, C35): root nodes with at most two attributes and no children are dropped; of several unknown properties of one name the last
  survives; nested xmlns attributes on raw nodes are garbled; slices without methods and nil array items are not read back.
* List items of int or bool type with a bad text panic (nil field info) in XML and JSON (C57, C71).
* JSON (C56, C57, C73): Bag becomes Seq; attributes become elements; a default without language loses its text; a single x-default item
  comes back twice; nodes with value lose their attributes; arrays in arrays are dropped; an `rdf:value` member overwrites; records with members
  value/lang/isDefault are misread; unchecked type assertions panic (json.go:331-334); same-named children overwrite; an empty rdf:Alt
  becomes a Seq; a model with only empty texts is dropped.
* Tags (C39): overlapping version ranges are accepted unless nested; incomplete version signs panic.
* Slice edits (C38): a deleted last element can come back because the backing array is not cleared.
* Native tags (C75-C80): ListNativeFields panics for slices without text form and fails for structs; SetNativeField on slices succeeds storing
  nothing; GetLocaleField panics for non-slice kinds and cannot read pointers; CanTag depends on values; TagList loses keys with dashes and
  duplicates; QtInfo.CanTag calls HasPrefix with swapped arguments; `XMP_` and `iXML` tags cannot be reached; tags with the copyright sign are never
  routed; a failed SetNativeField leaves an allocated pointer.

Models
* xmp_mm (C61, C68): an entry added twice changes in both places; SetPreviousVersionId renames the last entry. Index equal to the length panics (C62).
* xmp_dm (C49, C69): part ranges with different rates subtract counts; frame counts are compared multiplied by the rate; `MarkerTypeList` has no
  marshal methods (C81); `MediaTime.IsZero` ignores the numerator (C83). `ResourceRef.IsZero` omits ManageUI (C83).
* xmp_base: Thumbnail Width is tagged `xmpGImg:height` and Height `xmpGImg:width`.
* exif (C65, C83): OECF name loop is off by one; negative dimensions panic; IsZero of the tables uses `||`; convertDateToXMP has an inverted test.
* id3 (C64, C90): an unknown genre makes the whole text an entry, so genres grow on every load; TimedLyrics attribute slices have no text form;
  `time.Date(…, nil)` panics when date and time of version 2.3 are set and the recording time is not (C88).
* Sync (C84-C91): ID3 overwrites the creation date and media properties, iXML overwrites media properties even with empty values; Exif copies the
  creator tool under an inverted test and joins creators with a comma but splits at semicolons; PDFInfo and TiffInfo write `dc:`/`xmp:` properties of their own,
  and the later node wins (C91); the ISO 6709 location is split at `+`, which leaves the latitude empty.
* DJI moves `tiff:Model` (C81). NullFloat.MarshalJSON swaps the signs of infinities. Extension arrays dereference a nil node in SetModelPath.
* Dates (C92-C98): fractions of a second are not written; timestamps with zone `+hhmm` are never read; EXIF dates lose their zone and reject ISO days;
  EXIF sub-seconds are never added; ID3 TDAT frames (DDMM) are read as MMDD; zones up to 99:99 are read but not all can be read back.
* iXML dictionaries (C99-C101): Del removes one of several equal values; Del and Sub move elements inside the array shared with the predefined lists of the package.
* Extensions (C103-C105): every trip adds an `rdf:parseType` attribute; unknown iXML properties lose name, text and attributes; pantry items lose attributes,
  AddPantry items gain elements, and `rdf:about` inside an item makes decoding fail.
* Hand-written XMP methods (C106-C111): identifiers with a scheme are read as empty; the text of a time code is overwritten; eleven record types are written field
  by field but read from a text, so they are lost; `rdf:resource` is compared with the prefix and never found; thumbnail width and height are swapped;
  `IdentifierArray.Remove` keeps what it should remove.
* Native tags (C112-C114): the RIFF model declares IARL and ICMS twice, so none of its tags works; ExifEX tags are under the key of another model; EXIF CanTag is
  case sensitive and fifteen Aux tags are never found; TCO of ID3v2.2 goes to TMED.
* Time code of iXML (C115, C116): with a whole frame rate the frame is always 0; division by zero for a file without rates; 59.94 non-drop becomes drop.
* Numbers (C117-C121): JSON swaps +Inf and -Inf; `1.5E5` is read as 1.55; `1.5 sec` is refused; `0.75` becomes 1/1 and `-1.5` becomes 1/0; the sign of a
  decimal GPS coordinate is dropped; minutes can be written as 60; an unset GPS hour adds an hour.
* Collecting identifiers (C127): the paths `qt:GUID`, `qt:ISRCCode`, `qt:ContentID` and `qt:ClipID` name fields `QtInfo` does not have, so these are never collected; a value equal to the first identifier without the mark is skipped.
* QuickTime location (C128): the documented ISO 6709 form begins with a sign, so splitting at signs gives an empty latitude, the latitude as longitude and the longitude as altitude; a location without a name is never written.
* Deleting by path (C132): deleting the default text of an alternative with three or more languages reads behind the end of the shortened list and crashes; the only other call that does is creating an entry at a huge index (above 2^47), where growSlice asks for more memory than there is, or computes a wrong capacity because n*2 wraps around.
* Video frame rates (C134): the empty text, `25/0` and `0.75` are all read as 1 frame per second.
* `ToString` of bytes (C135): data that happens to look like base64 is not encoded, so `a` and `YQ==` have the same text.
* Node lists (C136): `Document.Nodes()` shares its array with the document; `RemoveNamespace` shifts it, so a loop over `Nodes()` that removes
  nodes skips every other one. Node loops (C137): only a node added to itself is refused, `a.AddNode(b); b.AddNode(a)` is not.
* Markers (C139): a marker that starts at `maximum` (count -1) is sorted in front of all others.
* Pool statistics (C140): the counters are increased without a lock, so any number of increments can be lost.
* Logging (C141): `Log.Error("x")` prints `Error:` and `%!(EXTRA string=x)`; only the formatting methods work.
* Groups (C142): `Contains` compares prefixes only.
* xmpinfo (C143): -path prints even with -quiet; -all is ignored unless the original is printed, and then switches the other forms off.
* Document.Namespaces (C144): removing a model with several namespaces leaves the others in the list.
* History (C146): a recorded path with a semicolon is read back as two; one with `time:` followed by anything but a count makes the history unreadable.
* ResourceRefArray.DeleteIndex (C147) moves the references in the shared array: lists taken before change, and a range loop that deletes each reference leaves the second of three or more.
* Lists (C148): an empty element where a list is expected, or a single value for any list but dc:language and dates, makes reading fail.
* Sync (C32): with CREATE and nothing to copy, an empty model is still added to the document.
* Durations (C124-C126): more than 9223372036 seconds wrap around to negative durations; ` 10` is refused though `10` is read; `Truncate` and `RoundTo...`
  go away from zero; JSON `null` is an error for numbers and durations and sets a `NullBool` to false.

## 6. Testing the theorems

`seeded/LOG.jsonl` records the edits made to scratch copies of the model (a wrong boundary, a missed case, a swapped argument, a dropped
update), the theorems that failed to build and the theorems that had to be tightened.
