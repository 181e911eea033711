{"id": "C01", "title": "Path.Push and Path.Pop are inverse", "statement": "For a path built by NewPath from a prefix without ':' and non-empty segments without '/', Fields returns exactly those segments, NamespacePrefix returns the prefix, Push(s) appends s as last field, and Pop returns the last segment together with the path of the remaining segments; so Pop(Push(p,s)) = (s,p). Len always equals the number of Fields, for every string.", "quantifier": "every prefix, every list of segments of any length, every pushed segment; Len/Fields agreement for every string", "why_tests_cant": "unbounded strings and segment lists; a boundary such as a leading '/' or empty segment is easily missed by samples", "anchors": ["xmp/path.go:NewPath", "xmp/path.go:Path.Push", "xmp/path.go:Path.Pop", "xmp/path.go:Path.Len", "xmp/path.go:Path.Fields", "xmp/path.go:Path.NamespacePrefix"]}
{"id": "C02", "title": "Walking a path with PopFront visits every segment once and terminates", "statement": "Repeated PopFront on a path with n non-empty segments yields the n segments in order (each stripped of a namespace prefix, which becomes the namespace of the remaining path) and then the empty name; Len strictly decreases, so every loop over PopFront terminates.", "quantifier": "every path string", "why_tests_cant": "termination and completeness of a loop over arbitrary strings cannot be sampled", "anchors": ["xmp/path.go:Path.PopFront", "xmp/path.go:GetModelPath", "xmp/path.go:SetModelPath", "xmp/path.go:Path.PeekNamespacePrefix"]}
{"id": "C03", "title": "Array index and language suffixes survive printing and parsing", "statement": "AppendIndex(i) on a segment without '[' parses back to the same name with index i; AppendIndexString(lang) parses back to the same name and language when lang is not a number; '[]' means index 0; a suffix that parses as a number below -1 is rejected by GetPath/SetPath.", "quantifier": "every segment name, every int index, every language tag", "why_tests_cant": "infinite family of names/indices; numeric languages and nested brackets are corner cases", "anchors": ["xmp/path.go:Path.AppendIndex", "xmp/path.go:Path.AppendIndexString", "xmp/path.go:parsePathSegment"]}
{"id": "C04", "title": "Path lists never contain empty values and Unique keeps one entry per path", "statement": "PathValueList.Add/AddFlags drop empty values and otherwise append; Unique on a list sorted by path keeps exactly the first entry of every distinct non-empty path, in order, and nothing else.", "quantifier": "every sequence of Add calls; every sorted list", "why_tests_cant": "must hold for lists of any length and any duplicates pattern", "anchors": ["xmp/path.go:PathValueList.Add", "xmp/path.go:PathValueList.AddFlags", "xmp/path.go:PathValueList.Unique", "xmp/path.go:PathValueList.Find"]}
{"id": "C05", "title": "Diff reports exactly the changed paths, with an operation that can be applied", "statement": "For two path lists without duplicates, x.Diff(y) mentions a path iff it is added, removed or has a different value; the flag is CREATE for added, DELETE for removed, REPLACE for changed, and applying the entries to x yields y.", "quantifier": "every pair of duplicate-free path lists, including empty ones", "why_tests_cant": "quantifies over all pairs of lists; the empty-list short cuts and the carried value are corner cases", "anchors": ["xmp/path.go:PathValueList.Diff"]}
{"id": "C06", "title": "Version strings round-trip", "statement": "ParseVersion(v.String()) = v for every version of int components; one and two component strings parse with missing components zero; a string with more than three components or a non-numeric component is an error.", "quantifier": "every version and every string", "why_tests_cant": "all 64 bit component values, all strings", "anchors": ["xmp/semver.go:ParseVersion", "xmp/semver.go:Version.String"]}
{"id": "C07", "title": "Version comparison is a total order", "statement": "Exactly one of Before, Equal, After holds for any two versions; Before is transitive and irreflexive; After is its converse; Equal is equality.", "quantifier": "every pair/triple of versions", "why_tests_cant": "relation laws quantify over all triples", "anchors": ["xmp/semver.go:Version.Before", "xmp/semver.go:Version.After", "xmp/semver.go:Version.Equal"]}
{"id": "C08", "title": "Version ranges on model fields are inclusive and open-ended as documented", "statement": "v.Between(a,b) holds iff v is zero, or (a is zero or a<=v) and (b is zero or v<=b), as documented for field tags (v1.0- 'before and including', v1.0+ 'after and including', no version = always).", "quantifier": "every version triple", "why_tests_cant": "all triples, including the zero bounds that mean 'open'", "anchors": ["xmp/semver.go:Version.Between", "xmp/semver.go:Version.IsZero", "xmp/typeinfo.go:structFieldInfo", "xmp/unmarshal.go:findStructField"]}
{"id": "C09", "title": "Sync flag names parse to the union of their bits", "statement": "ParseSyncFlags of a comma separated list of known names (any letter case) returns the bitwise or of the named flags in any order and repetition; any unknown name is an error and then no flags are returned.", "quantifier": "every string, every list of names", "why_tests_cant": "all permutations/repetitions and all malformed strings", "anchors": ["xmp/sync.go:ParseSyncFlags"]}
{"id": "C10", "title": "The registry returns the last registration", "statement": "After any sequence of Register calls, GetNamespace(p) returns the most recently registered namespace with prefix p and an error iff none was registered; GetPrefix(u) is the prefix of the most recent registration with URI u or empty; a group lists exactly the namespaces registered with that group in registration order.", "quantifier": "every history of Register calls and every query", "why_tests_cant": "quantifies over all histories", "anchors": ["xmp/registry.go:Registry.RegisterNamespace", "xmp/registry.go:Registry.GetNamespace", "xmp/registry.go:Registry.GetPrefix", "xmp/registry.go:Registry.GetGroupNamespaces"]}
{"id": "C11", "title": "Prefix and URI lookups agree", "statement": "After any sequence of Register calls, looking up the prefix of a registered URI gives a namespace with that URI, and vice versa, so Short(uri,name) can be resolved back to uri.", "quantifier": "every history of Register calls", "why_tests_cant": "needs all histories, including re-registration under another URI or prefix", "anchors": ["xmp/registry.go:Registry.RegisterNamespace", "xmp/registry.go:Registry.GetPrefix", "xmp/registry.go:Registry.Short"]}
{"id": "C12", "title": "Concurrent registry use is linearizable", "statement": "With any number of goroutines registering and looking up namespaces concurrently, every lookup returns what a sequential registry would return after some prefix of the completed registrations; a lookup never observes a half-applied registration and readers never block each other forever while no writer holds the lock.", "quantifier": "every interleaving of any number of goroutines", "why_tests_cant": "schedules cannot be enumerated by tests", "anchors": ["xmp/registry.go:Registry.RegisterNamespace", "xmp/registry.go:Registry.GetNamespace", "xmp/registry.go:Registry.GetPrefix"]}
{"id": "C13", "title": "Namespace list helpers behave as sets keyed by name/URI", "statement": "RemoveDups keeps the first namespace of every URI, in order, and no URI twice; Contains/ContainsName hold iff some entry has that name (never for nil/empty name); MatchXMLName matches by URI when present and else by prefix.", "quantifier": "every namespace list", "why_tests_cant": "lists of any length and duplication pattern", "anchors": ["xmp/namespace.go:NamespaceList.RemoveDups", "xmp/namespace.go:NamespaceList.Contains", "xmp/namespace.go:NamespaceList.ContainsName", "xmp/namespace.go:Namespace.MatchXMLName"]}
{"id": "C14", "title": "Qualified names split and join losslessly", "statement": "For a namespace whose prefix has no ':', Expand(local) has that prefix and local part again, for every local name; a name has a namespace prefix iff a ':' occurs after its first byte.", "quantifier": "every prefix and local name", "why_tests_cant": "all strings", "anchors": ["xmp/namespace.go:Namespace.Expand", "xmp/namespace.go:getPrefix", "xmp/namespace.go:stripPrefix", "xmp/namespace.go:hasPrefix"]}
{"id": "C15", "title": "Filters keep included and drop excluded namespaces", "statement": "After Filter.Apply on a document whose top-level nodes have distinct names, a node remains iff (the include list is empty or contains its namespace) and the exclude list does not contain it; the order of remaining nodes is unchanged and the result is true iff something was removed. Applying the filter again changes nothing.", "quantifier": "every document and every filter", "why_tests_cant": "all documents and filters", "anchors": ["xmp/filter.go:Filter.Apply", "xmp/document.go:Document.FilterNamespaces", "xmp/document.go:Document.RemoveNamespaces", "xmp/document.go:Document.RemoveNamespace"]}
{"id": "C16", "title": "Filter strings round-trip", "statement": "ParseFilter(f.String()) is a filter with the same include and exclude names; strict parsing accepts exactly the strings whose names are all registered groups or namespaces and then agrees with the lenient parser.", "quantifier": "every filter and every filter string", "why_tests_cant": "all strings and registries", "anchors": ["xmp/filter.go:ParseFilter", "xmp/filter.go:ParseFilterStrict", "xmp/filter.go:Filter.String"]}
{"id": "C17", "title": "Child and attribute names stay unique and the last write wins", "statement": "Starting from a node with pairwise distinct child names, any sequence of AddNode calls keeps child names distinct, an added child replaces the child of the same name in place and leaves all other children and their order unchanged; likewise AddAttr/AddStringAttr for attributes, and GetAttr afterwards returns the last value.", "quantifier": "every sequence of AddNode/AddAttr calls", "why_tests_cant": "all operation histories", "anchors": ["xmp/node.go:NodeList.AddNode", "xmp/node.go:Node.AddAttr", "xmp/node.go:Node.GetAttr", "xmp/node.go:NodeList.RemoveNode"]}
{"id": "C18", "title": "Recycled nodes are clean and never shared", "statement": "NewNode returns a node without attributes, children, model or value whatever the node's previous use, and, in any history where every node is closed at most once and never used after Close, never a node that is still part of a live tree.", "quantifier": "every history of NewNode/Close calls by any number of goroutines and any pool capacity", "why_tests_cant": "histories and interleavings", "anchors": ["xmp/node.go:NewNode", "xmp/node.go:Node.Close", "xmp/node.go:nodePool"]}
{"id": "C19", "title": "Copied nodes are independent of the original", "statement": "copyNode/copyNodes return a tree that is equal to the original but shares no node with it, so later changes of the copy (as done by the encoder and merge) never change the original; only models are shared.", "quantifier": "every node tree, every later mutation of the copy", "why_tests_cant": "aliasing must be excluded for all trees", "anchors": ["xmp/node.go:copyNode", "xmp/node.go:copyNodes"]}
{"id": "C20", "title": "Value set through a raw node path is read back", "statement": "For a node without models, a successful SetPath(path,value) with value non-empty and CREATE or REPLACE makes GetPath(path) return value, for property paths, nested structs, array items by index and language alternatives.", "quantifier": "every node tree, path and value", "why_tests_cant": "unbounded trees and paths", "anchors": ["xmp/node.go:Node.SetPath", "xmp/node.go:Node.GetPath"]}
{"id": "C21", "title": "Setting one raw path leaves unrelated paths alone", "statement": "Node.SetPath on a path never changes what GetPath returns for a path whose first segment names a different property, whatever the flags and whether or not it succeeds.", "quantifier": "every node tree, pair of paths, value and flags", "why_tests_cant": "frame conditions quantify over all other paths", "anchors": ["xmp/node.go:Node.SetPath", "xmp/node.go:Node.GetPath"]}
{"id": "C22", "title": "ListPaths of a raw node lists what GetPath returns", "statement": "Every (path,value) listed by ListPaths for a node is what GetPath returns for that path, and every non-empty simple value, attribute, array item and language alternative stored below the node is listed.", "quantifier": "every node tree", "why_tests_cant": "completeness over all trees", "anchors": ["xmp/node.go:Node.ListPaths", "xmp/node.go:Node.GetPath"]}
{"id": "C23", "title": "Node trees survive XML token round-trips", "statement": "Decoding the XML token stream produced for a node tree (names, attributes, trimmed text before children) returns the same tree; text of an element is not lost.", "quantifier": "every node tree, every token stream", "why_tests_cant": "unbounded trees; mixed content and comments", "anchors": ["xmp/node.go:Node.UnmarshalXML", "xmp/node.go:Node.MarshalXML"]}
{"id": "C24", "title": "Empty nodes are recognised recursively", "statement": "Node.IsZero holds iff no node in the tree has a model, a value or an attribute with non-empty value.", "quantifier": "every node tree", "why_tests_cant": "unbounded trees", "anchors": ["xmp/node.go:Node.IsZero", "xmp/node.go:AttrList.IsZero"]}
{"id": "C25", "title": "MakeModel/AddModel give one node per model", "statement": "MakeModel returns the model already present for a namespace, else adds exactly one node and registers the model's namespaces; calling it again returns the same model and leaves the document unchanged; FindModel afterwards finds it; AddModel never discards another model's data.", "quantifier": "every document and namespace", "why_tests_cant": "all documents and histories", "anchors": ["xmp/document.go:Document.MakeModel", "xmp/document.go:Document.AddModel", "xmp/document.go:Document.FindModel", "xmp/document.go:Document.FindNode"]}
{"id": "C26", "title": "RemoveNamespace removes exactly one top-level node", "statement": "RemoveNamespace(ns) removes the first node with that name, and both local namespace map entries, sets dirty and returns true; when no node has the name it returns false and the document is unchanged.", "quantifier": "every document and namespace", "why_tests_cant": "all documents", "anchors": ["xmp/document.go:Document.RemoveNamespace", "xmp/document.go:Document.RemoveNamespaceByName"]}
{"id": "C27", "title": "Models are synchronised before export exactly when the document changed", "statement": "Encode, JSON export and ListPaths run every model's SyncToXMP, in node order, iff the document is dirty, stop at the first error leaving the document dirty, and clear the dirty flag only when all succeeded; every successful SetPath/AddModel/MakeModel/RemoveNamespace sets it.", "quantifier": "every history of document operations", "why_tests_cant": "histories", "anchors": ["xmp/document.go:Document.syncToXMP", "xmp/document.go:Document.SetDirty"]}
{"id": "C28", "title": "SetPath honours the CREATE/REPLACE/DELETE/APPEND/UNIQUE flags", "statement": "SetPath changes an existing non-empty value only with REPLACE, DELETE, APPEND or UNIQUE; creates a value only with CREATE, APPEND or UNIQUE; accepts an empty value only with DELETE; does nothing when the value is already equal.", "quantifier": "every document, path, value and flag set", "why_tests_cant": "2^6 flag sets times all documents", "anchors": ["xmp/path.go:Document.SetPath", "xmp/sync.go:SyncFlags"]}
{"id": "C29", "title": "SetPath then GetPath returns the value", "statement": "After a successful Document.SetPath with a non-empty value and flags allowing creation or replacement, Document.GetPath of the same path returns the value, for raw nodes and for typed model fields.", "quantifier": "every document, path and value", "why_tests_cant": "all documents and paths", "anchors": ["xmp/path.go:Document.SetPath", "xmp/path.go:Document.GetPath"]}
{"id": "C30", "title": "NOFAIL never reports an error", "statement": "SetPath with the NOFAIL flag returns no error for any syntactically valid path.", "quantifier": "every document, path, value and flags containing NOFAIL", "why_tests_cant": "all inputs", "anchors": ["xmp/path.go:Document.SetPath", "xmp/sync.go:NOFAIL"]}
{"id": "C31", "title": "A failing SetPath leaves the document unchanged", "statement": "When SetPath returns an error the set of listed paths, the namespace maps and the dirty flag are unchanged.", "quantifier": "every document, path, value, flags", "why_tests_cant": "all failing inputs", "anchors": ["xmp/path.go:Document.SetPath", "xmp/path.go:SetModelPath"]}
{"id": "C32", "title": "Sync copies a value between two paths according to its flags", "statement": "Sync(src,dst,flags,...) leaves the source path unchanged and sets the destination to the (converted) source value exactly when the flags allow it: empty source only with DELETE, empty destination only with CREATE, non-empty different destination only with REPLACE/DELETE/APPEND/UNIQUE.", "quantifier": "every document, pair of paths, flags and converter", "why_tests_cant": "all documents and flag sets", "anchors": ["xmp/sync.go:Document.Sync", "xmp/sync.go:Document.SyncMulti"]}
{"id": "C33", "title": "Merge adds without destroying", "statement": "d.Merge(b, MERGE) keeps every non-empty simple value of d, adds every listed path of b that d lacks, leaves b unchanged, and is idempotent.", "quantifier": "every pair of documents", "why_tests_cant": "all pairs of documents", "anchors": ["xmp/sync.go:Document.Merge", "xmp/path.go:Document.ListPaths"]}
{"id": "C34", "title": "Typed models survive marshal/unmarshal", "statement": "For every struct model built from strings, integers, booleans, nested structs, pointers, arrays and AltStrings, unmarshalling the node tree produced by marshalling it into an empty model gives an equal model (up to trimming of strings and dropping of empty optional fields).", "quantifier": "every model type description and every value of it", "why_tests_cant": "all types and values", "anchors": ["xmp/marshal.go:Encoder.marshalValue", "xmp/unmarshal.go:Decoder.unmarshal"]}
{"id": "C35", "title": "Unknown properties are preserved through decode/encode", "statement": "Child nodes and attributes of a decoded document that match no field of the model of their namespace, or whose namespace has no model, are kept in the document and written again by the encoder unchanged.", "quantifier": "every document tree", "why_tests_cant": "all trees", "anchors": ["xmp/unmarshal.go:Decoder.decodeNode", "xmp/unmarshal.go:Decoder.decodeAttribute", "xmp/marshal.go:Encoder.Encode"]}
{"id": "C36", "title": "Field lookup finds the named field and nothing else", "statement": "A prefixed name selects exactly the field with that tag; an unprefixed name a field whose tag has that local name; when none matches a field flagged 'any' is used if the model has one, else not-found is reported.", "quantifier": "every type description and name", "why_tests_cant": "all type descriptions", "anchors": ["xmp/native.go:findField", "xmp/unmarshal.go:findStructField"]}
{"id": "C37", "title": "Typed path access is consistent with the model fields", "statement": "For typed models, SetModelPath then GetModelPath on scalar, struct, slice and AltString fields returns the value; other fields are unchanged; and every path listed by ListModelPaths reads back the listed value.", "quantifier": "every model type, value and path", "why_tests_cant": "all types and paths", "anchors": ["xmp/path.go:SetModelPath", "xmp/path.go:GetModelPath", "xmp/path.go:ListModelPaths", "xmp/path.go:listPaths"]}
{"id": "C38", "title": "Slice editing by path follows list semantics", "statement": "On slice fields: APPEND adds at the end, UNIQUE adds only when absent, REPLACE/CREATE at an index sets that element growing the slice with zero elements only, DELETE at an index removes exactly that element, DELETE without index clears the slice.", "quantifier": "every slice content, capacity, index and value", "why_tests_cant": "capacity dependent behaviour appears only in particular histories", "anchors": ["xmp/path.go:SetModelPath", "xmp/path.go:growSlice"]}
{"id": "C39", "title": "Struct tags are parsed into flags and version ranges as documented", "statement": "The tag 'name,attr,omit,empty,any,flat,vX+,vX-,vX<Y' gives exactly the named flags and version bounds, and two fields of one type with the same name and overlapping kind are rejected.", "quantifier": "every tag string and field list", "why_tests_cant": "all tag strings", "anchors": ["xmp/typeinfo.go:structFieldInfo", "xmp/typeinfo.go:addFieldInfo"]}
{"id": "C40", "title": "AltString keeps at most one default and finds values by language", "statement": "After any sequence of AddDefault/Set/Add/AddUnique/RemoveLang calls on an AltString starting empty there is at most one default item, Get(lang) returns the value last stored for lang, other languages are untouched.", "quantifier": "every sequence of AltString operations", "why_tests_cant": "operation histories", "anchors": ["xmp/array.go:AltString"]}
{"id": "C41", "title": "AltString operations do not panic", "statement": "No sequence of AltString constructor and method calls panics.", "quantifier": "every sequence of operations and arguments", "why_tests_cant": "all histories", "anchors": ["xmp/array.go:AltString.EnsureDefault", "xmp/array.go:NewAltString", "xmp/array.go:AltString.RemoveLang"]}
{"id": "C42", "title": "AltStrings survive marshal/unmarshal", "statement": "Unmarshalling the rdf:Alt node written for an AltString with distinct languages and one default returns the same items.", "quantifier": "every well-formed AltString", "why_tests_cant": "lists of any length; merging of duplicate default items", "anchors": ["xmp/array.go:AltString.UnmarshalXMP", "xmp/array.go:AltString.MarshalXMP", "xmp/array.go:MarshalArray"]}
{"id": "C43", "title": "String lists behave like sets/lists", "statement": "StringList/StringArray: Add appends, AddUnique appends iff absent, Contains/Index agree with membership and first position, Remove deletes the first occurrence and nothing else.", "quantifier": "every list and value", "why_tests_cant": "lists of any length", "anchors": ["xmp/array.go:StringList", "xmp/array.go:StringArray", "models/xmp_base/types.go:IdentifierArray.Remove"]}
{"id": "C44", "title": "Ordered/unordered arrays survive marshal/unmarshal", "statement": "MarshalArray writes one rdf:li per element in order under rdf:Seq/rdf:Bag/rdf:Alt according to Typ, nothing for an empty array, and UnmarshalArray reads them back in order; a plain attribute value where an array is expected becomes one element, any other node that is not an array is an error.", "quantifier": "every array", "why_tests_cant": "arrays of any length", "anchors": ["xmp/array.go:MarshalArray", "xmp/array.go:UnmarshalArray"]}
{"id": "C45", "title": "Text codecs of the base types round-trip", "statement": "UnmarshalText(MarshalText(x)) = x for Bool, Rational, NullInt, StringList (joined by newline), for every value.", "quantifier": "every value of each type", "why_tests_cant": "infinite value domains", "anchors": ["xmp/xmp_types.go:Bool", "xmp/xmp_types.go:Rational", "xmp/units.go:NullInt", "xmp/array.go:StringList.MarshalText"]}
{"id": "C46", "title": "SplitInt keeps 32-bit values", "statement": "A 32-bit unsigned value written as decimal number (as the encoder does) or as four colon-separated bytes (06:13:14:61) is read back unchanged.", "quantifier": "every 32-bit value", "why_tests_cant": "2^32 values, four byte combinations", "anchors": ["xmp/units.go:SplitInt"]}
{"id": "C47", "title": "GUID parts are consistent", "statement": "GUID.Issuer returns everything before the last ':' of the identifier, the remainder contains no ':' and recomposes to the identifier; a GUID without ':' has an empty issuer.", "quantifier": "every string", "why_tests_cant": "all strings", "anchors": ["xmp/xmp_types.go:GUID"]}
{"id": "C48", "title": "Time zone repair only completes truncated zones", "statement": "repairTZ leaves complete timestamps unchanged and otherwise only inserts ':' / minutes so that the instant denoted is preserved; it is idempotent.", "quantifier": "every string", "why_tests_cant": "all strings", "anchors": ["xmp/xmp_types.go:repairTZ"]}
{"id": "C49", "title": "Media frame counts, rates and parts round-trip", "statement": "UnmarshalText(MarshalText(x)) = x for xmpDM FrameRate, FrameCount, Part, PartList and Timecode.String/Unpack.", "quantifier": "every value", "why_tests_cant": "64-bit domains", "anchors": ["models/xmp_dm/types.go:FrameRate", "models/xmp_dm/types.go:FrameCount", "models/xmp_dm/types.go:Part", "models/xmp_dm/types.go:Timecode"]}
{"id": "C50", "title": "Model specific text codecs round-trip", "statement": "id3 TrackNum, crs/qt Point, exif ByteArray/CFAPattern, ixml Bool and iTunes/qt ContentRating read back what they write.", "quantifier": "every value", "why_tests_cant": "infinite domains", "anchors": ["models/id3/types.go:TrackNum", "models/qt/types.go:Point", "models/crs/types.go:Point", "models/exif/types.go:ByteArray", "models/itunes/types.go:ContentRating"]}
{"id": "C51", "title": "Exif flash bits decode exactly", "statement": "Flash.UnmarshalText of a number sets Fired, Return, Mode, Function and RedEyeMode to bits 0, 1-2, 3-4, 5 and 6, so the number modulo 128 can be recomputed from the fields.", "quantifier": "every 32-bit integer", "why_tests_cant": "all integers incl. negative", "anchors": ["models/exif/types.go:Flash.UnmarshalText"]}
{"id": "C52", "title": "Packet scanning does not depend on read boundaries", "statement": "ScanPackets returns the same packets, in stream order, however the underlying reader splits the stream into reads.", "quantifier": "every byte stream and every partition into reads", "why_tests_cant": "exponentially many partitions", "anchors": ["xmp/reader.go:splitPacket", "xmp/reader.go:ScanPackets"]}
{"id": "C53", "title": "Every complete packet is returned once, and scanning terminates", "statement": "For a stream in which each packet header is followed by its trailer before the next header, ScanPackets returns exactly the packets; the split function never consumes more than it was given and always makes progress or asks for more data.", "quantifier": "every byte stream", "why_tests_cant": "all streams", "anchors": ["xmp/reader.go:splitPacket", "xmp/reader.go:isXmpPacket"]}
{"id": "C54", "title": "Output never exceeds the configured limit", "statement": "The encoder's writer never passes more than the limit in total to the underlying writer, reports overflow exactly when more was requested, and counts the bytes written.", "quantifier": "every sequence of writes and limit", "why_tests_cant": "all write sequences", "anchors": ["xmp/marshal.go:countWriter"]}
{"id": "C55", "title": "Padded packets have exactly the requested size", "statement": "With padding to a limit of n bytes, a packet whose content fits is exactly n bytes long and consists of content, whitespace padding and trailer; otherwise an overflow is reported.", "quantifier": "every content and limit", "why_tests_cant": "all sizes around the boundary", "anchors": ["xmp/marshal.go:Encoder.Encode"]}
{"id": "C56", "title": "JSON export/import preserves documents", "statement": "Converting a node tree to its JSON form and back yields the same tree (arrays, language alternatives with their default, structs, attributes).", "quantifier": "every node tree", "why_tests_cant": "all trees", "anchors": ["xmp/json.go:nodeToJson", "xmp/json.go:jsonToNode"]}
{"id": "C57", "title": "Malformed JSON is reported, not a crash", "statement": "Unmarshalling any JSON value into a document returns a document or an error and never panics.", "quantifier": "every JSON value", "why_tests_cant": "all JSON values", "anchors": ["xmp/json.go:jsonToNode"]}
{"id": "C58", "title": "Namespace prefixes are translated to the registered ones", "statement": "After decoding, every name whose URI is registered carries the registered prefix whatever prefix the input used, and every other name the prefix first declared in the document for that URI; two names are equal after translation iff URI and local name are equal.", "quantifier": "every document and prefix choice", "why_tests_cant": "alpha-renaming of prefixes", "anchors": ["xmp/unmarshal.go:Decoder.translate", "xmp/unmarshal.go:Decoder.addNamespace"]}
{"id": "C59", "title": "Namespaces declared on any ancestor are accepted", "statement": "Decoding accepts a document regardless of whether its namespaces are declared on x:xmpmeta, rdf:RDF or rdf:Description.", "quantifier": "every placement of xmlns declarations", "why_tests_cant": "all placements", "anchors": ["xmp/unmarshal.go:Decoder.Decode"]}
{"id": "C60", "title": "Decoder rejects structurally invalid packets and only those", "statement": "Decode fails iff the root chain x:xmpmeta/rdf:RDF/rdf:Description is broken or a property fails to decode; with a broken chain the document is unchanged.", "quantifier": "every XML tree", "why_tests_cant": "all trees", "anchors": ["xmp/unmarshal.go:Decoder.Decode"]}
{"id": "C61", "title": "Version history is append-only", "statement": "AppendVersionHistory with action, modifier, part and date either appends one version entry for a new VersionID or appends the part to the last entry; earlier entries never change; the last entry's version equals the current VersionID afterwards.", "quantifier": "every history of calls", "why_tests_cant": "histories", "anchors": ["models/xmp_mm/model.go:XmpMM.AppendVersionHistory", "models/xmp_mm/model.go:XmpMM.GetLastVersion"]}
{"id": "C62", "title": "Deleting by index removes that element or nothing", "statement": "ResourceRefArray.DeleteIndex(i) removes exactly the i-th element for a valid index and is a no-op for every other index.", "quantifier": "every array and index", "why_tests_cant": "all indices incl. len", "anchors": ["models/xmp_mm/types.go:ResourceRefArray.DeleteIndex"]}
{"id": "C63", "title": "Marker filters select by type", "statement": "MarkerList.Filter(types) keeps, in order, exactly the markers sharing at least one type with the list; Intersect and Contains agree with set membership.", "quantifier": "every marker list and type list", "why_tests_cant": "all lists", "anchors": ["models/xmp_dm/types.go:MarkerList.Filter", "models/xmp_dm/types.go:MarkerTypeList.Intersect"]}
{"id": "C64", "title": "ID3 genres are read back", "statement": "Every genre number is read back from the text it is written as; a list of genre names is read back as the same list.", "quantifier": "every genre number, every list of names", "why_tests_cant": "256 numbers; all lists", "anchors": ["models/id3/types.go:GenreV1", "models/id3/types.go:Genre", "models/id3/enum.go:GenreMap"]}
{"id": "C65", "title": "EXIF tables in text form are read or rejected, never crash", "statement": "Every text given to OECF, CFAPattern or DeviceSettings is either read as the table it denotes (columns, rows, names, values) or rejected with an error; none crashes the reader.", "quantifier": "every text", "why_tests_cant": "all strings", "anchors": ["models/exif/types.go:OECF", "models/exif/types.go:CFAPattern", "models/exif/types.go:DeviceSettings"]}
{"id": "C66", "title": "Media durations in clock notation are read exactly", "statement": "A duration attribute h:m:s.fraction is read as the number of whole milliseconds it denotes, for every number of hours and up to nine digits of fraction.", "quantifier": "every clock text", "why_tests_cant": "all strings", "anchors": ["models/xmp_dm/types.go:MediaTime.UnmarshalXMPAttr"]}
{"id": "C67", "title": "A decoder version selects the fields of that version", "statement": "After Decoder.SetVersion(v) exactly the struct fields whose version range includes v are read and written; fields without a version in their tag belong to every version.", "quantifier": "every version, type and value", "why_tests_cant": "all versions and ranges", "anchors": ["xmp/unmarshal.go:Decoder.SetVersion", "xmp/unmarshal.go:findStructField", "xmp/marshal.go:Encoder.marshalValue", "xmp/semver.go:Version.Between"]}
{"id": "C68", "title": "The previous version id can be set and read", "statement": "After SetPreviousVersionId(v) on a history with at least two versions GetPreviousVersionId returns v and GetLastVersionId is unchanged; GetPreviousVersionId and GetLastVersionId read the last but one and last entry.", "quantifier": "every history", "why_tests_cant": "histories", "anchors": ["models/xmp_mm/model.go:XmpMM.SetPreviousVersionId", "models/xmp_mm/model.go:XmpMM.GetPreviousVersionId"]}
{"id": "C69", "title": "Frame counts are ordered by time", "statement": "FrameCount.IsSmaller(x, y), and with it MarkerList.Sort, orders positions by time, i.e. by count divided by frame rate.", "quantifier": "every pair of frame counts", "why_tests_cant": "all counts and rates", "anchors": ["models/xmp_dm/types.go:FrameCount.IsSmaller", "models/xmp_dm/types.go:MarkerList.Less"]}
{"id": "C70", "title": "Type descriptions do not depend on concurrent use", "statement": "Any number of goroutines may encode, decode or access values of any types at the same time: each gets the description of exactly the type it asked for, the shared cache is never read or written while another goroutine writes it, and no goroutine waits for ever.", "quantifier": "every number of goroutines, every sequence of requests, every interleaving", "why_tests_cant": "schedules", "anchors": ["xmp/typeinfo.go:getTypeInfo", "xmp/typeinfo.go:tinfoNsMap", "xmp/typeinfo.go:tinfoLock"]}
{"id": "C71", "title": "Decoding never crashes", "statement": "Unmarshalling any tree of XML elements, well formed RDF or not, into a document returns a document or an error and never panics.", "quantifier": "every element tree, registry and set of model types", "why_tests_cant": "all documents", "anchors": ["xmp/unmarshal.go:Decoder.Decode", "xmp/unmarshal.go:Decoder.unmarshal", "xmp/unmarshal.go:setValue"]}
{"id": "C72", "title": "Documents of models survive encoding and decoding", "statement": "Encoding a document of typed models, writing it as XML, reading it and decoding it gives a document with the same models, each once and each holding the value it held (as the field types store it); only models that say nothing are left out. rdf:about is kept.", "quantifier": "every registry, set of model types, document of models and values", "why_tests_cant": "all documents", "anchors": ["xmp/marshal.go:Encoder.Encode", "xmp/unmarshal.go:Decoder.Decode", "xmp/marshal.go:Encoder.marshal", "xmp/unmarshal.go:Decoder.unmarshal"]}
{"id": "C73", "title": "Documents of models survive the JSON form", "statement": "Converting a document of typed models to JSON and reading that JSON, with the members of its objects in any order, gives a document with the same models, each once and each holding the value it held; only models that say nothing are left out. rdf:about and the toolkit name are kept.", "quantifier": "every registry, set of model types, document of models and values, and every order of JSON members", "why_tests_cant": "all documents and member orders", "anchors": ["xmp/json.go:Document.MarshalJSON", "xmp/json.go:Document.UnmarshalJSON"]}
{"id": "C74", "title": "A document lists every path once and in order", "statement": "ListPaths returns, sorted by path and every path once, exactly the paths that the models and the raw nodes of the document list after synchronisation.", "quantifier": "every document, registry and model", "why_tests_cant": "all documents", "anchors": ["xmp/path.go:Document.ListPaths", "xmp/path.go:PathValueList.Unique"]}
{"id": "C75", "title": "A native tag is stored in and read from its field", "statement": "SetNativeField/SetTag stores the meaning of a text in the field the tag name selects (the first field with this name, else the catch-all field) and changes no other field; GetNativeField/GetTag returns the text of that field, and the empty text if it is not set. An unknown tag or a refused text is an error that changes nothing.", "quantifier": "every model type, model, tag name and text", "why_tests_cant": "all types, values and names", "anchors": ["xmp/native.go:GetNativeField", "xmp/native.go:SetNativeField", "xmp/native.go:findField"]}
{"id": "C76", "title": "A model says which tags it knows", "statement": "CanTag is true exactly for the tags for which the model has a field, whatever its values are.", "quantifier": "every model type, model and tag name", "why_tests_cant": "all types and values", "anchors": ["xmp/native.go:GetNativeField", "models/dc/model.go:CanTag"]}
{"id": "C77", "title": "A language of a native tag can be set and read", "statement": "SetLocaleField changes the text of one language of a language alternative and nothing else, GetLocaleField returns it, and both refuse fields of other types with an error.", "quantifier": "every model, tag name, language and text", "why_tests_cant": "all types and values", "anchors": ["xmp/native.go:SetLocaleField", "xmp/native.go:GetLocaleField"]}
{"id": "C78", "title": "Listing native tags gives all that is set", "statement": "ListNativeFields/ListTags returns, in the order of the fields, one tag per language of each language alternative and one tag with the text of each other field that is set, and each listed text is what reading the tag returns.", "quantifier": "every model type and model", "why_tests_cant": "all types and values", "anchors": ["xmp/native.go:ListNativeFields"]}
{"id": "C79", "title": "A list of tags survives a document", "statement": "A TagList written to a node is read back with the same keys, languages and texts in the same order.", "quantifier": "every list of tags", "why_tests_cant": "all lists", "anchors": ["xmp/native.go:TagList.MarshalXMP", "xmp/native.go:TagList.UnmarshalXMP"]}
{"id": "C80", "title": "QuickTime tags reach their part", "statement": "QtInfo stores four letter tags in the user data and com.apple tags in the player, metadata or ProApps part their prefix names, reads them from there, leaves the other parts alone, and CanTag agrees with SetTag.", "quantifier": "every QtInfo, tag and text", "why_tests_cant": "all tags", "anchors": ["models/qt/model.go:CanTag", "models/qt/model.go:GetTag", "models/qt/model.go:SetTag"]}
{"id": "C81", "title": "Documents of the library's own models survive XML", "statement": "A document of models the library comes with (all types under models/, with their tags), whose values have a text form that can be read back, is written without error; reading the packet gives exactly the same models with the same values, up to blanks around texts, fields left out being as in a new model.", "quantifier": "every set of models of the library, all values, every order of imports, with further namespaces registered, and every text form of the leaf types", "why_tests_cant": "all values of all models at once", "anchors": ["models/import.go", "xmp/marshal.go:Encoder.Encode", "xmp/unmarshal.go:Decoder.Decode"]}
{"id": "C82", "title": "Documents of the library's own models survive JSON", "statement": "A document of models the library comes with, converted to JSON and back, gives exactly the same models with the same values, whatever the order of the members of the JSON objects.", "quantifier": "every set of models of the library and all values JSON can hold", "why_tests_cant": "all values of all models, all member orders", "anchors": ["xmp/json.go:Document.MarshalJSON", "xmp/json.go:Document.UnmarshalJSON"]}
{"id": "C83", "title": "Only empty records are left out", "statement": "A record type of the library that says itself whether it is empty (IsZero) says so only if every one of its fields is empty, so that no value is dropped from the output.", "quantifier": "every record type with an IsZero method and all values", "why_tests_cant": "all combinations of field values", "anchors": ["models/xmp_mm/types.go:ResourceRef.IsZero", "models/xmp_dm/types.go:MediaTime.IsZero", "xmp/marshal.go:isEmptyValue"]}
{"id": "C84", "title": "Saving keeps what the main models say", "statement": "Writing a document (SyncToXMP of all models) never replaces or clears a property that the Dublin Core, basic, media or rights model of the document already has; models of native formats only fill gaps.", "quantifier": "every document of models of the library and all values", "why_tests_cant": "all combinations of models, orders and values", "anchors": ["models/pdf/model.go:SyncToXMP", "models/tiff/model.go:SyncToXMP", "models/id3/model.go:SyncToXMP", "models/ixml/model.go:SyncToXMP", "xmp/document.go:Document.syncToXMP"]}
{"id": "C85", "title": "Saving brings native properties into the main models", "statement": "After writing a changed document each property that native models share with a main model holds the value of a fixed rule: the last value a model insists on, else the value it had, else the first non-empty value a model offers, models in the order of the document.", "quantifier": "every document of models of the library, every order of models, all values", "why_tests_cant": "all combinations of models, orders and values", "anchors": ["models/*/model.go:SyncToXMP", "xmp/document.go:Document.syncToXMP"]}
{"id": "C86", "title": "Saving twice is saving once", "statement": "Writing a document again after marking it as changed succeeds if it did the first time, and changes no property and adds no model.", "quantifier": "every document of models of the library", "why_tests_cant": "all documents", "anchors": ["models/*/model.go:SyncToXMP", "xmp/document.go:Document.syncToXMP"]}
{"id": "C87", "title": "Saving touches nothing else", "statement": "Writing a document changes only the documented shared properties; all other properties, nodes, extensions and their order stay, and no models are added but the main ones that were missing. This holds also when writing fails.", "quantifier": "every document of models of the library and every outcome", "why_tests_cant": "all documents, all points of failure", "anchors": ["models/*/model.go:SyncToXMP", "xmp/document.go:Document.syncToXMP"]}
{"id": "C88", "title": "A document can always be saved", "statement": "SyncToXMP of the models of the library neither fails nor panics if the conversions between their types do not fail.", "quantifier": "every document of models of the library", "why_tests_cant": "all values", "anchors": ["models/id3/model.go:SyncToXMP", "xmp/document.go:Document.syncToXMP"]}
{"id": "C89", "title": "Reading brings XMP properties into native models", "statement": "After reading a document the models of native formats hold in their shared fields what the first main model of the document says; all other fields and nodes are as read, and reading does not fail.", "quantifier": "every document of models of the library", "why_tests_cant": "all combinations of models and values", "anchors": ["models/*/model.go:SyncFromXMP", "xmp/document.go:Document.syncFromXMP"]}
{"id": "C90", "title": "Reading settles", "statement": "Synchronising a document that has just been synchronised from XMP changes nothing.", "quantifier": "every document of models of the library", "why_tests_cant": "all documents", "anchors": ["models/*/model.go:SyncFromXMP", "models/id3/types.go:Genre.UnmarshalText"]}
{"id": "C91", "title": "What is set in a main model is what is written", "statement": "If a program sets a property in the Dublin Core or basic model and writes the document, a reader of the result finds this value.", "quantifier": "every document of models of the library", "why_tests_cant": "all combinations of models", "anchors": ["models/pdf/model.go:PDFInfo", "models/tiff/model.go:TiffInfo", "xmp/marshal.go:Encoder.Encode"]}
{"id": "C92", "title": "Dates survive their text form", "statement": "A date written by Date.MarshalText and read by Date.UnmarshalText is the same moment in the same zone; only the zero date is written as nothing, and an empty text is the zero date.", "quantifier": "every date", "why_tests_cant": "all moments and zones", "anchors": ["xmp/xmp_types.go:Date.MarshalText", "xmp/xmp_types.go:Date.UnmarshalText", "xmp/xmp_types.go:ParseDate"]}
{"id": "C93", "title": "All documented date forms are read as what they denote", "statement": "ParseDate reads every text of the forms it lists (the ISO 8601 profile of the XMP specification and the forms of EXR, MXF, ARRI, ID3, IPTC and Getty files) as the moment it denotes.", "quantifier": "every year, month, day, time, fraction and zone in every form", "why_tests_cant": "all combinations of forms, values and zones; one layout may steal the texts of another", "anchors": ["xmp/xmp_types.go:dateFormats", "xmp/xmp_types.go:ParseDate", "xmp/xmp_types.go:repairTZ"]}
{"id": "C94", "title": "Times of day survive their text form", "statement": "A time of day written as text and read again has the same clock and zone (xmp.Time and the times of Photo Mechanic).", "quantifier": "every time and zone", "why_tests_cant": "all times and zones", "anchors": ["xmp/xmp_types.go:Time.MarshalText", "xmp/xmp_types.go:ParseTime", "models/pm/model.go:Time.UnmarshalText"]}
{"id": "C95", "title": "EXIF dates survive their text form", "statement": "An exif.Date written as text and read again is the same moment, and all listed forms are read as what they denote.", "quantifier": "every date and form", "why_tests_cant": "all dates, zones and forms", "anchors": ["models/exif/types.go:Date.MarshalText", "models/exif/types.go:Date.UnmarshalText"]}
{"id": "C96", "title": "EXIF sub-seconds are added to the date", "statement": "Converting an EXIF date with its sub-second tag to XMP adds that fraction of a second, and reports an error only for a sub-second text that is no number.", "quantifier": "every date and sub-second text", "why_tests_cant": "all dates and texts", "anchors": ["models/exif/types.go:convertDateToXMP", "models/exif/model.go:SyncModel"]}
{"id": "C97", "title": "ID3 v2.3 dates are read as the frames define", "statement": "The text DDMM of a TDAT frame is read as that day, the text HHMM of a TIME frame as that time, and they are written in the same form.", "quantifier": "every day of the year and every minute of the day", "why_tests_cant": "all days", "anchors": ["models/id3/types.go:Date23.UnmarshalText", "models/id3/types.go:Time23.UnmarshalText"]}
{"id": "C98", "title": "Dates that are read exist", "statement": "Whatever the text, ParseDate does not panic, a date it returns is a day of the calendar with a time of day, and writing and reading it again gives the same moment up to the second.", "quantifier": "every text", "why_tests_cant": "all texts, malformed ones too", "anchors": ["xmp/xmp_types.go:ParseDate", "xmp/xmp_types.go:Date.String"]}
{"id": "C99", "title": "The dictionaries of iXML act as sets", "statement": "Contains tells whether a value is in the list, Add adds it once at the end, Del removes it; nothing else in the list changes.", "quantifier": "every list, however its memory is shared, and every value", "why_tests_cant": "all lists and sequences of operations", "anchors": ["models/ixml/enum.go:TakeTypeList.Add", "models/ixml/enum.go:TakeTypeList.Del", "models/ixml/enum.go:TakeTypeList.Contains", "models/ixml/enum.go:FunctionSet.Add"]}
{"id": "C100", "title": "Union and difference of iXML dictionaries", "statement": "Merge makes the union and Sub the difference of two lists, also if the two share memory.", "quantifier": "every pair of lists, however their memory is shared", "why_tests_cant": "all lists and ways to share memory", "anchors": ["models/ixml/enum.go:FunctionSet.Merge", "models/ixml/enum.go:FunctionSet.Sub"]}
{"id": "C101", "title": "Predefined function lists stay what they are", "statement": "Changing a list that was assigned from another, in particular from one of the lists the package offers, leaves the other as it was.", "quantifier": "every list and every operation", "why_tests_cant": "all histories of operations on lists that share memory", "anchors": ["models/ixml/enum.go:FunctionSet", "models/ixml/enum.go:FunctionSetMS"]}
{"id": "C102", "title": "Upgrading old iXML data keeps what it says", "statement": "Reading iXML turns the flags of versions before 2.0 into take types and the count of pre-recorded samples into a sync point, keeps everything else, and upgrading again changes nothing.", "quantifier": "every iXML record", "why_tests_cant": "all combinations of flags, take types and sync points", "anchors": ["models/ixml/model.go:IXML.upgrade"]}
{"id": "C103", "title": "Named extensions survive XML", "statement": "A list of named extensions that is written to XMP and read again has the same names, attributes and nodes.", "quantifier": "every list of extensions", "why_tests_cant": "all trees", "anchors": ["xmp/xmp_ext.go:NamedExtensionArray.MarshalXMP", "xmp/xmp_ext.go:NamedExtensionArray.UnmarshalXMP"]}
{"id": "C104", "title": "Unknown iXML properties are kept", "statement": "A property of the iXML namespace that the model has no field for goes to the Extension field and is kept there with its name, text, attributes and nodes.", "quantifier": "every property name and content", "why_tests_cant": "all names and trees", "anchors": ["models/ixml/model.go:IXML", "xmp/unmarshal.go:findStructField", "xmp/xmp_ext.go:NamedExtensionArray.UnmarshalXMP"]}
{"id": "C105", "title": "Pantry items survive XML", "statement": "The items of xmpMM:Pantry, read from a packet or added by AddPantry, are written and read again with the same properties.", "quantifier": "every list of items", "why_tests_cant": "all trees, models and namespaces", "anchors": ["xmp/xmp_ext.go:ExtensionArray.MarshalXMP", "xmp/xmp_ext.go:Extension.MarshalXMP", "xmp/xmp_ext.go:Extension.UnmarshalXMP", "models/xmp_mm/model.go:AddPantry"]}
{"id": "C106", "title": "Identifiers survive XML", "statement": "A list of identifiers written to XMP and read again has the same ids and schemes, and every documented form of an identifier is read.", "quantifier": "every list of identifiers and every node that denotes one", "why_tests_cant": "all texts and forms", "anchors": ["models/xmp_base/types.go:Identifier.MarshalXMP", "models/xmp_base/types.go:Identifier.UnmarshalXMP", "models/xmp_base/types.go:IdentifierArray"]}
{"id": "C107", "title": "Time codes survive XML", "statement": "A time code written to XMP and read again has the same value, format and numbers; the element and the attribute form are both read.", "quantifier": "every time code, every form", "why_tests_cant": "all values and combinations of fields", "anchors": ["models/xmp_dm/types.go:Timecode.MarshalXMP", "models/xmp_dm/types.go:Timecode.UnmarshalXMP", "models/xmp_dm/types.go:Timecode.IsZero"]}
{"id": "C108", "title": "Records that are written field by field are read again", "statement": "A record of the EXIF, ID3, iTunes or QuickTime model that is written with its fields is read again with them, and the text form of native tags is read too.", "quantifier": "every such record type and every value", "why_tests_cant": "all values", "anchors": ["models/exif/types.go:OECF", "models/exif/types.go:CFAPattern", "models/exif/types.go:DeviceSettings", "models/id3/types.go:Owner.UnmarshalText", "models/id3/types.go:Reverb.UnmarshalText", "models/itunes/types.go:SMPB.UnmarshalText", "models/qt/types.go:Location.UnmarshalText"]}
{"id": "C109", "title": "URIs are read in both forms", "statement": "A URI property is read from its text and from an rdf:resource attribute, as the comment of the type says.", "quantifier": "every URI and every packet", "why_tests_cant": "all packets", "anchors": ["xmp/xmp_types.go:Uri.UnmarshalXMP", "xmp/node.go:GetAttr"]}
{"id": "C110", "title": "Thumbnail fields have their names", "statement": "The width, height, format and image of a thumbnail are written as the properties of those names.", "quantifier": "every thumbnail", "why_tests_cant": "all values", "anchors": ["models/xmp_base/types.go:Thumbnail"]}
{"id": "C111", "title": "Identifier lists act as sets", "statement": "Contains tells whether an id is in the list, AddUnique adds it once, Remove takes it out and nothing else.", "quantifier": "every list and every id", "why_tests_cant": "all lists", "anchors": ["models/xmp_base/types.go:IdentifierArray.AddUnique", "models/xmp_base/types.go:IdentifierArray.Remove", "models/xmp_base/types.go:IdentifierArray.Contains"]}
{"id": "C112", "title": "A native tag has its own field", "statement": "SetTag and GetTag of a model change and read the field that declares the tag, and no other; a tag that no field declares is refused.", "quantifier": "every model with native tags, every tag, every value", "why_tests_cant": "all tags of all models", "anchors": ["xmp/native.go:GetNativeField", "xmp/native.go:SetNativeField", "xmp/typeinfo.go:getTypeInfo", "models/riff/model.go:RiffInfo", "models/exif/model.go:ExifEXInfo.GetTag", "models/id3/model.go:ID3.GetTag"]}
{"id": "C113", "title": "EXIF tags are found in any case", "statement": "The EXIF tag of a field is found however its letters are written, by all tag functions of the model.", "quantifier": "every declared tag and every spelling", "why_tests_cant": "all spellings", "anchors": ["models/exif/model.go:ExifInfo.CanTag", "models/exif/model.go:ExifInfo.GetTag", "models/exif/model.go:ExifInfo.SetTag", "models/exif/model.go:ExifInfo.GetLocaleTag"]}
{"id": "C114", "title": "Frames of old ID3 versions mean their successors", "statement": "A three letter frame of ID3v2.2, or a number of ID3v1, gets and sets the field of the frame that replaces it in ID3v2.3 and 2.4.", "quantifier": "every old frame, every value, every history of tag calls", "why_tests_cant": "all frames and values", "anchors": ["models/id3/model.go:mapV22Tag", "models/id3/model.go:ID3.CanTag", "models/id3/model.go:ID3.GetTag", "models/id3/model.go:ID3.SetTag", "models/id3/model.go:ID3.SetLocaleTag"]}
{"id": "C115", "title": "The time code of an iXML file is the time of its samples", "statement": "Hours, minutes, seconds and frames of XmpTimecode are those of the samples since midnight at the sample rate, and no file makes it crash.", "quantifier": "every number of samples, sample rate and frame rate", "why_tests_cant": "all numbers", "anchors": ["models/ixml/types.go:Speed.XmpTimecode", "xmp/xmp_types.go:Rational.Value"]}
{"id": "C116", "title": "Every frame rate gets its time code format", "statement": "ParseTimecodeFormat gives each rate of the XMP specification its format, and no format to a rate that is not near it.", "quantifier": "every rate, with and without drop frames", "why_tests_cant": "all rates", "anchors": ["models/xmp_dm/types.go:ParseTimecodeFormat"]}
{"id": "C117", "title": "Floating point numbers survive their text", "statement": "A NullFloat or NullFloat64 written as text or JSON and read again is the same number, and every decimal number, with or without exponent, is read as what it denotes.", "quantifier": "every number including NaN and the infinities, every decimal text", "why_tests_cant": "all numbers and texts", "anchors": ["xmp/units.go:ParseNullFloat", "xmp/units.go:NullFloat.MarshalText", "xmp/units.go:NullFloat.MarshalJSON", "xmp/units.go:NullFloat.UnmarshalJSON", "xmp/units.go:ParseNullFloat64"]}
{"id": "C118", "title": "A unit after a number is ignored", "statement": "A number that is followed by a unit is read as the number; a placeholder for a missing number leaves the value as it was.", "quantifier": "every decimal number and every unit", "why_tests_cant": "all numbers and units", "anchors": ["xmp/units.go:cleanFloat", "xmp/units.go:ParseNullFloat", "xmp/units.go:NullFloat.UnmarshalText"]}
{"id": "C119", "title": "A decimal text is read as a rational of its value", "statement": "FloatToRational and Rational.UnmarshalText make of a decimal number a fraction whose value is that number up to rounding.", "quantifier": "every number and every decimal text", "why_tests_cant": "all numbers", "anchors": ["xmp/xmp_types.go:FloatToRational", "xmp/xmp_types.go:Rational.UnmarshalText"]}
{"id": "C120", "title": "GPS coordinates keep their angle", "statement": "A decimal coordinate is read as degrees, minutes and seconds of the same angle, and these are written to XMP as a text of the same angle with minutes below 60.", "quantifier": "every coordinate and every triple of fractions", "why_tests_cant": "all coordinates", "anchors": ["models/exif/types.go:GPSCoord.UnmarshalText", "models/exif/types.go:convertGPStoXMP"]}
{"id": "C121", "title": "A GPS time is the date plus its hours, minutes and seconds", "statement": "The time made of a GPS date and three fractions is that many hours, minutes and seconds after the date.", "quantifier": "every date and every triple of fractions", "why_tests_cant": "all fractions", "anchors": ["models/exif/types.go:convertGPSTimestamp", "xmp/xmp_types.go:Rational.Value"]}
{"id": "C122", "title": "Saving computes the XMP properties of native EXIF and RIFF data", "statement": "After a document with changes was saved, each property that an EXIF or RIFF model computes from native fields has the computed value (or keeps a value it had, where it is only filled), and keeps its old value where nothing can be computed.", "quantifier": "every document, every value of every native field, every outcome of the conversions", "why_tests_cant": "all documents and values", "anchors": ["models/exif/model.go:ExifInfo.SyncToXMP", "models/riff/model.go:RiffInfo.SyncToXMP", "xmp/sync.go:Document.SyncModels"]}
{"id": "C123", "title": "Durations survive their text", "statement": "A Duration written as text or as JSON and read again is the same duration.", "quantifier": "every duration of 64 bits", "why_tests_cant": "all numbers of nanoseconds", "anchors": ["xmp/units.go:Duration.String", "xmp/units.go:ParseDuration", "xmp/units.go:Duration.MarshalText", "xmp/units.go:Duration.UnmarshalText", "xmp/units.go:Duration.UnmarshalJSON"]}
{"id": "C124", "title": "Texts of durations are read as what they denote", "statement": "Numbers with units are read as their sum, whole numbers as seconds, and white space does not matter.", "quantifier": "every list of numbers with units, every whole number, every placement of white space", "why_tests_cant": "all texts", "anchors": ["xmp/units.go:ParseDuration", "xmp/units.go:Duration.UnmarshalJSON"]}
{"id": "C125", "title": "Rounding durations", "statement": "Truncate gives the multiple of the unit next to the duration towards zero, and RoundTo gives the nearest number of units.", "quantifier": "every duration and every unit", "why_tests_cant": "all durations and units", "anchors": ["xmp/units.go:Duration.Truncate", "xmp/units.go:Duration.RoundToDays", "xmp/units.go:Duration.RoundToHours", "xmp/units.go:Duration.RoundToMinutes", "xmp/units.go:Duration.RoundToSeconds", "xmp/units.go:Duration.RoundToMillisecond"]}
{"id": "C126", "title": "Simple values survive JSON", "statement": "NullInt and NullBool written as JSON and read again, with or without quotes, are the same; null and placeholders leave the value as it was.", "quantifier": "every value and every old value", "why_tests_cant": "all values", "anchors": ["xmp/units.go:NullInt.MarshalJSON", "xmp/units.go:NullInt.UnmarshalJSON", "xmp/units.go:NullBool.MarshalJSON", "xmp/units.go:NullBool.UnmarshalJSON", "xmp/units.go:Duration.UnmarshalJSON", "xmp/units.go:NullFloat.UnmarshalJSON"]}
{"id": "C127", "title": "Identifiers of other models are collected once", "statement": "Collecting identifiers keeps those the document has, appends each identifier another model knows once, with its mark in front, changes nothing else, and collecting again changes nothing.", "quantifier": "every document with one XMP base model, every set of other models, every value of their identifiers", "why_tests_cant": "all documents and values", "anchors": ["models/xmp_base/model.go:XmpBase.SyncModel", "models/xmp_base/model.go:prefixer", "xmp/document.go:Document.SyncModels", "xmp/sync.go:Document.SyncMulti", "models/xmp_base/types.go:Identifier.MarshalText"]}
{"id": "C128", "title": "The location of a QuickTime file survives synchronization", "statement": "A location written to the native fields of QuickTime metadata and read again from these fields is the same place, and a location text of the documented form is read as its coordinates.", "quantifier": "every location and every location text", "why_tests_cant": "all texts", "anchors": ["models/qt/qt_metadata.go:QtMetadata.SyncFromXMP", "models/qt/qt_metadata.go:QtMetadata.SyncToXMP", "models/qt/types.go:Location"]}
{"id": "C129", "title": "Lists of texts in RIFF files are read as their items", "statement": "A RIFF text is read as the items between the separators (a semicolon and a space); as texts in languages, each item that is not empty becomes an English text and the first is the default.", "quantifier": "every list of items", "why_tests_cant": "all lists", "anchors": ["models/riff/types.go:StringArray.UnmarshalText", "models/riff/types.go:AltString.UnmarshalText"]}
{"id": "C130", "title": "Names of chroma subsampling", "statement": "Each pair of subsampling factors TIFF defines has its name, different pairs have different names, and a value counts as unset exactly when it has fewer than two factors or both are 0.", "quantifier": "every pair of factors", "why_tests_cant": "all numbers", "anchors": ["models/tiff/types.go:YCbCrSubSampling.String", "models/tiff/types.go:YCbCrSubSampling.IsZero"]}
{"id": "C131", "title": "Lists in iXML documents are read entry by entry and survive XML", "statement": "Reading a list of sync points or tracks yields its entries in order, whatever other elements, comments and texts stand between them; a bad entry or a truncated document is an error; writing and reading gives the list back.", "quantifier": "every token stream and every list", "why_tests_cant": "all streams", "anchors": ["models/ixml/types.go:SyncPointList.UnmarshalXML", "models/ixml/types.go:SyncPointList.MarshalXML", "models/ixml/types.go:TrackList.UnmarshalXML", "models/ixml/types.go:TrackList.MarshalXML"]}
{"id": "C132", "title": "Access by path never crashes", "statement": "Reading, writing and listing any path of a model whose values fit their types never crashes, whatever the path text, the value and the flags, and the model still fits its types afterwards.", "quantifier": "every model type of the library, every value of it, every path text, every value and flag combination, every history of calls", "why_tests_cant": "all path texts (huge and negative indices, unknown names, languages on values without) and all values", "anchors": ["xmp/path.go:GetModelPath", "xmp/path.go:SetModelPath", "xmp/path.go:ListModelPaths", "xmp/path.go:listPaths", "xmp/path.go:growSlice", "xmp/path.go:parsePathSegment"]}
{"id": "C133", "title": "Working with documents never crashes", "statement": "Reading, setting and listing paths of a document, synchronizing paths, merging documents, making and adding models and filtering never crash, in any order and whatever the path texts, values and flags, as long as the values of the models fit their types; and they leave such models.", "quantifier": "every registry, every document, every history of calls, every path text, value and flag combination, every converter", "why_tests_cant": "all histories and texts", "anchors": ["xmp/path.go:Document.GetPath", "xmp/path.go:Document.SetPath", "xmp/path.go:Document.ListPaths", "xmp/sync.go:Document.Sync", "xmp/sync.go:Document.Merge", "xmp/document.go:Document.MakeModel", "xmp/document.go:Document.AddModel", "xmp/filter.go:Filter.Apply"]}
{"id": "C134", "title": "Texts of video frame rates are read as the rate they name", "statement": "A video frame rate given as NTSC or PAL in any case, as a whole number, as a ratio or as a decimal number with or without a unit (fps, i, p) is read as that rate.", "quantifier": "every text of these forms", "why_tests_cant": "all numbers of any length and all units", "anchors": ["models/xmp_dm/types.go:VideoFrameRate.UnmarshalText", "xmp/xmp_types.go:Rational.UnmarshalText", "xmp/xmp_types.go:Rational.Value"]}
{"id": "C135", "title": "Values are turned into texts without loss", "statement": "The text of a value identifies it: different integers have different texts, binary data is written as base64 from which it can be recovered and is not encoded twice; lists of identifiers made of values hold their non-empty texts in order.", "quantifier": "every value and every list of values", "why_tests_cant": "all byte strings of any length", "anchors": ["xmp/marshal.go:ToString", "xmp/marshal.go:ToRawString", "xmp/marshal.go:isBase64", "models/xmp_base/types.go:NewIdentifierArray"]}
{"id": "C136", "title": "Lists of nodes taken from a document stay as they were", "statement": "A list of nodes got from a document names the same nodes as when it was taken, whatever nodes are added, replaced or removed later, and a program that removes each node of the list empties the document.", "quantifier": "every document, every list of nodes, every later change", "why_tests_cant": "all lists and histories; depends on shared memory", "anchors": ["xmp/document.go:Document.Nodes", "xmp/document.go:Document.RemoveNamespace", "xmp/document.go:Document.RemoveNamespaceByName", "xmp/document.go:Document.FilterNamespaces", "xmp/node.go:NodeList.AddNode", "xmp/node.go:NodeList.AppendNode", "xmp/node.go:NodeList.RemoveNode", "xmp/node.go:NodeList.Index"]}
{"id": "C137", "title": "No node is its own descendant", "statement": "Adding a node below another one either keeps the nodes a tree or is refused: no node can become its own child, grandchild and so on.", "quantifier": "every tree of nodes and every two nodes", "why_tests_cant": "all trees of any depth", "anchors": ["xmp/node.go:Node.AddNode", "xmp/node.go:Node.AppendNode", "xmp/node.go:Node.RemoveNode"]}
{"id": "C138", "title": "Closing gives back exactly the nodes of a document", "statement": "Close of a document gives each of its nodes back for later use once, empties the document, and changes no other node: all other documents hold the same data afterwards. Closing again gives nothing back. The copies made while a document is written are given back without touching the document.", "quantifier": "every memory, every document, every capacity of the pool, every other tree", "why_tests_cant": "all trees of any depth; depends on shared memory", "anchors": ["xmp/document.go:Document.Close", "xmp/node.go:Node.Close", "xmp/node.go:Node.Clear", "xmp/node.go:copyNode", "xmp/marshal.go:Encoder.Encode"]}
{"id": "C139", "title": "Sorting markers orders them by time", "statement": "MarkerList.Sort keeps the markers and puts them in the order of their start times, the start time 'maximum' being the end of the medium.", "quantifier": "every list of markers, every way sort.Sort may exchange elements", "why_tests_cant": "all lists of any length", "anchors": ["models/xmp_dm/types.go:MarkerList.Sort", "models/xmp_dm/types.go:MarkerList.Less", "models/xmp_dm/types.go:MarkerList.Swap", "models/xmp_dm/types.go:FrameCount.IsSmaller"]}
{"id": "C140", "title": "The statistics of the node pool are right", "statement": "The numbers DumpStats prints as in use and in the pool are the number of nodes that were handed out and not closed since, and the number of nodes waiting in the pool, whatever nodes were used before and by how many goroutines.", "quantifier": "every history of NewNode and Close, every capacity, every schedule of the increments", "why_tests_cant": "all histories and schedules", "anchors": ["xmp/dump.go:DumpStats", "xmp/node.go:NewNode", "xmp/node.go:Node.Close", "xmp/units.go:Max64"]}
{"id": "C141", "title": "Log messages of a sufficient level are written as they are", "statement": "A message is written exactly if its level is at least the level set last, as a line made of the name of the level and the message.", "quantifier": "every history of calls, every message, format and arguments", "why_tests_cant": "all histories and texts", "anchors": ["xmp/log.go:SetLogLevel", "xmp/log.go:LogType.Error", "xmp/log.go:LogType.Errorf", "xmp/log.go:output", "xmp/log.go:outputf", "xmp/log.go:defaultLogger"]}
{"id": "C142", "title": "A group contains exactly the namespaces registered in it", "statement": "NamespaceGroup.Namespaces lists the namespaces registered in the group, and Contains of a group or a list of groups is true exactly for these.", "quantifier": "every history of registrations, every group, every namespace", "why_tests_cant": "all histories", "anchors": ["xmp/namespace.go:NamespaceGroup.Namespaces", "xmp/namespace.go:NamespaceGroup.Contains", "xmp/namespace.go:NamespaceGroupList.Contains", "xmp/registry.go:Registry.GetGroupNamespaces"]}
{"id": "C143", "title": "xmpinfo prints what its flags ask for", "statement": "The command line tool prints the forms of the metadata of a file that its flags ask for: the whole file for .xmp files, else the first packet or with -all all packets; the original if nothing is asked for; nothing with -quiet. It ends with exit code 1 and an error message exactly if something failed.", "quantifier": "every file, every combination of flags, every reading of the file", "why_tests_cant": "all files and flags", "anchors": ["cmd/xmpinfo.go:main", "cmd/xmpinfo.go:fail", "cmd/xmpinfo.go:out", "xmp/reader.go:Scan", "xmp/reader.go:Read"]}
{"id": "C144", "title": "Document.Namespaces lists the namespaces of the models", "statement": "Document.Namespaces lists exactly the namespaces of the models in the document, each once, whatever models were made, added and removed before.", "quantifier": "every history of MakeModel, AddModel and RemoveNamespace, all models", "why_tests_cant": "all histories", "anchors": ["xmp/document.go:Document.Namespaces", "xmp/document.go:Document.MakeModel", "xmp/document.go:Document.AddModel", "xmp/document.go:Document.RemoveNamespace"]}
{"id": "C145", "title": "A reference to a document is a snapshot of it", "statement": "SelfResourceRef returns a reference with the identifiers the document has at that moment, the version asked for and the date of the event recorded last, and nothing else. What the program does to the document or its events afterwards does not change the reference.", "quantifier": "every history of assignments, recorded events and references made, every version", "why_tests_cant": "all histories; depends on shared pointers", "anchors": ["models/xmp_mm/model.go:XmpMM.SelfResourceRef", "models/xmp_mm/model.go:XmpMM.AddHistory", "models/xmp_mm/model.go:XmpMM.GetLastEvent"]}
{"id": "C146", "title": "Recorded changes survive writing and reading", "statement": "The paths of the changes recorded with AppendVersionHistory are written to the history and read back as the same places, in order, grouped by version; a place is a path up to a slash before and behind it. Writing what was read gives the same text.", "quantifier": "every history of recorded changes, every path", "why_tests_cant": "all histories and texts", "anchors": ["models/xmp_mm/model.go:XmpMM.AppendVersionHistory", "models/xmp_dm/types.go:NewPartList", "models/xmp_dm/types.go:PartList.Add", "models/xmp_dm/types.go:PartList.MarshalText", "models/xmp_dm/types.go:PartList.UnmarshalText"]}
{"id": "C147", "title": "Lists of references keep what they had when references are deleted", "statement": "ResourceRefArray.DeleteIndex removes one reference from the list it is called on. A list taken before names the same references as when it was taken, and a program that deletes each reference of a list empties it.", "quantifier": "every list of references, every index, every capacity", "why_tests_cant": "all lists of any length; depends on shared memory", "anchors": ["models/xmp_mm/types.go:ResourceRefArray.DeleteIndex", "models/xmp_mm/types.go:ResourceRefArray.Index"]}
{"id": "C148", "title": "A single value in place of a list is read as a list of one", "statement": "A property that is a list is read in order from a list of items, and a single value written without the list is read as a list with this one value.", "quantifier": "every list, every text, every declaration of prefixes", "why_tests_cant": "all texts and lists of any length", "anchors": ["xmp/xmp_types.go:DateList.UnmarshalXMP", "models/dc/types.go:LocaleArray.UnmarshalXMP", "xmp/array.go:UnmarshalArray"]}
{"id": "C149", "title": "Enumerated values keep their names", "statement": "Take types, location types and location times of iXML are read as they are written, known to the library or not, in lists of any length; a timecode flag is read if it is DF or NDF and refused otherwise; every iTunes media type is shown with its own name, or its number in parentheses, and no two media types look the same; the default language is the first of the list.", "quantifier": "every text, every list, every 64-bit number", "why_tests_cant": "all texts and numbers", "anchors": ["models/ixml/enum.go:ParseTakeType", "models/ixml/enum.go:ParseLocationType", "models/ixml/enum.go:ParseLocationTime", "models/ixml/enum.go:TimecodeFlag.UnmarshalText", "models/itunes/enum.go:MediaType.String", "models/dc/types.go:LocaleArray.Default"]}
