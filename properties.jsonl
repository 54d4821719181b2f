{"id": "C01", "title": "Tag-value write/read round trip", "statement": "For every SPDX document of version 2.1, 2.2 or 2.3 whose content is representable in tag-value form (explicit, field-wise conditions on strings, identifiers and element types), writing it with tagvalue.Write and reading the bytes back with the tag-value reader of the same version succeeds and yields the same document, up to the writer's canonical ordering of external references, files, packages and snippets.", "quantifier": "all documents satisfying the representability predicate, all versions, any number of packages, files, snippets, relationships, annotations, licenses and reviews, any strings", "why_tests_cant": "Tests compare a handful of literal documents; the claim covers unboundedly many documents and strings and every interaction between sections.", "anchors": ["tagvalue/writer.go: Write", "tagvalue/reader.go: ReadInto", "spdx/v2/v2_3/tagvalue/writer/save_document.go: RenderDocument", "spdx/v2/v2_3/tagvalue/reader/parser.go: ParseTagValues"]}
{"id": "C02", "title": "Tag-value reading never panics", "statement": "For every byte stream the tag-value reader returns a document or an error; it never dereferences a nil section (package, file, snippet, license, review, creation info), for every version.", "quantifier": "all byte strings / all sequences of (tag, value) pairs, all three versions", "why_tests_cant": "The parser is a state machine over mutable nil-able pointers; only an invariant over all tag sequences excludes a nil dereference.", "anchors": ["spdx/v2/v2_3/tagvalue/reader/parser.go: ParseTagValues, parsePair", "spdx/v2/v2_3/tagvalue/reader/parse_file.go: parsePairFromFile", "spdx/v2/v2_3/tagvalue/reader/parse_snippet.go: parsePairFromSnippet", "spdx/v2/v2_3/tagvalue/reader/parse_review.go", "spdx/v2/v2_3/tagvalue/reader/parse_other_license.go"]}
{"id": "C03", "title": "Tokenizer round trip", "statement": "Printing any list of (tag, value) pairs, one `tag: value` item each (values containing a newline wrapped in <text>...</text>), and tokenizing the result returns exactly that list, provided tags contain no colon, newline or surrounding white space and do not start a comment, and values satisfy the stated single-line / multi-line conditions. White space before or after the tag or the value on a line, of whatever Unicode kind, makes no difference.", "quantifier": "all lists of pairs meeting the conditions, any length, any bytes", "why_tests_cant": "Quantifies over all strings including unicode white space, embedded delimiters and carriage returns.", "anchors": ["tagvalue/reader/reader.go: ReadTagValues", "spdx/v2/v2_3/tagvalue/writer/util.go: textify"]}
{"id": "C04", "title": "Comments and blank lines are inert", "statement": "Inserting or deleting comment lines and blank lines anywhere outside a <text> block changes neither the success of tokenizing nor the pairs produced; inside a <text> block every line, including comment-looking ones, is preserved verbatim. A blank line is one of Unicode white space only; a comment is white space followed by a number sign.", "quantifier": "all inputs and all insertion points", "why_tests_cant": "Ranges over every position in every input.", "anchors": ["tagvalue/reader/reader.go: readNextLineFromReady, readNextLineFromMidtext"]}
{"id": "C05", "title": "Malformed tag-value input is rejected", "statement": "If a significant line has no colon, or the input ends inside an unterminated <text> block, or a line exceeds the scanner limit, reading fails with an error; it never returns a partial pair list.", "quantifier": "all inputs, all positions of the defect", "why_tests_cant": "Positions and surrounding content are unbounded.", "anchors": ["tagvalue/reader/reader.go: ReadTagValues, finalize"]}
{"id": "C06", "title": "Unknown tags are never silently dropped", "statement": "If reading a tag-value document succeeds then every tag in it belongs to the fixed tag vocabulary of that SPDX version; a document containing any other tag, at any position and in any parser state, is rejected.", "quantifier": "all pair sequences, all versions, all positions", "why_tests_cant": "An unknown tag can appear after any prefix, i.e. in any reachable parser state.", "anchors": ["spdx/v2/v2_3/tagvalue/reader/parse_package.go", "spdx/v2/v2_3/tagvalue/reader/parse_file.go", "spdx/v2/v2_3/tagvalue/reader/parse_creation_info.go", "spdx/v2/v2_3/tagvalue/reader/parse_snippet.go", "spdx/v2/v2_3/tagvalue/reader/parse_other_license.go", "spdx/v2/v2_3/tagvalue/reader/parse_review.go"]}
{"id": "C07", "title": "Documents returned by the tag-value reader are well formed", "statement": "Whenever reading succeeds, every package, file and snippet of the resulting document has a non-empty identifier without a colon, every checksum uses an algorithm of that SPDX version, creators, annotators and reviewers have type Person, Organization or Tool, suppliers and originators are NOASSERTION or Person/Organization, and each relationship has non-empty well-formed ends.", "quantifier": "all inputs on which reading succeeds, all elements", "why_tests_cant": "Invariant over all parses, not over sample files.", "anchors": ["spdx/v2/v2_3/tagvalue/reader/util.go: extractElementID, extractDocElementID", "spdx/v2/v2_3/tagvalue/reader/parse_package.go", "spdx/v2/v2_3/tagvalue/reader/parse_file.go", "spdx/v2/v2_3/tagvalue/reader/parser.go"]}
{"id": "C08", "title": "Tag-value reader conserves elements", "statement": "Whenever reading succeeds, the number of relationships, annotations, other licenses and reviews of the document equals the number of Relationship, Annotator, LicenseID and Reviewer tags of the input, the number of creators equals the number of Creator tags, and they appear in input order.", "quantifier": "all inputs on which reading succeeds", "why_tests_cant": "Counts range over arbitrary interleavings of sections.", "anchors": ["spdx/v2/v2_3/tagvalue/reader/parse_relationship.go", "spdx/v2/v2_3/tagvalue/reader/parse_annotation.go", "spdx/v2/v2_3/tagvalue/reader/parse_review.go", "spdx/v2/v2_3/tagvalue/reader/parse_other_license.go"]}
{"id": "C09", "title": "Element identifier text round trip", "statement": "Rendering an element identifier (with or without external document part, or a special NONE/NOASSERTION value) and parsing the text gives back the identifier, for all identifiers satisfying the parser's syntactic conditions; the parser accepts exactly the strings of the form [DocumentRef-<doc>:]SPDXRef-<id> with non-empty, colon-free parts.", "quantifier": "all strings and all identifiers", "why_tests_cant": "Characterises acceptance over all strings.", "anchors": ["spdx/v2/common/identifier.go: RenderElementID, RenderDocElementID", "spdx/v2/v2_3/tagvalue/reader/util.go: extractDocElementID, extractDocElementSpecial, extractElementID"]}
{"id": "C10", "title": "Version dispatch", "statement": "The reader parses with the version named by the first SPDXVersion tag, whatever precedes it; if no tag-value pair exists or the first SPDXVersion is not one of 2.1, 2.2, 2.3, reading fails.", "quantifier": "all inputs", "why_tests_cant": "Ranges over every input and every position of version tags.", "anchors": ["tagvalue/reader.go: ReadInto", "rdf/reader.go: ReadInto, getSpdxVersion", "json/reader.go: ReadInto"]}
{"id": "C11", "title": "Tag-value output is canonical", "statement": "tagvalue.Write does not depend on the order of packages, files, external document references or on the iteration order of the snippet map, as long as identifiers are distinct and whatever sorting algorithm is used: two documents equal up to these orders produce identical bytes. Writing is idempotent: a second Write of the (in place sorted) document gives the same bytes.", "quantifier": "all documents with distinct identifiers, all permutations, all correct sort implementations, all map iteration orders", "why_tests_cant": "sort.Slice is unstable and Go map iteration is randomised; tests observe one schedule.", "anchors": ["spdx/v2/v2_3/tagvalue/writer/save_document.go: RenderDocument", "spdx/v2/v2_3/tagvalue/writer/save_package.go: renderPackage", "spdx/v2/v2_3/tagvalue/writer/save_file.go: renderFile"]}
{"id": "C12", "title": "Tag-value Write only reorders the document", "statement": "Write leaves the caller's document unchanged except for permuting the external-reference, file and package lists (and the file list inside each package); no element is lost, added or modified. It fails, writing nothing, exactly when the creation information is missing.", "quantifier": "all documents", "why_tests_cant": "In-place mutation of caller data for every document shape.", "anchors": ["spdx/v2/v2_3/tagvalue/writer/save_document.go: RenderDocument", "spdx/v2/v2_3/tagvalue/writer/save_package.go: renderPackage"]}
{"id": "C13", "title": "JSON codecs of identifiers", "statement": "Marshalling a DocumentID, ElementID or DocElementID and unmarshalling the produced JSON string returns the identifier, for every identifier made of characters JSON does not escape and not already carrying its prefix; unmarshalling fails exactly on the wrongly prefixed or empty ones. Unmarshalling a DocElementID into a variable that holds another one replaces the parts that are given and keeps the others.", "quantifier": "all identifiers / all JSON string literals", "why_tests_cant": "Quantifies over all strings.", "anchors": ["spdx/v2/common/identifier.go: MarshalJSON, UnmarshalJSON"]}
{"id": "C14", "title": "JSON codecs of creators, annotators, suppliers and originators", "statement": "Marshalling a Creator, Annotator, Supplier or Originator to its one-line JSON form and unmarshalling it returns the same value for every value with non-empty, trimmed, colon-free type and trimmed name of unescaped characters; NOASSERTION suppliers and originators round trip; invalid ones are refused by Marshal.", "quantifier": "all values", "why_tests_cant": "Quantifies over all strings.", "anchors": ["spdx/v2/common/creation_info.go", "spdx/v2/common/annotation.go", "spdx/v2/common/package.go"]}
{"id": "C15", "title": "JSON relationship completion is exact and loss free", "statement": "After unmarshalling a JSON document its relationships are: the non-null relationships of the file in their original order, followed by one DESCRIBES per documentDescribes entry and one CONTAINS per hasFiles entry that is not already expressed (directly, by an inverse relationship, or by an earlier added one), and nothing else; no two added relationships are equivalent.", "quantifier": "all relationship lists (with nulls), documentDescribes lists and packages with hasFiles", "why_tests_cant": "Deduplication over arbitrary lists of relationships.", "anchors": ["spdx/v2/v2_3/document.go: UnmarshalJSON", "spdx/v2/v2_2/document.go: UnmarshalJSON"]}
{"id": "C16", "title": "JSON package defaults", "statement": "Unmarshalling a package yields FilesAnalyzed = true exactly when the filesAnalyzed member is absent, null or true, and records the presence of the member; external reference categories are normalised to the dash form idempotently, and writing then reading a category in dash form returns it in both 2.2 and 2.3.", "quantifier": "all packages, all category strings", "why_tests_cant": "Quantifies over all member combinations and strings.", "anchors": ["spdx/v2/v2_3/package.go: UnmarshalJSON, MarshalJSON", "spdx/v2/v2_2/package.go: UnmarshalJSON, MarshalJSON"]}
{"id": "C17", "title": "Package verification code", "statement": "The verification code depends only on the multiset of SHA1 values of the non-excluded files: it is invariant under reordering files and changing any other file attribute, excludes exactly the file whose name equals the exclusion, and fails exactly when the list contains a nil file. For SHA1 values of one length, two lists of files with the same code have the same values or give a collision of the hash.", "quantifier": "all file lists, all permutations, all excluded names, all hash functions", "why_tests_cant": "Permutation invariance over all lists.", "anchors": ["utils/verification.go: GetVerificationCode"]}
{"id": "C18", "title": "Path ignore rules", "statement": "ShouldIgnore returns true exactly when some non-empty pattern matches: an anchored file pattern equals the path, an anchored directory pattern is a prefix, a floating pattern matches a complete path component (or component sequence) as documented; adding patterns never un-ignores a path.", "quantifier": "all paths and all pattern lists", "why_tests_cant": "Quantifies over all strings.", "anchors": ["utils/filesystem.go: ShouldIgnore"]}
{"id": "C19", "title": "File enumeration is exact", "statement": "GetAllFilePaths returns, in the tree-walk order, exactly the regular files under the root that are not ignored, each once, as '/'-rooted paths relative to the root; directories and symbolic links are never returned.", "quantifier": "all directory trees and pattern lists", "why_tests_cant": "Unbounded trees.", "anchors": ["utils/filesystem.go: GetAllFilePaths"]}
{"id": "C20", "title": "Document reference validation", "statement": "ValidateDocument succeeds exactly when each relationship end and nothing else names an element of the document (the document itself, a package or an unpackaged file); it reports an error otherwise. The error names the first identifier, in the order of the relationships, that is not one of an element.", "quantifier": "all documents", "why_tests_cant": "Quantifies over all relationship graphs.", "anchors": ["spdxlib/documents.go: ValidateDocument"]}
{"id": "C21", "title": "Described package lookup", "statement": "GetDescribedPackageIDs returns, sorted and complete, the elements the document DESCRIBES (or that are DESCRIBED_BY it), the single package when there is exactly one, and an error when nothing is described. With two or more packages an identifier is returned once for each relationship that says it is described. FilterRelationships returns the non-nil results of its closure in the order of the relationships, and SortElementIDs the same identifiers in order.", "quantifier": "all documents", "why_tests_cant": "Quantifies over all relationship lists.", "anchors": ["spdxlib/described_elements.go: GetDescribedPackageIDs", "spdxlib/relationships.go: FilterRelationships", "spdxlib/element_ids.go: SortElementIDs", "spdxlib/relationships.go: FilterRelationships", "spdxlib/element_ids.go: SortElementIDs"]}
{"id": "C22", "title": "License comparison of two packages is a partition", "statement": "licensediff pairs every file name of either package exactly once, with the license each package records for it, and MakeResults distributes all pairs into the four result classes without overlap or loss, according to which side has a license.", "quantifier": "all pairs of packages", "why_tests_cant": "Partition over arbitrary maps.", "anchors": ["licensediff/licensediff.go: MakePairs, MakeResults"]}
{"id": "C23", "title": "License report totals", "statement": "The reporter counts every file exactly once: each reported license count equals the number of files concluding it, the found and not-found totals add up to the number of files, lines are ordered by decreasing count, and the order of files does not matter.", "quantifier": "all packages", "why_tests_cant": "Sums over arbitrary lists.", "anchors": ["reporter/reporter.go: Generate, countLicenses"]}
{"id": "C24", "title": "Built documents are internally consistent", "statement": "For every directory content the builder produces a document whose file identifiers are pairwise distinct, whose files are the enumerated ones in order with their checksums, that DESCRIBES its package, and that passes reference validation; the verification code is that of the files.", "quantifier": "all file trees, package names and configurations", "why_tests_cant": "Unbounded numbers of files.", "anchors": ["builder/build.go: Build", "builder/build_package.go: BuildPackageSection", "builder/build_file.go: BuildFileSection", "builder/build_relationship.go"]}
{"id": "C25", "title": "License identifier search", "statement": "The identifier searcher splits any license expression into its individual identifiers, dropping exactly parentheses, plus signs and the AND/OR/WITH operators; the per-file list is sorted, duplicate free and complete, and the package list is the sorted duplicate-free union of the per-file lists of the searched files.", "quantifier": "all expressions, all sets of files", "why_tests_cant": "Quantifies over all strings and file sets.", "anchors": ["idsearcher/idsearcher.go: getIndividualLicenses, BuildIDsDocument, searchFileIDs, makeElement"]}
{"id": "C26", "title": "RDF license graphs are read safely", "statement": "Reading a license node of any RDF graph terminates, reports an error exactly when a license set is reachable from itself along member edges or an invalid node is reached, and otherwise returns the members in triple order; shared sub-licenses are allowed.", "quantifier": "all triple graphs, including cyclic and shared ones", "why_tests_cant": "Termination and cycle detection over all graphs.", "anchors": ["spdx/v2/v2_3/rdf/reader/parse_license.go: getAnyLicenseFromNode", "spdx/v2/v2_2/rdf/reader/parse_license.go"]}
{"id": "C27", "title": "RDF value helpers", "statement": "The last part of a URI never contains a separator and is a suffix of the URI; relationship types, checksum algorithms, file types, package purposes, booleans and NONE/NOASSERTION references are accepted exactly for the documented vocabulary and mapped to the canonical spelling.", "quantifier": "all strings", "why_tests_cant": "Quantifies over all strings.", "anchors": ["spdx/v2/v2_3/rdf/reader/utils.go", "spdx/v2/v2_3/rdf/reader/license_utils.go", "spdx/v2/v2_3/rdf/reader/parse_relationship.go", "spdx/v2/v2_3/rdf/reader/parse_package.go: getPrimaryPackagePurpose"]}
{"id": "C28", "title": "Unpackaged files of an RDF document are distinct and apart from packaged ones", "statement": "Reading an RDF document, the identifiers of the unpackaged files are pairwise distinct, and none of them is the identifier of a file inside a package of the document. (That every package is listed once, and that a node met several times is read once, is false of the code and proved as refutations.)", "quantifier": "all RDF graphs accepted by the reader", "why_tests_cant": "Graph traversal with caching over arbitrary graphs.", "anchors": ["spdx/v2/v2_3/rdf/reader/parse_file.go: getFileFromNode, setUnpackagedFiles", "spdx/v2/v2_3/rdf/reader/parse_package.go: getPackageFromNode", "spdx/v2/v2_3/rdf/reader/parse_spdx_document.go"]}
{"id": "C29", "title": "Harmless values written to tag-value cannot inject tags", "statement": "If no value printed on a single line contains a line feed or the mark <text>, and no value printed in a text block contains </text>, then tokenizing the written bytes yields exactly the tags the writer emitted, in order, with the emitted values up to surrounding white space and CR before LF: no value can add, remove or rename a tag. Without the condition the claim is false (a newline in the document name adds a package), which is proved as a refutation.", "quantifier": "all documents and all field contents meeting the condition, all sort implementations, all versions", "why_tests_cant": "Security style property over all strings.", "anchors": ["spdx/v2/v2_3/tagvalue/writer/util.go: textify", "spdx/v2/v2_3/tagvalue/writer/save_package.go", "spdx/v2/v2_3/tagvalue/writer/save_file.go"]}
{"id": "C30", "title": "Structured single-line values round trip", "statement": "The one-line sub-formats (type: name, algorithm: value, external document references, external package references, verification codes with exclusions, byte and line ranges, relationships) are parsed back to the components they were printed from under explicit conditions, for all component strings.", "quantifier": "all component strings and integers", "why_tests_cant": "Quantifies over all strings and all machine integers.", "anchors": ["spdx/v2/v2_3/tagvalue/reader/util.go: extractSubs", "spdx/v2/v2_3/tagvalue/reader/parse_creation_info.go: extractExternalDocumentReference", "spdx/v2/v2_3/tagvalue/reader/parse_package.go: extractCodeAndExcludes, extractPackageExternalReference", "spdx/v2/v2_3/tagvalue/reader/parse_snippet.go", "spdx/v2/v2_3/tagvalue/reader/parse_relationship.go"]}
{"id": "C31", "title": "JSON round trip", "statement": "Writing a document as JSON, with or without HTML escaping, and reading the result returns the same version and the same document, for every document whose identifiers and actors consist of characters JSON does not escape and whose other texts are valid UTF-8; this also holds if the members of any object of the written JSON are reordered.", "quantifier": "all documents of versions 2.1, 2.2 and 2.3 the JSON form can carry; all reorderings of members", "why_tests_cant": "Quantifies over all documents, strings and member orders.", "anchors": ["json/writer.go: Write", "json/reader.go: ReadInto", "spdx/v2/v2_3/package.go: Package (struct tags)", "spdx/v2/v2_2/package.go: MarshalJSON", "spdx/v2/v2_3/document.go: UnmarshalJSON"]}
{"id": "C32", "title": "Unknown JSON members are ignored", "statement": "Adding to a JSON document, at any position, a member whose name matches (up to case) no member the format defines does not change what is read, whatever its value.", "quantifier": "all JSON documents, positions, unknown names and values", "why_tests_cant": "Quantifies over all documents and extensions.", "anchors": ["json/reader.go: ReadInto", "spdx/v2/v2_3/document.go: UnmarshalJSON"]}
{"id": "C33", "title": "Flat RDF nodes are read exactly", "statement": "Checksums, annotations, creation information, reviews, artifacts, external references, verification codes, external document references and extracted licenses are read from an RDF node exactly when all its statements use known predicates and readable values, and the value read is then the one the statements mean: the last statement for single-valued fields, all of them in order for lists.", "quantifier": "all graphs and nodes", "why_tests_cant": "Quantifies over all graphs, orders and repetitions of statements.", "anchors": ["spdx/v2/v2_3/rdf/reader/parse_annotation.go", "spdx/v2/v2_3/rdf/reader/parse_creation_info.go", "spdx/v2/v2_3/rdf/reader/parse_review.go", "spdx/v2/v2_3/rdf/reader/parse_package.go: getPackageExternalRef, setPackageVerificationCode, setPackageChecksum", "spdx/v2/v2_3/rdf/reader/parse_file.go: getArtifactFromNode", "spdx/v2/v2_3/rdf/reader/parse_spdx_document.go: getExternalDocumentRefFromNode", "spdx/v2/v2_3/rdf/reader/parse_other_license_info.go"]}
{"id": "C34", "title": "Reading an RDF document ends, and panics only on untyped roots or IDs with two roles", "statement": "Reading any RDF graph terminates. It panics only if a root node has no rdf:type statement or one node ID is reached both as two of file, package, relationship and license. Success, the error and everything but the order of the unpackaged files are independent of the order in which Go iterates over its map.", "quantifier": "all RDF graphs, cyclic ones included, all map iteration orders, versions 2.2 and 2.3", "why_tests_cant": "Mutual recursion over arbitrary, possibly cyclic graphs and arbitrary map orders.", "anchors": ["spdx/v2/v2_3/rdf/reader/parser.go: LoadFromGoRDFParser, getSpdxDocNode", "spdx/v2/v2_3/rdf/reader/parse_file.go: getFileFromNode", "spdx/v2/v2_3/rdf/reader/parse_package.go: getPackageFromNode", "spdx/v2/v2_3/rdf/reader/parse_relationship.go: parseRelationship", "spdx/v2/v2_3/rdf/reader/parse_snippet_info.go"]}
{"id": "C35", "title": "An RDF document is read as the document its graph describes", "statement": "If an RDF graph uses no node ID in two roles and no two elements share an identifier, then the document read from it is the one it describes: every field of the document, of each package, file, snippet, relationship and annotation has the value stated by its node, every package, file, relationship and annotation one comes to from the document or a snippet is in the result, every element of the result comes from such a node, and every snippet is in the file it names. A node that is met several times repeats its lists but keeps its single values. Read and ReadInto take the version from the first specVersion statement, reject every other version than 2.2 and 2.3, and give that document converted to the version asked for.", "quantifier": "all RDF graphs with unambiguous identifiers, cyclic ones included, all map iteration orders, versions 2.2 and 2.3", "why_tests_cant": "Ranges over all graphs, cycles and orders of statements; the mutual recursion and the caches only show on unbounded inputs.", "anchors": ["spdx/v2/v2_3/rdf/reader/parser.go: LoadFromGoRDFParser", "spdx/v2/v2_3/rdf/reader/parse_spdx_document.go", "spdx/v2/v2_3/rdf/reader/parse_file.go", "spdx/v2/v2_3/rdf/reader/parse_package.go", "spdx/v2/v2_3/rdf/reader/parse_relationship.go", "spdx/v2/v2_3/rdf/reader/parse_snippet_info.go", "spdx/v2/v2_2/rdf/reader", "rdf/reader.go: Read, ReadInto, getSpdxVersion"]}
{"id": "C36", "title": "JSON written by anybody is read as the document it describes", "statement": "For every JSON value in which no object has two members matching the same field, reading returns a document exactly when the value describes it: the version is the one named by spdxVersion, each field is the value of the member with its name (in any ASCII case), absent and null members leave the default, unknown members are ignored, identifiers, references, creators, suppliers, categories and packages follow their own conventions, and hasFiles and documentDescribes become relationships. A value describes at most one document, and reading never panics.", "quantifier": "all JSON values without ambiguous members, any nesting, member order and sizes, the three versions", "why_tests_cant": "Ranges over all JSON values, member orders, name spellings and nested structures.", "anchors": ["json/reader.go: ReadInto", "spdx/v2/v2_1/document.go", "spdx/v2/v2_2/document.go: UnmarshalJSON", "spdx/v2/v2_3/document.go: UnmarshalJSON", "spdx/v2/v2_3/package.go: UnmarshalJSON", "spdx/v2/common"]}
{"id": "C37", "title": "The JSON written for a document has exactly its form", "statement": "Writing a document as JSON gives one object whose members, their order, their omission when empty, and the spelling of every literal are determined by the document and its version, at every depth; 2.2 packages without verification code are written with sorted members. With HTML escaping, <, > and & in literals are replaced by their escapes and nothing else changes. Writing is refused exactly when a relationship end, an actor name or a supplier or originator type is missing.", "quantifier": "all documents, the three versions, with and without HTML escaping", "why_tests_cant": "Ranges over all documents and all byte strings; omissions interact member by member.", "anchors": ["json/writer.go: Write", "json/marshal/json.go", "spdx/v2/v2_3/document.go", "spdx/v2/v2_2/package.go: MarshalJSON", "spdx/v2/v2_3/package.go: MarshalJSON", "spdx/v2/common"]}
{"id": "C38", "title": "A tag-value document is read as the document it describes", "statement": "For every tag-value text the reader accepts, if package names are not empty, no package or file is given two identifiers and the snippets of a file have different identifiers, the document returned is the one the text describes: one package per PackageName with exactly the files that follow it before the next package, the files before the first package as files of the document, the snippets following each file under that file, every single-valued field the last value of its tag within its element, every repeated field all values in order, sub-fields (relationship comments, annotation fields, external reference comments, artifact home pages) attached to the entry they follow. A text describes at most one document.", "quantifier": "all byte strings and all lists of tag-value pairs, any number and order of sections, the three versions", "why_tests_cant": "Ranges over all texts; attribution of a line depends on everything before it, and mistakes show up only for particular successions of sections.", "anchors": ["tagvalue/reader.go: ReadInto", "spdx/v2/v2_3/tagvalue/reader/parser.go", "spdx/v2/v2_3/tagvalue/reader/parse_package.go", "spdx/v2/v2_3/tagvalue/reader/parse_file.go", "spdx/v2/v2_3/tagvalue/reader/parse_snippet.go", "spdx/v2/v2_3/tagvalue/reader/parse_creation_info.go"]}
{"id": "C39", "title": "The tag-value reader accepts exactly the documents that follow the section order, value formats and identifier rules", "statement": "A tag-value text whose package names are not empty is read without error exactly when: no line exceeds the reader's limit and the text divides into tag/value pairs; the first SPDXVersion is a supported version; each tag is allowed in the section reached by the tags before it; identifiers, references, actors, checksums, ranges, relationships, external document references and external references have their required form; relationship comments, annotation fields, external-reference comments and artifact fields follow the entry they belong to; and every package (before its files) and every file (before its snippets) has an SPDX identifier. Every other text is an error. Together with C38 this determines the result on every regular input.", "quantifier": "all byte strings / all lists of tag-value pairs, all three versions, any number and order of sections", "why_tests_cant": "Acceptance depends on the whole history of tags (sections left, elements opened, identifiers seen); tests try single sequences, while both directions must hold for every sequence: no valid document is refused and no invalid one slips through.", "anchors": ["spdx/v2/v2_3/tagvalue/reader/parser.go: ParseTagValues", "spdx/v2/v2_3/tagvalue/reader/parse_creation_info.go", "spdx/v2/v2_3/tagvalue/reader/parse_package.go", "spdx/v2/v2_3/tagvalue/reader/parse_file.go", "spdx/v2/v2_3/tagvalue/reader/parse_snippet.go", "spdx/v2/v2_3/tagvalue/reader/parse_other_license.go", "spdx/v2/v2_3/tagvalue/reader/parse_review.go", "spdx/v2/v2_1/tagvalue/reader", "spdx/v2/v2_2/tagvalue/reader", "tagvalue/reader.go: Read"]}
{"id": "C40", "title": "Converting a document to another version keeps its content", "statement": "Converting a 2.1, 2.2 or 2.3 document to any of the three versions never fails and gives a document of that version. Every value at a place both versions have (field, list position or map key, to any depth) is the same before and after, except the version field, which names the target. Places only the target has are left at their zero value. Converting up and back down gives the same document provided it has no pointer to an empty structure. So tagvalue.Read gives a 2.3 document with the content of the text whatever the version of the text; for texts of the older versions this holds whenever the creation information, the other licenses, the external references and the projects of files that the text has are not all blank.", "quantifier": "every document of every version, every pair of versions, every path of fields, indices and keys; both readings of the conversion library on pointers to zero values; every text for Read", "why_tests_cant": "the conversion is by reflection over all fields of all structures; tests compare a few documents", "anchors": ["convert/chain.go: Document, DocumentChain", "spdx/v2/v2_2/document.go: From_v2_1, To_v2_1", "spdx/v2/v2_3/document.go: From_v2_2, To_v2_2", "tagvalue/reader.go: Read, ReadInto"]}
{"id": "C41", "title": "The JSON reader accepts exactly JSON text, and the JSON writer produces it", "statement": "json.Read and json.ReadInto return a document exactly when the bytes are a JSON text (RFC 8259) nested at most 10000 deep, with every number in float64 range, standing for a value that describes a document; otherwise they return an error and never panic. The result depends only on the value: white space between tokens, equivalent escapes in names, and the order of members play no part. json.Write, for every indentation made of white space and with or without HTML escaping, writes one JSON text whose value has exactly the form of the document, and reading those bytes gives the document back, also after another program re-indented and re-ordered them. Read into another version carries over every value both versions have. Of the options given to the writer the last of each kind counts; the layout never matters to the reader.", "quantifier": "all byte strings; all documents of all versions; all indentations of white space; both HTML settings; all layouts and member orders of a text", "why_tests_cant": "acceptance is a statement about every byte string and every layout; tests read a few files and compare a few outputs", "anchors": ["json/reader.go: Read, ReadInto", "json/writer.go: Write, Indent, EscapeHTML", "json/marshal/json.go: JSON", "convert/chain.go: Document"]}
{"id": "C42", "title": "Converting between formats loses exactly what the target format cannot carry", "statement": "Writing any document as JSON (json.Write) or tag-value text (tagvalue.Write) and reading the result gives the document with exactly those fields reset that the format has no place for: in JSON the snippet map of a file, the element an annotation is about, reviews, the attribution texts of snippets, and fields a version lacks; in tag-value text the document's list of snippets, the annotations inside files and packages, and what is said about files of a package that was not analyzed. Two documents give the same JSON exactly if they agree in everything else. So tag-value to JSON, JSON to tag-value, and there and back, keep exactly what both formats carry. tagvalue.Write panics exactly for a document with creation information and a nil pointer to an element (package, file, license, relationship, annotation, external reference or artifact), which JSON input with a null in such an array produces.", "quantifier": "all documents of all versions whose carried part the format can represent; all tag-value and JSON texts; all indentations of white space, both HTML settings, all sorting algorithms", "why_tests_cant": "tests compare a few fixed documents that contain nothing the other format would drop; which fields survive is a statement about every document", "anchors": ["json/writer.go: Write", "json/reader.go: ReadInto", "tagvalue/writer.go: Write", "tagvalue/reader.go: ReadInto", "examples/8-jsontotv/examplejsontotv.go", "examples/9-tvtojson/exampletvtojson.go"]}
{"id": "C43", "title": "A document built from a directory survives being saved and loaded", "statement": "If builder.Build or idsearcher.BuildIDsDocument succeeds on a directory whose file names fit on a line, tagvalue.Write saves the result and tagvalue.ReadInto loads it again as the same document up to order: the recorded verification code is still the one utils.GetVerificationCode computes from the loaded files, the document still describes its one package, every relationship resolves (spdxlib.ValidateDocument), and saving again gives the same bytes. Saved as JSON the document is loaded unchanged. The only thing the identifier search produces that tag-value text loses is white space around a concluded license, which an identifier comment without identifier causes.", "quantifier": "all directory trees, package names, configurations, ignore lists, file contents, hash functions printing hexadecimal digits, sorting algorithms; for JSON all indentations and both HTML settings", "why_tests_cant": "the examples build, save and look at one directory; that no file name, content or identifier comment yields a document that is saved as something else is a statement about every tree", "anchors": ["builder/build.go: Build", "idsearcher/idsearcher.go: BuildIDsDocument", "tagvalue/writer.go: Write", "tagvalue/reader.go: ReadInto", "json/writer.go: Write", "utils/verification.go: GetVerificationCode", "spdxlib/documents.go: ValidateDocument", "examples/3-build/example_build.go", "examples/4-search/example_search.go"]}
{"id": "C44", "title": "Loading, saving and loading again", "statement": "If a tag-value text is loaded (tagvalue.ReadInto) and its values are clean (no white space around one-line values, identifiers are words, names present), then saving the document (tagvalue.Write) succeeds, and loading the result gives the same document up to order, except for what the writer leaves out (zero range bounds, statements about files of packages that were not analyzed); from then on saving gives the same bytes. Each condition is needed: a text without creation information is loaded but cannot be saved; a snippet without its file is saved as a text that cannot be loaded; a one-line text block loses its surrounding blanks.", "quantifier": "all tag-value texts of all versions, all sorting algorithms", "why_tests_cant": "the tests read and write separate fixtures; that load and save compose is a statement about every input text", "anchors": ["tagvalue/reader.go: ReadInto", "tagvalue/writer.go: Write", "spdx/v2/v2_3/tagvalue/writer/save_document.go: RenderDocument", "examples/2-load-save/example_load_save.go"]}
{"id": "C45", "title": "Reading does not depend on the pieces in which the bytes arrive", "statement": "json.ReadInto and tagvalue.ReadInto give the same result for every io.Reader that delivers the same bytes, however it divides them among calls of Read and whether it returns io.EOF with the last bytes or after them; if the reader returns another error, or returns nothing more than 100 times in a row (tag-value), the load fails and never returns the document of the bytes that did arrive. The exception is a tag-value text ending in a line of exactly 65536 bytes without newline, which some readers make loadable and others not.", "quantifier": "all readers (all divisions of all texts into pieces, all points of failure), all buffer growth policies, all target versions", "why_tests_cant": "the tests read from files and byte buffers, which deliver a text in one or two pieces and never fail; the divisions of a text into pieces are exponentially many", "anchors": ["json/reader.go: ReadInto", "tagvalue/reader.go: ReadInto", "tagvalue/reader/reader.go: ReadTagValues"]}
{"id": "C46", "title": "What a failed write leaves behind", "statement": "If json.Write returns no error, all bytes of the document have been accepted by the io.Writer; if it returns an error because the writer refused them, what arrived is a beginning of the document which cannot be loaded unless it is complete up to the final newline. tagvalue.Write passes on the complete text when every call of the writer succeeds, but it never reports a failure of the writer: on a full disk it returns nil with nothing written, and a single failed call leaves a text that loads as a different document.", "quantifier": "all documents, all writers (any sequence of calls that accept, refuse or accept a part), all sorting algorithms, all indentations", "why_tests_cant": "the tests write to byte buffers, which never refuse; the failing call can be any of those a document needs", "anchors": ["json/writer.go: Write", "tagvalue/writer.go: Write", "spdx/v2/v2_3/tagvalue/writer/save_document.go: RenderDocument", "spdx/v2/v2_2/tagvalue/writer/save_document.go: RenderDocument", "spdx/v2/v2_1/tagvalue/writer/save_document.go: RenderDocument"]}
{"id": "C47", "title": "Truncated texts", "statement": "If a JSON text can be loaded, no proper beginning of it can, except one that lacks only white space after the document; in particular a saved document that lost bytes at its end is rejected. A tag-value text cut off at any byte either is rejected or gives the first elements of the document: packages, files, snippets, licenses, relationships, annotations, reviews and external references in the same order and unchanged, except that the last one of each kind may be incomplete. It is not recognised as truncated: a saved document cut between lines loads as a smaller one, and cut inside a line it may state something the document never said.", "quantifier": "all texts and all cut points (crash points of whoever wrote the file), all versions", "why_tests_cant": "the tests load complete files; the cut point ranges over every byte of every text", "anchors": ["json/reader.go: ReadInto", "json/writer.go: Write", "tagvalue/reader.go: ReadInto", "tagvalue/reader/reader.go: ReadTagValues", "tagvalue/writer.go: Write"]}
{"id": "C48", "title": "The same JSON in other words", "statement": "Loading a JSON document does not depend on how the JSON is written: not on the order of object members at any depth, the escape sequences used in strings and member names, the letter case of member names other than spdxVersion, or whether an absent part is left out or given as null. Two such texts load as the same document or are both refused, provided no object has two members of the same name. Where a list of elements is given twice, each element of the second list is read as if it followed on the element at the same place of the first. From version 2.2 on packages are the exception: the second list takes the place of the first. A part of the document (packages, creation information, a list of elements) that is given and then given again as null is as good as absent. Of the members of a document only those of one name have an order that matters. The exception are the values that the library parses itself (identifiers, references, creators, annotators, suppliers, originators): there the bytes count, so that two JSON texts for the same value can load as different documents.", "quantifier": "all JSON texts, all reorderings and respellings, all versions", "why_tests_cant": "the tests load a few files in one layout; the rewritings of a document are exponentially many", "anchors": ["json/reader.go: ReadInto", "spdx/v2/v2_3/document.go: Document.UnmarshalJSON", "spdx/v2/v2_3/package.go: Package.UnmarshalJSON", "spdx/v2/common/identifier.go: ElementID.UnmarshalJSON", "spdx/v2/common/creation_info.go: Creator.UnmarshalJSON"]}
{"id": "C49", "title": "YAML", "statement": "Loading YAML gives the document that the JSON form of the text describes, for whatever version the text names, and never panics. A document saved as YAML and loaded again is unchanged, and is the same as the one saved as JSON and loaded, in every version it can be loaded into, whenever the YAML library carries the document's JSON value over unharmed up to the order of members. The result does not depend on the pieces in which the text arrives; a reader that fails makes Read fail, and a writer that refuses makes Write return an error.", "quantifier": "all conversions between YAML and JSON, all texts, documents, versions, readers and writers", "why_tests_cant": "the tests compare a handful of documents; the claim is about every document and every behaviour of the reader and writer", "anchors": ["yaml/reader.go: Read", "yaml/reader.go: ReadInto", "yaml/writer.go: Write"]}
{"id": "C50", "title": "JSON: load, save, load", "statement": "A document loaded from any JSON text whose identifiers, references and agents are ordinary can be saved in any layout; loading what was saved gives the same document (except that from version 2.2 on each package is marked as stating whether its files were analyzed), and saving that gives the same bytes again, so a cycle of loading and saving never loses or changes anything after the first time. A text with missing identifiers is saved without an error as one that cannot be loaded, and an identifier with a character that JSON escapes grows in every cycle.", "quantifier": "all JSON texts that are loaded, all layouts, all versions", "why_tests_cant": "the tests load files the authors wrote; the claim is about every text, with unknown members, escapes, nulls, shortcuts and any order of members", "anchors": ["json/reader.go: ReadInto", "json/writer.go: Write", "spdx/v2/v2_1/document.go: Document", "spdx/v2/v2_2/document.go: Document", "spdx/v2/v2_3/document.go: Document", "spdx/v2/v2_3/document.go: UnmarshalJSON"]}
{"id": "C51", "title": "The text of a license report", "statement": "For a package with analysed files reporter.Generate writes exactly this text: three lines with the number of files with and without a concluded license and their sum, an empty line, a line for each license with its number of files, larger numbers first, and a line with their sum; in each of the two tables the numbers are aligned on the right, the longest after two blanks. From the text of a report one can tell how many files conclude each license. Generate returns no error and does not panic whatever the writer answers, and if the writer takes nothing any more after a refused call what has arrived is the beginning of the report. With a writer that accepts everything it does not panic whatever the licenses are.", "quantifier": "all packages in whose concluded licenses the bytes 0xff come in pairs, with no tab, line or page break outside of the pairs, all orders in which the map of licenses may be visited, all writers", "why_tests_cant": "The column widths depend on all counts, and there are arbitrarily many points at which a writer can refuse.", "anchors": ["reporter/reporter.go: Generate, countLicenses"]}
{"id": "C52", "title": "Writing one document from several goroutines", "statement": "If the external document references, files, packages and files of packages of a document are sorted by identifier, then any number of tag-value writes of it, for any version, and any other goroutines that only read the document can run at the same time: the document does not change, what a call has written at any time is the beginning of the text it writes on its own, and each call that gets enough turns ends with exactly that text. One completed write sorts these slices; a write changes the document exactly if one of them is not sorted; in that case two writes at the same time can lose elements from the document and from the text, without an error.", "quantifier": "all documents, any number of goroutines, all interleavings of their memory accesses, all sorting algorithms that leave sorted slices alone", "why_tests_cant": "The interleavings are unbounded in number and a lost element appears only under particular ones.", "anchors": ["spdx/v2/v2_3/tagvalue/writer/save_document.go: RenderDocument", "spdx/v2/v2_3/tagvalue/writer/save_package.go: renderPackage", "spdx/v2/v2_2/tagvalue/writer/save_document.go: RenderDocument", "spdx/v2/v2_1/tagvalue/writer/save_document.go: RenderDocument", "tagvalue/write.go: Write"]}
{"id": "C53", "title": "Arguments that are not documents", "statement": "convert.Document with a source reached through any number of pointers stores the document of the same version through a single pointer (or into a variable of interface type that holds a document of that version); a target that is no pointer is refused with an error; values of two different types are handed to the conversion library; nil values and pointers that end in nil, and pointers to pointers as target, panic. ReadInto with a value that is no pointer returns an error and reads nothing. tagvalue.Write writes documents through any number of pointers, writes nothing else, and for other values returns an error that names the type and shows the value, or its first 300 characters, if the value prints in at most 303 bytes or in at least 300 characters; otherwise the message may panic. Describe names the package and type of a value with a star for each pointer to it, and shows what it prints as, or the first 300 characters of that.", "quantifier": "all values, all chains of pointers, all contents, all texts printed, all capacities the runtime chooses", "why_tests_cant": "Any value can be passed, through any number of pointers, and the text of a message can be anything.", "anchors": ["convert/struct.go: FromPtr, IsPtr, Describe, limit", "convert/chain.go: Document", "tagvalue/writer.go: Write", "json/reader.go: ReadInto", "yaml/reader.go: ReadInto", "tagvalue/reader.go: ReadInto", "rdf/reader.go: ReadInto"]}
{"id": "C54", "title": "How often the RDF reader reads a node", "statement": "When an RDF graph without repeated statements and without conflicting IDs is read, the statements of a file or package are read exactly as often as there are ways from the document node or a snippet to it that enter no file, package or relationship twice, so each of its lists is repeated that often; the document has exactly one relationship for each way to a relationship and exactly one annotation for each way to an annotation. A file or package to which there is a single way has exactly the values its node states. The document can be exponentially larger than the graph.", "quantifier": "all graphs without repeated statements or root nodes whose IDs tell the elements apart, all iteration orders of Go maps, both readers (v2.2 and v2.3)", "why_tests_cant": "The number of ways through a graph depends on its whole shape and can be exponential in its size; tests use small graphs that are nearly trees.", "anchors": ["spdx/v2/v2_3/rdf/reader/parse_file.go: getFileFromNode", "spdx/v2/v2_3/rdf/reader/parse_package.go: getPackageFromNode", "spdx/v2/v2_3/rdf/reader/parse_relationship.go: parseRelationship", "spdx/v2/v2_3/rdf/reader/parse_snippet_info.go: getSnippetInformationFromNode2_3", "spdx/v2/v2_3/rdf/reader/parse_annotation.go: parseAnnotationFromNode", "spdx/v2/v2_2/rdf/reader (the same functions)"]}
{"id": "C55", "title": "Which RDF graphs are read", "statement": "An RDF graph in which no ID has two roles and no two elements share an identifier is read without an error exactly when it has one document node, every root node has one type, and each node that is reached says, taken by itself, something that can be read: known predicates only, values of known kinds, licenses, checksums, dates, references and pointer ranges that can be understood, and snippets whose last file is called by its identifier. Neither the order of the statements about different nodes, nor the way to a node, nor how often it is met, nor the iteration order of a Go map makes a readable graph fail or an unreadable one succeed. An unreadable graph whose root nodes have types gives an error, not a panic.", "quantifier": "all graphs whose IDs tell the elements apart, all iteration orders of Go maps, both readers (v2.2 and v2.3)", "why_tests_cant": "The reader walks the graph recursively with a cache and fills in partly read elements; whether a node is accepted could depend on what was read before it. Tests try a few graphs in one order.", "anchors": ["spdx/v2/v2_3/rdf/reader/parser.go: LoadFromGoRDFParser", "spdx/v2/v2_3/rdf/reader/parse_spdx_document.go: parseSpdxDocumentNode", "spdx/v2/v2_3/rdf/reader/parse_file.go: getFileFromNode", "spdx/v2/v2_3/rdf/reader/parse_package.go: getPackageFromNode", "spdx/v2/v2_3/rdf/reader/parse_relationship.go: parseRelationship", "spdx/v2/v2_3/rdf/reader/parse_snippet_info.go: getSnippetInformationFromNode2_3, setSnippetToFileWithID", "spdx/v2/v2_2/rdf/reader (the same functions)"]}
{"id": "C56", "title": "Which documents can be saved, and from which sources", "statement": "Writing a document as JSON never panics, and succeeds exactly if both ends of every relationship refer to something, every creator and annotator has a name, and every supplier and originator has a kind and a name or is NOASSERTION. Writing it as tag-value text succeeds exactly if it has creation information and no nil pointer to an element. Hence every document read from an RDF graph can be saved as tag-value text, and it can be saved as JSON exactly if the graph names every creator, annotator, supplier and originator and gives every relationship another end; a document read from tag-value text can be saved as JSON exactly if all those names are given. Being readable is not enough in either case. (A relationship that leads to NONE in RDF is saved as one to an element called NONE.)", "quantifier": "all documents and versions, both settings of HTML escaping, all indentations; all RDF graphs whose IDs tell the elements apart and all iteration orders of Go maps; all tag-value texts", "why_tests_cant": "Whether a value can be encoded depends on every reference, actor and pointer at any depth of the document; tests save a few complete documents and never those that the readers let through with parts missing.", "anchors": ["json/writer.go: Write", "tagvalue/writer.go: Write", "spdx/v2/common/identifier.go: DocElementID.MarshalJSON", "spdx/v2/common/creation_info.go: Creator.MarshalJSON", "spdx/v2/common/annotation.go: Annotator.MarshalJSON", "spdx/v2/common/package.go: Supplier.MarshalJSON, Originator.MarshalJSON", "rdf/reader.go: Read", "spdx/v2/v2_3/rdf/reader/parse_annotation.go: parseAnnotationFromNode", "spdx/v2/v2_3/rdf/reader/parse_relationship.go: parseRelationship, getReferenceFromURI"]}
{"id": "C57", "title": "The example programs that compare and count licenses", "statement": "The license comparison program prints, for each thing the first document is about in the order of identifiers, either that the first document has no such package, or that the second has none, or how many file names have a license in the first only, in the second only, different licenses in both, or the same in both; then what the second document is about and the first has no package for. The four numbers count every file name of the two packages once, exchanging the documents exchanges first and second, and a document compared with itself differs in nothing. The text depends neither on the order in which maps are visited nor on the sort. The report program prints the license report of each described package in document order, up to the first described package without analyzed files, which it names before ending. A package named by two relationships is compared twice, and the described packages after one without files are not reported. Started with the names of files, either program never breaks off: with the wrong number of arguments it prints its usage; it says of the first file that cannot be opened or parsed, or describes nothing, that this is so, prints nothing after that, and does not look at later files.", "quantifier": "all pairs of documents, all documents (for reports: whose concluded licenses have no tab, line or page break or byte 0xff), all orders of map iteration and sorts; all arguments and all files, in any pieces, ending or breaking off anywhere", "why_tests_cant": "The programs have no tests; the claims are about all combinations of packages, relationships and files.", "anchors": ["examples/6-licensediff/example_licensediff.go: main", "examples/5-report/example_report.go: main", "spdxlib/described_elements.go: GetDescribedPackageIDs", "licensediff/licensediff.go: MakePairs, MakeResults", "reporter/reporter.go: Generate"]}
{"id": "C58", "title": "The example programs that load a document from one file and save it to another", "statement": "A program that loads a document from one file and saves it to another (tag-value to tag-value, JSON to tag-value, tag-value to JSON, YAML to tag-value, tag-value to YAML) creates nothing before the document was loaded, creates nothing but the output, and says which of opening, loading, creating and saving failed. A document of any version is saved as a document of version 2.3 whose part that the output format carries can be loaded from the output again; running the tag-value program on its own output gives the same bytes. For JSON and YAML 'saved' means that the whole text has arrived. The programs that save JSON or YAML never break off; those that save tag-value text do so exactly at a nil pointer in a list of a document with creation information.", "quantifier": "all arguments, all file systems (contents in any pieces, inputs that break off, paths that cannot be created, files that refuse writes), all documents of all versions, all sort algorithms", "why_tests_cant": "There are no tests of the programs; tests would use a few files on a disk that works, and could not say what is left for every document and every failing call.", "anchors": ["examples/2-load-save/example_load_save.go:main", "examples/8-jsontotv/examplejsontotv.go:main", "examples/9-tvtojson/exampletvtojson.go:main", "examples/11-yamltotv/exampleyamltotv.go:main", "examples/12-tvtoyaml/exampletvtoyaml.go:main"]}
{"id": "C59", "title": "The example programs that build a document from a directory", "statement": "The program that builds a document from a directory, and the one that also searches for licenses, create nothing before the document was built, create nothing but the output, and never break off. The document is built exactly if the directory can be walked and every file in it that is not left out (what is in .git at the root or in a __pycache__ anywhere, .ignorefile at the root, .DS_Store anywhere) can be read. What is saved is read back as a document of version 2.3 with one package of the given name, whose files are, by path and checksums, exactly the files of the directory that are not left out, whose verification code is that of these files, and, after the search, whose files state the licenses mentioned in them.", "quantifier": "all arguments, all directory trees (with links, unreadable files and directories), all hash functions, all sort algorithms, all clocks, outputs that can or cannot be created and that take or refuse writes", "why_tests_cant": "There are no tests of the programs; a test would run them on one directory, and could not say that no file is missed or left out wrongly for every tree, or what is left on every failure.", "anchors": ["examples/3-build/example_build.go:main", "examples/4-search/example_search.go:main"]}
{"id": "C60", "title": "The example programs that load a document and print a portion of it", "statement": "The program that loads tag-value text prints, for every package the document describes, in the order of the document, either that its files were not analyzed, or that it has none, or its files in order, numbered from one, up to the fiftieth, with their licenses; it prints nothing about other packages; if nothing is described it says so. The programs for JSON, YAML and RDF print name, license and namespace of the document as they are in the file, and its version, which is 2.3 if the file has an older one. With the wrong number of arguments they print their usage; a file that cannot be opened, cannot be parsed or breaks off is reported and nothing else is printed. The programs for tag-value, JSON and YAML never break off, whatever is in the file; the one for RDF breaks off only where the file has an ID in two roles or a root without a type.", "quantifier": "all arguments, all files that can or cannot be opened, in any pieces, ending or breaking off anywhere, of all contents, all sort algorithms", "why_tests_cant": "There are no tests of the programs; a test runs them on one file and cannot exclude a crash on every other one, nor say what is printed for documents of every shape.", "anchors": ["examples/1-load/example_load.go:main", "examples/7-rdfloader/exampleRDFLoader.go:main", "examples/10-jsonloader/example_json_loader.go:main", "examples/13-yamlloader/exampleYAMLLoader.go:main", "spdxlib/described_elements.go:GetDescribedPackageIDs"]}
{"id": "C61", "title": "Saving, loading and converting do not change what the helper packages say", "statement": "Saving a document as tag-value text or JSON, loading it again, going from one format to the other, or converting it to another version changes neither the verdict of ValidateDocument, nor the result of GetDescribedPackageIDs, nor, for any of its packages, the license report of Generate (up to the order of its lines), the verification code of GetVerificationCode, or, if no two files of the package have the same name, what MakePairs finds when the package is compared with any other. With two files of the same name the comparison can change, since saving reorders the files.", "quantifier": "every document the format can represent, every version and pair of versions, every sorting algorithm, every digest function, every excluded name, every other package", "why_tests_cant": "ranges over all documents and over what a format drops or reorders; tests save a few documents and do not run the helpers on the result", "anchors": ["spdxlib/documents.go: ValidateDocument", "spdxlib/described_elements.go: GetDescribedPackageIDs", "reporter/reporter.go: Generate", "utils/verification.go: GetVerificationCode", "licensediff/licensediff.go: MakePairs", "tagvalue/writer.go: Write", "json/writer.go: Write", "convert/chain.go: Document"]}
