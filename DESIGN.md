# Formal model of spdx/tools-golang in Rocq (Coq 8.16.1)

This file is the plan and the trusted base. It is updated as the model grows.

## Method

* Source of truth: the Go text in /repo, read only, never executed.
* Everything is in `rocq/theories` (logical name `Verif`). The model is a set of
  total computable Gallina functions. Each definition cites the Go file and
  lines it models, and says where it simplifies.
* Model files contain no proofs, `*Facts.v` files contain the lemmas, `Spec*.v`
  files contain the small independent specifications, `Props*.v` files contain
  only the property theorems, each closed by `exact lemma`, with
  `Print Assumptions` below and a non-vacuity `Example` beside it.

## Modelling decisions

| Go | Model |
|---|---|
| `string` | Coq `string`, i.e. a list of bytes |
| `strings.TrimSpace` | byte-level: strips the UTF-8 encodings of the Unicode White_Space code points |
| `bufio.Scanner` | split at LF, drop one CR, 64 KiB token limit gives an error |
| `error` | `Err msg` in a result type `Ok / Err / Panic`; `Panic` stands for a nil dereference or a failed type assertion, so absence of panics is a theorem |
| pointers shared inside the parser state | arena (lists of objects) and indices, dereferenced when the parse ends |
| `sort.Slice`, `sort.Strings` | any function returning a sorted permutation (section variable); insertion sort as the instance used in examples |
| Go map | association list; theorems quantify over its order where Go randomises it |
| nil versus empty slice | identified |
| `int` | `Z`, with the int64 range check of `strconv.Atoi` |
| `io.Reader` | the complete byte string it delivers (no I/O error); in `Stream.v` the sequence of pieces its calls deliver, ended by io.EOF or an error, which `bytes.Buffer` and `bufio.Scanner` (modelled there) consume. A reader that returns nothing forever is not represented |
| `io.Writer` | the byte string written; in `Stream.v` a function that answers each call by accepting all bytes or by accepting some and returning an error |
| `encoding/json` | modelled on JSON values with raw string literals (`Json.v`): quoting, HTML escaping, struct tags, omitempty, member matching, null; the hooks (`MarshalJSON`, `UnmarshalJSON`) of the project are modelled on the literal bytes. The text level is in `JsonText.v`: scanning with the nesting limit, the range check of numbers, compact and indented printing. A hook called on an array or object sees it without the white space inside; a member that occurs twice is decoded into what the first left, but elements left in memory behind a slice that became shorter are not found again |
| `gordf` | a list of triples; its `FilterTriples` is filtering by equality |
| `crypto/sha1` etc. | an arbitrary function |
| directory tree | an inductive tree with files, directories and links |

## Properties

| Id | What is modelled | How proved |
|---|---|---|
| C01 | writer and reader, all three versions in one parameterised model | pair-level round trip per section, then composition with C03 |
| C02 | the parser state machine on an arena with explicit nil | invariant over all pair sequences |
| C03 | tokenizer and the printing of pairs; Unicode white space as a list of characters (SpecSpace.v) | induction over pairs; trimming takes exactly the white space at both ends |
| C04 | tokenizer | induction over lines; the disregarded lines characterised in terms of Unicode white space |
| C05 | tokenizer | induction over lines |
| C06 | parser | one-step lemma per state, induction |
| C07 | parser | invariant |
| C08 | parser | counting invariant |
| C09 | identifier rendering and parsing | direct, split lemmas |
| C10 | version dispatch of `ReadInto` | direct |
| C11 | writer | uniqueness of sorted permutations with distinct keys |
| C12 | writer returning also the mutated document | direct |
| C13, C14 | JSON hooks on literals | string lemmas, exact characterisation |
| C15 | `Document.UnmarshalJSON` relationship completion | fold invariant against a declarative spec |
| C16 | package hooks | direct, string lemmas |
| C17 | `GetVerificationCode` | permutation lemmas |
| C18 | `ShouldIgnore` | characterisation |
| C19 | `GetAllFilePaths` on trees | induction on trees |
| C20 | `ValidateDocument` | characterisation |
| C21 | `GetDescribedPackageIDs` etc. | characterisation |
| C22 | licensediff | partition lemmas |
| C23 | reporter | counting lemmas |
| C24 | builder | induction over the file list |
| C25 | idsearcher | string lemmas, induction |
| C26 | RDF license parser with the GREY/BLACK cache | well-founded measure, fuel adequacy |
| C27 | RDF helpers | characterisation |
| C28 | RDF file/package bookkeeping | invariant over the mutually recursive walk (RdfWalkFacts, RdfLoadFacts); refutations for packages listed twice and nodes read twice |
| C29 | writer and tokenizer | proved for newline-free values, refuted in general |
| C31 | struct codecs of all structures, document hooks, `marshal_document`, `read_value` | generic round trip of a struct codec over lenses, then structure by structure |
| C32 | `read_value` | members with unknown names are skipped |
| C33 | RDF nodes without elements inside | fold invariants over the statements; both directions against `SpecRdfDoc.v` |
| C34 | Termination and panics of the RDF reader | measure on grey nodes; outcome predicate threaded through every step (RdfWalkFacts, RdfLoadFacts) |
| C35 | The document read is the one the graph describes | ghost state giving for every record the node it came from and the statements read so far; invariant through the mutual recursion, then induction on reachability for completeness (SpecRdfContent, RdfContentFacts, RdfWholeFacts); public reader by composition with C40 (RdfRead, PropsRdfRead) |
| C36 | `read_value` against a specification of what each object describes (SpecJsonRead) | exactness of each codec; generic lemma for struct decoding with case-insensitive names, then structure by structure |
| C37 | `marshal_document` against entry lists with omission rules (SpecJsonWrite) | generic struct lemma (`fits`), uniqueness of sorted members, spelling relation proved equal to `escape` |
| C38 | `parse_tag_values`/`read_into` against the declarative reading of a whole document (SpecRead: `document_den`, `regular`) | invariant relating the parser's heap of packages, files and snippets to the segments read so far, then dereferencing; uniqueness of the reading |
| C39 | `parse_tag_values`/`read_into` against a declarative account of which inputs are documents (SpecAccept: `acceptable`) | per-section lemma that a step succeeds exactly when the tag is allowed, its value readable and its context present; induction over the pairs with the C38 invariant |
| C40 | `convert_document` over generic Go values and the type tables of the three versions; `tagvalue_read` (Convert, ConvertGo) | induction on paths and on values; compatibility and inclusion of the type tables are boolean checks evaluated by the kernel (ConvertFacts, ConvertBack, ConvertDoc); bridge to the records of the other models (ConvertRecord); which documents read from text have nothing empty in them (PropsFilled) |
| C41 | `parse_text`, `json_read_into`, `json_write`, `json_read` (JsonText), the options of `Write` (WriteOptions) against the grammar of RFC 8259 (SpecJsonText) | scanner sound and complete for the grammar by mutual induction, for any nesting limit, hence unambiguity; printers proved to print a text of the value, and to lay it out line by line (`rows`, `page`); literals, integers and names characterised; composition with C31, C36, C37 and C40 |
| C42 | `tagvalue_write`, `tv_to_json`, `json_to_tv` (Formats) against the carried parts `json_part`, `tag_part` (SpecFormats) | the writers print a document and its carried part alike, field by field; for tag-value text the sorted document is written with a second sorting algorithm that leaves it alone; then C01, C31 and C41 |
| C43 | `build`, `build_ids_document` followed by `render_document`/`read_into` or `json_write`/`json_read_into` | the built document is shown to have a fixed form, which is representable in both formats if names fit on a line (SpecSave); what the search finds consists of kept bytes, so it is ASCII without line feeds and "<"; the verification code depends only on the multiset of SHA1 values (C17), which reordering keeps; then C01 and C42 |
| C44 | `read_into`, `render_document`, `read_into`, on texts described by the pairs in them (SpecReload) | C38 gives the document of the pairs field by field; every field then satisfies what the round trip C01 asks for, since parts of clean values are clean; then C42 for what the writer leaves out |
| C45 | `json_read_from`, `tagvalue_read_from` on streams (`Stream.v`: buffer, scanner with its growing window) | the scanner's invariant (window inside the buffer, buffer at most 64 KiB) gives: the next token is the next line of what is in the window followed by what is still to come; induction over the calls left; then the line model of `TvReader.v` |
| C46 | `json_write_to`, `tagvalue_write_to` with an arbitrary writer | case analysis; the readable part of a refused JSON text by C47 |
| C47 | `json_read_into`, `read_into` on a text and its beginnings | JSON: the scanner stops at the closing brace of the object whatever follows, so the beginning and the whole have the same value. Tag-value: the pairs of the beginning are the first pairs of the whole, but for the value of the last; the segments of C38 inherit this |
| C48 | `json_read_into` on two texts whose values are restatements of each other (SpecRestate) | C36 describes the document read by the members of the objects; each description is shown to be insensitive to restatement, part by part; the two limits of the text layer (nesting, number range) are kept too |
| C49 | `yaml_read_into`, `yaml_write`, `yaml_read_from`, `yaml_write_to` (`Yaml.v`) with the two conversions of `sigs.k8s.io/yaml` as arguments | reduction to C36 and to the round trip C31/C41 in any order of members; what is asked of the conversions is a hypothesis about one JSON value (SpecYaml) |
| C50 | `json_read_into`, `json_write`, `json_read_into` on any JSON text that is loaded (SpecReloadJson) | every document that is loaded is shown to be writable where its identifiers, references and agents are; the round trip of C31 then gives it back but for the mark on packages |
| C51 | `generate_to` (`Report.v`) over a model of `text/tabwriter` (`TabWriter.v`) and a writer that may refuse any call | the lines the tabwriter holds are followed through its two flushes, also when the first is given up; the table of SpecReport is shown to be what they print, and to determine its entries |
| C52 | `write_prog` (`Concurrent.v`): RenderDocument as a program that reads and writes slice elements one at a time, sort.Slice as its insertion sort; `schedule` interleaves programs | alone: the in-place sort is followed through memory and shown to compute `isort`, so the program refines `render_document`. In parallel: a program that only reads keeps, at every step of any schedule, what it has written and what it has yet to write; on sorted slices the writers only read |
| C53 | `from_ptr`, `is_ptr`, `document`, `read_into_any`, `describe`, `limit`, `write_any` (`Args.v`) on values as reflection sees them; the conversion library, fmt and the capacities of slices are arguments | induction over the chain of pointers; a text of characters is decoded into exactly these characters |
| C54 | the RDF reader (`RdfReader.v`) with the ghost state of C35, extended by the list of statements followed so far; ways are an inductive predicate on statements (`SpecRdfWays.v`) | the list of statements equals a recursive traversal (`RdfVisitFacts.v`), which lists every way once: soundness, completeness and absence of repetitions by induction on the depth and on ways (`RdfWaysFacts.v`); exponential growth by a family of graphs (`RdfLadder.v`), shown to be readable with C55 |
| C55 | the RDF reader (`RdfReader.v`); readability is stated node by node (`SpecRdfAccept.v`) with the relations of C27 and C35, without the order of statements, the cache or the way to a node | no step fails on a readable graph: induction on the depth of the reader with the walk invariants (`RdfAcceptFacts.v`, `RdfReadableFacts.v`); conversely a document that was read shows that every node is readable, from the ghost state of C35 (`RdfAcceptedFacts.v`) |
| C56 | the writers (`JsonSpdx.v`, `JsonText.v`, `Formats.v`) on what the readers return (`RdfReader.v`, `TvParser.v`); the conditions are stated on the document (`SpecJsonWrite.v`, `SpecFormats.v`) and on the graph (`SpecRdfSave.v`) | the encoders of all struct types accept exactly the documents of C37 and do not panic (`JsonWriteOk.v`, `JsonWriteCalm.v`); the conditions are carried over to the graph with C35 and to tag-value documents with C07 (`RdfSaveFacts.v`) |
| C57 | the loops of `examples/6-licensediff` and `examples/5-report` over the loaded documents, with what they print (`Programs.v`), and their loading of the files (`ProgramFiles.v`); the specification says what is to be said of each thing a document is about, with numbers of file names having a property (`SpecPrograms.v`) | the described identifiers by C21, the numbers by C22, the reports by C51 (`ProgramsFacts.v`); the files by C58 and the absence of nil elements by C60 (`PropsProgramFiles.v`) |
| C58 | the five programs of `examples` that load a document from one file and save it to another (2, 8, 9, 11, 12): arguments, opening, loading in pieces, creating, saving to a file that may refuse, messages, breaking off (`Transfer.v`); the specification lists how a run can end and what a file holds (`SpecTransfer.v`) | every loaded Go value is a record (typed values, what the conversion leaves, `TransferFacts.v`), then C40, C42, C44, C45, C46, C49 |
| C59 | the programs of `examples` that build a document from a directory (3, 4): arguments, configuration, building, creating, saving to a file that may refuse, messages (`Building.v`); the specification says by names which files are left out, how a run can end and what the list of files is (`SpecBuilding.v`) | the patterns of the configuration by cases on the path (`BuildingFacts.v`), then C24, C25, C43, C46 |
| C60 | the programs of `examples` that load a document and print a portion of it (1, 7, 10, 13): arguments, opening, loading, the text that is printed up to where the program ends or breaks off (`Loaders.v`); the specification says what the text of a package is, by whether the document describes it, its files and their number (`SpecLoaders.v`) | the loops over packages and files by induction, the described identifiers through C24, the attributes through the conversion theorems of C41, and no nil element in what was read from text through the well-formedness of C05 and the paths of C41 (`LoadersFacts.v`, `PropsLoaders.v`) |
| C61 | the helpers (`SpdxLib.v`, `LicenseTools.v`, `Utils.v`) on a document and on what becomes of it; the specification only compares their results (`SpecAnswers.v`) | the helpers depend on a few fields of files, packages and relationships (`face`, `alike`), which the canonical order, the parts a format carries (C42) and the versions (C40) keep; `alike` is transitive (AnswersFacts, PropsAnswers) |
| C30 | sub-format printers and parsers | string lemmas |

No property of the list is inexpressible. Runtime behaviour that no model here
can show: memory exhaustion and the
internals of `encoding/json`, `sigs.k8s.io/yaml` and `gordf`.

## Trusted base

* Coq 8.16.1's kernel (`coqc`; `coqchk -o` agrees) and its virtual machine
  (`vm_compute`, used in examples and refutations on literals).
* `Print Assumptions`, printed below every theorem of every `Props*.v` file,
  answers "Closed under the global context" for all of them: no theorem rests
  on an axiom, neither ours nor the standard library's. `coqchk -o` lists
  `Coq.ssr.ssrunder.Under_rel.*` because a loaded standard-library file
  contains that sealed module; no theorem uses it.
* What is assumed of the outside world enters as the argument of a theorem
  (a sort function returning a sorted permutation, a hash function, an
  iteration order) or as a model of a library (first table above).
* That the model is a faithful reading of /repo. Each definition cites the file
  and lines it models; the code was never run. To check the reading, the model
  is run on the texts and values /repo's own tests use (`WriterTests.v`: the 94
  calls of the tag-value writers' tests; `ReaderTests.v`: 382 of the tag-value
  readers' tests, with 2274 conditions; `RdfTests.v`: 111 of the RDF readers' tests,
  with 529 conditions, and the RDF sample document; `ToolTests.v`: the tests of `utils`,
  `builder`, `idsearcher`, `spdxlib`, `licensediff`, `spdx/v2/common` and of the
  conversions, on the directories of `testdata` as trees, with tables of the hashes of
  their contents computed by the generator; `Validation.v`: the sample documents of
  `examples/sample-docs` in JSON and tag-value, the handwritten example documents,
  the fixtures and inline documents of the JSON tests), and gives what those
  tests expect. `tools/gen_samples.py`, `tools/gen_writer_tests.py`,
  `tools/gen_reader_tests.py`, `tools/gen_rdf_tests.py` and `tools/gen_tool_tests.py`
  turn the files of /repo into `Samples.v`, `SampleDocs.v`, `JsonTests.v`,
  `WriterTests.v`, `ReaderTests.v`, `RdfTests.v` and `ToolTests.v`. Left out of `ReaderTests.v` are tests of branches the parser
  cannot reach: twelve with no annotation or relationship open or with a tag never
  passed on, and six that call a section's function in another section's state.
  In `RdfTests.v` the triples come from the generator's own reading of the RDF/XML,
  and 158 conditions are left out that look at values the generator does not follow
  (mostly fields set through a pointer). These examples are tests of the model and not claims.

### Modelled

| Package of /repo | Model |
|---|---|
| `tagvalue/reader` | `TvReader.v` |
| `tagvalue/reader.go` | `TvParser.v`, `ConvertGo.v` |
| `convert/chain.go`, `From_*`/`To_*` of `v2_{2,3}/document.go` | `Convert.v` (with a model of `go-struct-converter`, whose source is not in /repo) |
| `spdx/v2/v2_{1,2,3}/tagvalue/reader` | `TvUtil.v`, `TvState.v`, `TvParser.v` (one model with a version parameter) |
| `spdx/v2/v2_{1,2,3}/tagvalue/writer`, `tagvalue/writer.go` | `TvWriter.v` |
| `spdx/v2/common`, `spdx/v2/v2_{1,2,3}/*.go` (structures, JSON hooks) | `Types.v`, `TvUtil.v`, `SpdxLib.v`, `JsonSpdx.v` |
| `json`, `json/marshal` | `Json.v`, `JsonSpdx.v`, `JsonText.v`, `WriteOptions.v` |
| `examples/8-jsontotv`, `examples/9-tvtojson` (without files and messages) | `Formats.v` |
| `examples/5-report`, `examples/6-licensediff` (the texts of errors left out) | `Programs.v` (from the loaded documents on), `ProgramFiles.v` (from the arguments on) |
| `examples/2-load-save`, `8-jsontotv`, `9-tvtojson`, `11-yamltotv`, `12-tvtoyaml` (YAML ↔ JSON as parameters) | `Transfer.v` |
| `examples/3-build`, `examples/4-search` (the texts of errors left out) | `Building.v` |
| `examples/1-load`, `7-rdfloader`, `10-jsonloader`, `13-yamlloader` (the texts of errors and of the creation information and the parsers of YAML and RDF/XML as parameters) | `Loaders.v` |
| `yaml` (the conversions of `sigs.k8s.io/yaml` are arguments of the theorems) | `Yaml.v` |
| calls of `io.Reader` and `io.Writer` by `json`, `yaml`, `tagvalue`, `tagvalue/reader` and the tag-value writers | `Stream.v` |
| `rdf/reader.go`, `spdx/v2/v2_{2,3}/rdf/reader` | `RdfConst.v`, `Rdf.v`, `RdfReader.v`, `RdfRead.v` |
| `utils`, `spdxlib`, `licensediff`, `reporter`, `builder`, `idsearcher` | `Utils.v`, `SpdxLib.v`, `LicenseTools.v`, `Report.v` (with `TabWriter.v`, a model of `text/tabwriter`), `Builder.v`, `IdSearcher.v` |
| `RenderDocument` as interleaved memory accesses | `Concurrent.v` (sequentially consistent memory, atomic element accesses; insertion sort as for slices of at most 12 elements, other algorithms by the assumption that they do not write to sorted slices; packages are distinct pointers) |
| `convert/struct.go`, the handling of arguments in `convert.Document`, `ReadInto` and `tagvalue.Write` | `Args.v` |

### Not modelled

* The conversion between YAML and JSON (`sigs.k8s.io/yaml`): which YAML text
  stands for which JSON text, and where it fails.
* The RDF/XML parser of `gordf` (the model starts from its triples).
* `spdx/v2/*/example`, `docs` and the test files.
* I/O: partial reads and writes by packages other than `json`, `yaml`, `tagvalue` and `reporter`,
  writers that break the contract of io.Writer, permissions beyond "unreadable", symbolic
  links followed by the operating system, concurrent changes of a directory.
* Error texts, except where a property needs to tell errors apart.

## Findings

Each `_refuted` theorem is a behaviour of the code that contradicts what its
user would expect; the witness is in the theorem.

* Tag-value reader. A second `SPDXID` of a package or file lists the element
  twice (`C38_two_identifiers_refuted`). A package with an empty name is merged
  with the next one and escapes the identifier check
  (`C38_empty_name_refuted`, `C39_empty_name_refuted`). Of two snippets with one
  identifier only the last is kept (`C38_same_snippet_refuted`). An empty list of
  pairs gives a nil document without an error (`C02_parse_empty_refuted`). Header
  tags after the creation information are refused; 2.1 also refuses
  `DocumentComment` there. With two `SPDXVersion` lines the first selects the
  parser and the last is recorded. The sample document
  `examples/sample-docs/tv/SPDXTagExample-v2.2.spdx` is refused: it has a
  `SnippetSPDXID` in a package section (`Validation.v`, `tv_samples`).
* Tag-value writer. Fields not wrapped in `<text>` can carry a line break and so
  inject tags (`C29_any_value_refuted`). Surrounding white space is lost
  (`C01_untrimmed_refuted`). `Document.Snippets` and the annotations of files and
  packages are not written (`C01_document_snippets_refuted`). Ranges starting or
  ending at 0 are dropped. A special identifier on the left of a relationship is
  written but cannot be read back. Several excluded files are joined by a comma
  but read as one.
* JSON. The default writer escapes `&`, `<`, `>` and the hook types do not undo
  it (`C14_html_refuted`). Empty identifiers are written as `SPDXRef-`, which is
  refused on reading (`C13_empty_refuted`). An identifier that already has the
  prefix does not survive (`C13_prefixed_refuted`). A reference, supplier or
  originator read into a variable in use keeps parts of what was there
  (`C13_reused_refuted`, `C14_reused_refuted`), so that a member given twice can become a
  reference that is nowhere in the text (`C48_mixed_refuted`). Relationship completion
  identifies relationships by a string in which different ones collide
  (`C15_collision_refuted`). Reviews, snippets of files and their attribution,
  and the element of an annotation are not part of the JSON form. A number out of
  the range of a float64 makes a document unreadable even in a member that is
  otherwise ignored (`C41_large_number_refuted`). `Indent` accepts strings that are
  not white space, and then the output is no JSON (`C41_indent_refuted`). With the
  default escaping a creator named `Jane <jane@x.org>` comes back changed; with
  `EscapeHTML(false)` it comes back as it was (`C41_escape_refuted`).
  Identifiers spelled with escape sequences are taken literally, so that texts for
  one JSON value load as different documents (`C48_spelling_refuted`); where a
  creator is expected any object is accepted, by its bytes (`C48_order_refuted`). Of two
  members with one name the second does not replace the first: its elements take over
  what the first says at the same place (`C48_repeated`, `C48_repeated_refuted`). A second list
  of packages replaces the first, except in version 2.1 (`C48_packages`,
  `C48_packages_21`).
  A null after it takes the part back (`C48_taken_back`). Members of
  other names may stand between (`C48_moved`).
* Formats. Going from tag-value text to JSON drops snippets inside files, the targets of
  annotations and reviews without an error (`C42_lossless_refuted`); a null in an
  array of packages, files, licenses, relationships (2.1), annotations, external references or
  artifacts is loaded from JSON as a nil pointer, is written back as null, and makes
  `tagvalue.Write` panic (`C42_panics_refuted`, `C42_nil_pointer`).
* Saving. An identifier comment without identifier beside another one gives the concluded
  license " AND MIT"; saved as tag-value text it is loaded as "AND MIT"
  (`C43_search_tag_trimmed_refuted`).
* Load and save. A text without creation information is loaded but cannot be saved
  (`C44_save_refuted`); a snippet without `SnippetFromFileSPDXID` is loaded and saved as a text
  that cannot be loaded (`C44_load_refuted`); blanks inside a one-line text block are lost
  (`C44_clean_refuted`).
* Readers and writers. `tagvalue.Write` drops every error of its writer and
  returns nil although nothing, or a text that loads as another document, has
  been written (`C46_tag_silent`, `C46_tag_refuted`); `reporter.Generate` drops
  them too (`C51_error_refuted`). Whether a tag-value text that ends in a 65536 byte line without
  newline can be loaded depends on whether the reader returns io.EOF with the
  last bytes or after them (`C45_tag_refuted`). A truncated tag-value file is
  loaded without complaint, and may state what the original does not
  (`C47_tag_refuted`).
* Concurrency. Writing tag-value sorts the caller's slices in place, so two writes of the same
  unsorted document race; an interleaving in which a file is lost from the document and from one
  of the two texts is `C52_unsorted_refuted`. After one completed write, further ones only read.
* Arguments. `convert.Document` and `ReadInto` with a pointer to a pointer to a document of the
  version read panic inside reflect (`C53_convert`), as do nil pointers. The error message of
  `tagvalue.Write` for other values cuts `[]rune(text)[:300]` after a test on bytes, so a text of
  more than 303 bytes but fewer than 300 characters panics or gains NUL characters
  (`C53_limit_panics`, `C53_write_panics_refuted`).
* Reports. A license with a tab is printed like another one (`C51_readable_refuted`), one with a
  line break adds lines of its own choice (`C51_lines_refuted`), and if the writer then refuses a
  single call Generate panics inside `text/tabwriter` (`C51_panics_refuted`). After a license with
  a single byte 0xff the rest of the table is not aligned (`C51_text_refuted`).
* Example programs. `examples/5-report` ends at the first described package without analyzed files
  and says nothing about the ones after it (`C57_report_all_refuted`); `examples/6-licensediff`
  compares a package once for each relationship that describes it (`C57_once_refuted`).
* The programs that load and save empty the output before they save: a document that cannot
  be saved in its own place is lost (`C58_in_place_refuted`); those that save tag-value text
  say "saved" whatever happened to what was written (`C58_saved_tag_refuted`); and they break
  off, with the output emptied, at a null in a JSON list (`C58_null_refuted`) or at an empty
  license in 2.2 text (`C58_empty_license_refuted`). The paths that `examples/4-search` asks not to be
  searched are searched (`C59_search_ignored_refuted`); a program that builds from a directory
  lists its own earlier output there (`C59_again_refuted`). The programs that print the attributes of a
  document print version 2.3 for a document of an older version (`C60_version_refuted`); the one for RDF
  ends with a panic where the RDF reader does (`C60_rdf_breaks_off_refuted`).
* Saving. A tag-value document with `Creator: Person:` is read but cannot be saved as JSON
  (`C56_text_json_refuted`).
* RDF. A described package is listed twice (`C28_packages_once_refuted`); a node
  read again duplicates its lists (`C28_read_once_refuted`), and it is read again for every way
  that leads to it (`C54_ways`): the 7 relationships of the sample document
  `SPDXRdfExample-v2.2.spdx.rdf` become 29, and its package lists each of its 3 files 7 times,
  and a graph of 6k + 13 statements can give 2^k relationships (`C54_exponential`);
  a node used in two roles makes a type assertion panic (`C34_no_panic_refuted`), and so does a root
  without `rdf:type` (`C34_untyped_root_panics`). License sets lose their brackets
  (`C26_brackets_refuted`); `+` and exceptions are dropped (`C26_operators`).
  `NONE` and `NOASSERTION` become element identifiers
  (`C27_special_reference_refuted`), which are saved as `SPDXRef-NONE` (`C56_none_refuted`). An
  annotation without annotator or a relationship without its other end is read but cannot be saved
  as JSON (`C56_rdf_json_refuted`). Only nine checksum algorithms are known
  (`C27_new_algorithms_refuted`). The purpose URI of the specification is not
  recognised (`C27_purpose_uri_refuted`).
* Conversion. From 2.2 to 2.3 a package without verification code gets an empty one
  (`C40_no_code_refuted`). If the library takes a pointer to a zero value for nil, an
  entry with nothing in it becomes a nil pointer (`C40_empty_entry_refuted`), and Read
  loses the creation information of a 2.2 text whose `Created` tag has no value
  (`C40_empty_created_refuted`).
  Converting down loses the newer fields (`C40_back_and_forth_refuted`).
* JSON, loading and saving. `{"spdxVersion":"SPDX-2.3"}` is loaded and saved without
  an error, as a text that cannot be loaded (`C50_missing_refuted`). An identifier
  with `<` in it is longer after each loading and saving (`C50_growing_refuted`).
* Helpers. An empty ignore pattern ignores everything
  (`C18_nonempty_patterns_refuted`). Different file sets can have the same hash
  input (`C17_sensitive_any_length_refuted`). `GetDescribedPackageIDs` returns
  identifiers of non-packages (`C21_package_ids_refuted`). `ValidateDocument`
  refuses `NONE`/`NOASSERTION` and ignores the document part of references
  (`C20_strict_refuted`). licensediff misplaces files with empty licenses
  (`C22_presence_refuted`). The builder does not check the name it puts in an
  identifier (`C24_identifier_syntax_refuted`). idsearcher can produce an empty
  operand (`C25_no_empty_operand_refuted`). If two files of a package have the same name,
  saving the document changes which license is compared (`C61_names_refuted`).
