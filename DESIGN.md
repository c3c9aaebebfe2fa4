# Formal model of proycon/folia-rust in Rocq (Coq 8.16.1)

The library code under `/repo/src` is modelled function by function in `rocq/theories/`.
Properties are listed in `properties.jsonl`; `MANIFEST.json` maps each to its theorems.

## Layout

| file | models | content |
|---|---|---|
| `Base.v` | std types | `res` (Ok / Err kind / Panic / OutOfFuel), string maps, list updates, decimal numbers, blank test |
| `Types.v` | `types.rs` | generated from the source by `tools/gen_types.py`: enums, tag tables, groups |
| `SpecTable.v` | `specification.rs` | generated: the `Properties` table |
| `Attrib.v` | `attrib.rs` | attributes, `parse`, `as_str`, `to_string` |
| `Element.v` | `element.rs` (ElementData) | element values, builders, attribute and data operations |
| `Store.v` | `store.rs`, `elementstore.rs` | generic store and string store |
| `Metadata.v` | `metadata.rs` | declarations, class stores, processors, metadata |
| `Document.v` | `document.rs`, `element.rs` (ReadElement) | document state, declare, encode, add, attach, detach, processors, accessors |
| `Select.v` | `query.rs`, `select.rs` | queries, selectors, iterators, ancestors |
| `DocOps.v` | `document.rs` | post_add, add_children, add_element(_to), annotate, validation |
| `Text.v` | `text.rs` | text extraction |
| `Xml.v` | quick-xml (dependency) | XML events, what a reader sees of written events |
| `XmlText.v` | quick-xml 0.22 (dependency), `serialiser.rs` (`to_xml`), `document.rs` (`from_str`) | the same on bytes: writer with indentation and escaping, reader with attributes, entities, namespaces and checking of end tags |
| `Parser.v`, `Serialiser.v` | `parser.rs`, `serialiser.rs` | both directions |
| `Lint.v` | `bin/folialintr.rs` | the linter: load with the default properties, print what is saved |
| `Display.v` | `types.rs`, `attrib.rs`, `element.rs`, `metadata.rs` (fmt::Display) | formatting with `{}` |
| `History.v` | – | operations a user can perform (`op`), `reachable` documents: `Document::new` or loading, then any operations |
| `Spec.v`, `SelSpec.v`, `TextSpec.v`, `SerSpec.v`, `ParseSpec.v`, `WellSpec.v`, `RoundSpec.v`, `SaveSpec.v`, `SpanSpec.v`, `ResaveSpec.v`, `QuietSpec.v`, `XmlSpec.v`, `LegalSpec.v`, `LintSpec.v` | – | small specifications used in theorem statements, independent of the model's helpers: links, careful use (`tidy`), walks over the tree, text, the XML of an element, the tree a list of events describes, what a loadable body and an element that can be added look like, what a tag shows, the same tree, what can be saved and loaded, the same file, well-formed XML |
| `Examples.v` | – | the example document used to show that hypotheses are met, and checkers that prove it meets them |
| `*Facts.v`, `StoreThms.v`, `NoPanic.v`, `Returns.v`, `SpanLinks.v`, `LoadOk.v`, `AddOk.v`, `SaveOk.v`, `LoadMono.v` (loading with more fuel gives the same), `RoundProv.v`, `RoundTree.v`, `TextRound.v`, `QueryRound.v`, `XmlWell.v` | – | lemmas and proofs |
| `Props*.v` | – | the property theorems, with `Print Assumptions`, examples that meet the hypotheses and refutations |

Which properties are where: `PropsStore` C01–C11, `PropsEncode` C12–C15, C17, `PropsPanic` C16, `PropsLinks` C18–C23,
`PropsSelect` C24–C28, C31, C33–C36, C60, C61, `PropsQuery` C29, C30, C32, `PropsText` C37–C41, C62 (and `PropsTextTree` C38 for the whole tree), `PropsTypes` C42–C46,
`PropsValid` C47–C50, `PropsSer` C51, C52, `PropsParse` C53, C58, `PropsTree` C54, `PropsRefs` C54 and C55 (references), `PropsRound` C55, C56, C63, `PropsLoad` C57,
`PropsProv` C59, `PropsWell` C64, `PropsAdd` C65, `PropsSave` C66, `PropsSpans` C67, `PropsResave` C68, `PropsKept` C69, `PropsFound` C70, `PropsQuiet` C71, `PropsAnswer` C72, `PropsDisplay` C73, `PropsBytes` C74, `PropsWellFormed` C75 and C76, `PropsLegal` C75 with hypotheses on the document only (`LegalSpec`), `PropsCut` C76 on bytes, `PropsNamespace` C77, `PropsLint` C78, `PropsNew` C79, `PropsCutOff` C57 on files that were cut off.

## Conventions

* `Result` stays data: `res A = Ok a | Err kind | Panic | OutOfFuel`. Error messages are dropped, the error
  variant is kept. `Panic` models `unwrap`/`expect`/`unreachable!`. `OutOfFuel` only exists in functions whose
  Rust counterpart may loop for ever; theorems either exclude it by showing that enough fuel exists or hold for
  all fuel.
* `&mut self` functions return the new document together with the result, because the Rust code can return
  `Err` after partial changes.
* Keys are `nat`; the range of the Rust key type is checked where Rust checks it (`try_from`), in `N`.
* `HashMap<String,V>` is an association list with replace-on-insert. Where Rust iterates over a HashMap the
  model takes the order from the list and theorems quantify over permutations.
* Strings are Coq strings (UTF-8 bytes).
* `f64` is opaque (64-bit pattern in `N`); its `from_str`/`to_string` are parameters (record `oracle`) of the
  parser and serialiser, never axioms. Date-times are modelled for years 0..9999 with the fixed format used by
  the code.
* Random processor IDs, environment and clock are inputs.

## Plan per property

| id | modelled by | proof plan |
|---|---|---|
| C01,C02,C04,C05 | `Store.store_add`, instances for three stores | induction over lists of additions |
| C03 | index invariant over operation histories; `post_add` drops IDs of layers, so the full claim is refuted with a witness and proved for histories without set-less identified layers | invariant |
| C06 | `Store.sstore_add` | invariant: index and items are inverse |
| C07 | `Metadata.index_id` | type names contain no '/', prefix argument |
| C08–C11 | `Document.declare` | case analysis + declaration-store invariant; C11 refuted for already indexed declarations, positive for new ones |
| C12–C17 | `Document.encode`, `doc_add`, accessors | invariant "encoded and resolvable", monotonicity relation between documents; C16 refuted by mixed attributes and `feat` in elements without annotation type, positive part under a guard |
| C18–C23 | `attach_element`, `detach_element`, `add_children`, `add_element_to` | link invariant over histories; cycles refuted for unguarded attach |
| C24–C28 | `Select.step`, `Select.next`, `Select.collect` | refinement of the stack machine to a recursive traversal relation |
| C29–C32 | `from_query`, `matches` | injectivity of interning; C31/C32 refuted in general, positive restricted |
| C33–C36 | getters, `ancestor_next`, `common_ancestors` | induction on chains; C35 refuted for three keys, proved if the chains share a matching element |
| C37–C41 | `Text.text_by_key` | fuel monotonicity + rank; join specification; C39 refuted |
| C42–C46 | tables, `Attrib` | computation over all constructors + string lemmas |
| C47–C50 | `check_element_addable`, `annotate` | case analysis; C49, C50 refuted with positive parts |
| C51,C52 | `Serialiser.xml_elements` | simulation of the depth loop by recursion |
| C53–C58 | `Parser` | induction over event trees; panics and losses refuted with witnesses, positive on a guarded class |
| C54 | `doc_xml`, `reread`, `parse_document` | what the reader sees of the written events are the nodes of the tree (`RoundTree.written_read`), then C53; sets and processors: the declarations stay as they are while the body is read (`RefFacts.content_frozen`); refuted for content XML cannot hold |
| C59 | `add_processor` | induction over nesting |
| C60 | `Select` with the inclusive flag | refinement to the walk with the start element in front |
| C61 | `Select.next` | the empty stack is a fixpoint |
| C62 | `Text.text_by_key` on text content and markup | concatenation of fragments, by induction on the tree |
| C63 | document ID and version through a round trip | case analysis on the root tag |
| C64 | `parse_document` on a well-formed body (`WellSpec.well_formed`) | induction over the nodes: no step reports an error (`LoadOk.fine`), none panics (C57), so each succeeds with enough fuel; room for declarations is an invariant |
| C65 | `add_element`, `add_element_to`, `annotate`, `annotate_span` on an `addable` element (`WellSpec.v`) | induction over the element value: no step reports an error (`AddOk.fine_*`), it returns without panic (C16), so it succeeds with enough fuel; nested features refuted |
| C66 | `doc_xml` then `parse_document` on any document made with care (`SaveSpec.v`) | the metadata that is written is read forwards (`SaveOk.metadata_goes`), the body that is written is well formed in the sense of C64, the tree is that of C54; each hypothesis has a witness that it is needed |
| C67 | `post_add` as called by `add_element_to`, `add_children`, `annotate` and the parser; `SpanSpec.v` | invariant `tied`: a list of (word reference, span, word) from which all back references can be read off; while parsing, an open element counts as child of the next open element; refuted for detached and attached word references and for files that are cut off |
| C68 | `doc_xml`, `parse_document`, `doc_xml`; `ResaveSpec.v` | what C54 says of each element determines its tag (`ResaveFacts.tag_same`); the words that are part of a span annotation are the same ones, by C67 for both documents and counting the elements; then induction over the XML of the tree; declarations, processors and metadata from C55 and C56; refuted where the hypotheses fail |
| C69 | `element_text`, `doc_text` on a document and on what `parse_document` makes of its XML | simulation of `text_by_key` by induction on the fuel, over pairs of elements of the trees of C54 (`TextRound.text_same`); a word reference finds the counterpart of its word because word references of a loaded document resolve (C67), the IDs of a loaded document come from the tree, and each element is found by the ID of its tag; refuted for requests that only the first document knows |
| C70 | `from_query`, `select_by_key`, `get_elements` on a document and on what `parse_document` makes of its XML | the walk of C24 restricted to elements goes through the trees of C54 in step (`QueryRound.own_pairs`); the criteria of C29 hold for an element if and only if they hold for its counterpart, because it has a class if its tag shows one; references to spans do not interfere with other types, as they all lead to span annotations (C67); refuted for a set without class and for the order of spans |
| C71 | `add_element_to`, `annotate`, `annotate_span`, then `text_by_key` | `QuietSpec` says when an addition is not read (`unread`), cannot change a delimiter (`shielded`) and is not waited for (`nothing_awaits`); induction on the fuel: both texts agree up to running out of fuel (`QuietFacts.text_stays`); refuted without each condition |
| C72 | every `op` except `OAttach`/`ODetach`, then `from_query`, `select_data_by_key`, `get_element(s)`, `get_annotation(s)` | `AnswerFacts.widens`: elements keep type, attributes, parent and content, and everything appended or new refers only to new keys; preserved by adding (nested links are made before attaching, so they reach only new spans); induction over the walk, then `chosen`/`once`; refuted for a word reference added by itself |
| C73 | `Display.*_fmt`, `formatted` (the panic of `format!` on fmt::Error) | case analysis and C37, C42, C43, C45; refuted for attribute types (the recursion of `fmt` has no end, for all fuel), for elements without text and for encoded attributes |
| C74 | `XmlText.write_text`, `read_text`, `doc_bytes`, `doc_from_bytes` | `unescape (escape s) = s`; every written tag is read back and leaves the rest of the bytes (`read_start`, `read_empty`, `read_end`, …); induction over the nesting of the events with the stack of open tags (`XmlTextFacts.read_body`), fuel by the number of bytes (`read_fuel`); then C66 on bytes |
| C75 | `doc_bytes`, `write_text` | `XmlSpec` gives the grammar of XML 1.0 that is needed; induction over the nesting (`XmlWell.content_ok`); refuted for control characters, `--` in comments and double attributes |
| C76 | `doc_from_bytes` | every phase of the parser returns only after the tag it waits for, by induction over the events; on bytes, a file that was cut off gives the events of the whole file up to the cut and at most one more (`PropsCut.read_cut`, by induction over the bytes); refuted for cuts in the body |
| C77 | `doc_from_bytes` | every piece of the bytes that the reader works on occurs in the file, so every bound URI does (`PropsNamespace.read_occurs`); the parser returns only after a FoLiA start tag (C76) |
| C78 | `Lint.lint` | induction over the files; a saved file by C68 with the default properties, C74 for its bytes and `LoadMono.bytes_mono` for the fuel; refuted for files that panic |
| C79 | `DocOps.doc_new`, `apply_properties`, `apply_declares` | C59 for the processor; `ClassFacts.declares_ok` for success; for the content an invariant over the list of declarations (`asked`), each step by the cases of `declare` |
| C57 (cut off) | `XmlText.read_loop` on a file and on the beginning of it | what is read of the beginning is a prefix of what is read of the whole and at most one event that is no start tag (`read_cut_closed`, induction over the bytes); refuted for a cut within a tag |

## What is modelled and what is not

Modelled, every function: `attrib.rs`, `document.rs`, `element.rs`, `elementstore.rs`, `store.rs`, `metadata.rs`, `query.rs`,
`select.rs`, `text.rs`, `parser.rs`, `serialiser.rs`, the tables of `types.rs` and `specification.rs` (generated from the
source by `tools/gen_types.py`, so a change of a table changes the model). Trivial accessors and builders
(`items`, `index`, `len`, `is_empty`, `with_*` of `Processor`, `DocumentProperties`, `TextParameters`) are record fields and
record constructors in the model.

Not modelled:

* file I/O (`Document::from_file` is `from_str` on the content, plus the filename), the command line of `src/bin/folialintr.rs` and the words of its messages, `src/bin/foliabenchmarkr.rs`;
* `error.rs` beyond the kinds of error; messages and `Debug` output;
* quick-xml: `Xml.v` says which events the reader delivers for the events written (`reread`: text runs are joined,
  indentation is inserted before tags that do not follow text, attribute values and text are unescaped, comments are not).
  `XmlText.v` models its writer and reader on bytes, and C74 proves that they deliver these events. Not modelled of it:
  encodings other than UTF-8 (a string is its bytes), and the buffers of the reader;
* `Processor::this_library` and `autofill` (random ID, environment, clock): any processor value is allowed as input;
* memory exhaustion and stack overflow (`Display for AttribType` calls itself for ever: `Display.v` says it returns nothing with any fuel);
* code that is commented out in the source (`decode`, `get_mut_element`);
* concurrency: the library has none.

Simplifications are stated in the comment of the definition that makes them. The main ones: `f64` is a bit pattern with
printing and parsing as parameters; date-times cover years 0 to 9999; a `HashMap` is an association list.

## Trusted base

* Coq's kernel (8.16.1) and its standard library. No axioms of our own; no library outside the standard one is used.
* `Print Assumptions` stands below every property theorem and prints "Closed under the global context" for each: no theorem
  depends on an axiom. The axioms that `coqchk` lists for the loaded libraries are the seven of `Coq.ssr.ssrunder.Under_rel`
  (`Over_rel`, `Under_rel_from_rel`, `over_rel`, `over_rel_done`, `Under_rel`, `Under_relE`, `under_rel_done`), fields of a
  module type of the standard library that are loaded with `lia`'s dependencies; no theorem uses them.
* The model is written by hand from the source (except the generated tables). Each definition cites the lines it models. That
  it agrees with the Rust code is not proved; it was checked by reading, and by editing it the way a bug would (`seeded/LOG.jsonl`).
  Some of these edits were tested in a scratch copy where most proofs were skipped, by deriving a contradiction from the theorem;
  where other skipped lemmas were used as well, the note of the entry names them, and the entry shows only that the theorem and
  those lemmas do not all hold of the edited program.
* The model of quick-xml in `XmlText.v`, written from knowledge of its release 0.22: its source is not in the sandbox.
* `Spec.v` and the other specification files say what the English properties mean.
