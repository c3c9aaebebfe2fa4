{"id": "C01", "title": "A key returned by add retrieves that item for ever", "statement": "When add_element / add_declaration / add_provenance returns a key for an item that was not in the document yet, looking that key up returns the item (with its key filled in), and keeps returning it whatever items are added afterwards.", "quantifier": "all stores, all items, all later sequences of additions", "why_tests_cant": "a test checks one key after a few additions; the claim is about every key after any history", "anchors": ["src/store.rs: Store::add, Store::get", "src/document.rs: add_element, add_declaration, add_provenance"]}
{"id": "C02", "title": "Keys are dense and never reused", "statement": "The key handed out for a new item is the number of items stored before it; two different additions of new items never get the same key, and no addition changes or removes an item stored earlier.", "quantifier": "all stores and all sequences of additions", "why_tests_cant": "aliasing of keys only shows up in particular histories", "anchors": ["src/store.rs: Store::add, Store::len, Store::get"]}
{"id": "C03", "title": "Lookup by ID is exact and never panics", "statement": "get_element_key_by_id / get_processor_key_by_id / get_declaration_key_by_id return a key exactly for IDs that were added, the key always resolves to a stored item carrying that ID, and the by-ID getters never hit their internal unwrap.", "quantifier": "all documents reachable by any sequence of operations, all ID strings", "why_tests_cant": "the index and the item vector are separate structures that every operation must keep in step", "anchors": ["src/store.rs: Store::id_to_key, Store::get_by_id", "src/document.rs: get_element_key_by_id, get_element_by_id, post_add"]}
{"id": "C04", "title": "Adding an item whose ID is already present is a no-op", "statement": "If an (encoded) item with the same ID is already stored, add returns the existing key and leaves the store exactly as it was.", "quantifier": "all stores, all items with an ID already present", "why_tests_cant": "must hold for each store state, not only right after the first insertion", "anchors": ["src/store.rs: Store::add, Store::get_key"]}
{"id": "C05", "title": "Key space exhaustion is reported, never wrapped", "statement": "Adding a new item succeeds exactly while the number of stored items still fits the key type (u16 for declarations, processors and subsets, u32 for elements and classes); at the limit add returns an error and the store is unchanged. No key is ever truncated or aliased.", "quantifier": "all store sizes, in particular the 65536 / 4294967296 boundary", "why_tests_cant": "the boundary needs billions of insertions to reach", "anchors": ["src/store.rs: Store::add, StringStore::add (Key::try_from)"]}
{"id": "C06", "title": "Class, subset and subclass interning is a bijection", "statement": "Encoding a string and decoding the key gives the string back, encoding the same string again gives the same key, different strings get different keys, and later encodings never change the meaning of an earlier key.", "quantifier": "all sequences of strings added to one declaration", "why_tests_cant": "injectivity and stability quantify over pairs of strings and histories", "anchors": ["src/store.rs: StringStore::add, get, get_key", "src/metadata.rs: Declaration::add_class, add_subset, add_subclass, get_class, class_key"]}
{"id": "C07", "title": "Declaration identity is the pair (annotation type, set)", "statement": "The identifier under which a declaration is indexed is different for different (annotation type, optional set) pairs, so two declarations are merged only if both agree.", "quantifier": "all annotation types and all set strings, including strings that contain slashes or look like other types", "why_tests_cant": "injectivity over all strings", "anchors": ["src/metadata.rs: Declaration::index_id"]}
{"id": "C08", "title": "declare returns a declaration for what was asked", "statement": "A successful declare(type, set) returns the key of a stored declaration of that type; if a set was given the declaration has that set; if none was given it is either the set-less declaration or the only declaration of the type. Declaring again returns the same key and adds no declaration.", "quantifier": "all documents, annotation types, sets, aliases and formats", "why_tests_cant": "depends on the combination of all declarations made before", "anchors": ["src/document.rs: declare"]}
{"id": "C09", "title": "Declarations are stable", "statement": "No operation changes the annotation type or the set of a stored declaration, removes a declaration, or takes classes away from it; a key obtained from declare keeps meaning the same (type, set).", "quantifier": "all histories of operations", "why_tests_cant": "every mutating operation must respect it", "anchors": ["src/document.rs: declare, encode", "src/metadata.rs: Declaration"]}
{"id": "C10", "title": "The notions of default declaration agree", "statement": "default_mask()[k] is true exactly when get_default_key(type of k) is k, that is exactly when k is the only declaration of its type; get_default_set returns the set of that declaration.", "quantifier": "all declaration stores", "why_tests_cant": "two independent implementations (counting and filtering) have to agree on every store", "anchors": ["src/metadata.rs: DeclarationStore::default_mask, get_default_key", "src/document.rs: get_default_set"]}
{"id": "C11", "title": "The active processor is associated with what is declared", "statement": "After declare succeeds while a processor is active, that processor is associated with the returned declaration.", "quantifier": "all documents with an active processor, all types and sets", "why_tests_cant": "depends on whether the declaration existed before; a test on a fresh document always passes", "anchors": ["src/document.rs: declare (doc comment and early return)"]}
{"id": "C12", "title": "Set, class, subset and processor survive encoding", "statement": "After adding an element built with a set, class, (for features) subset and an existing processor ID, the stored element reports exactly that set, class, subset and processor.", "quantifier": "all documents, all element types that have an annotation type (and features in context), all attribute values", "why_tests_cant": "encoding goes through three interning tables whose content depends on history", "anchors": ["src/document.rs: Store<ElementData,ElementKey>::encode", "src/element.rs: ReadElement::set, class, subset, processor"]}
{"id": "C13", "title": "Decoded values do not drift", "statement": "The set, class, subset, processor, annotator and ID that a stored element reports do not change when other elements, declarations, classes or processors are added later.", "quantifier": "all histories of additions after the element was stored", "why_tests_cant": "a later addition could change the meaning of a key only in special histories", "anchors": ["src/document.rs: encode, declare", "src/element.rs: ReadElement"]}
{"id": "C14", "title": "All other attributes are kept verbatim", "statement": "Adding an element keeps every attribute other than set, class, subset and processor, with its value and in the original order.", "quantifier": "all elements and documents", "why_tests_cant": "all attribute combinations", "anchors": ["src/document.rs: encode (attribs.retain)"]}
{"id": "C15", "title": "Stored elements can always be read", "statement": "No accessor (set, class, subset, processor, annotator, class_key, declaration_key ...) panics on an element that was stored through the API, and every encoded reference it holds resolves to a stored declaration, class or processor.", "quantifier": "all documents reachable by any sequence of operations, all stored elements", "why_tests_cant": "the accessors unwrap results; absence of panics is a property of all reachable states", "anchors": ["src/element.rs: ReadElement::class_key, declaration_key, subset_key, processor_key", "src/document.rs: encode"]}
{"id": "C16", "title": "Adding a freshly built element never panics", "statement": "add_element / add_element_to on an element built with the public builders return Ok or Err, they do not panic.", "quantifier": "all elements, parents and documents", "why_tests_cant": "panics hide behind unwrap/expect on unusual combinations", "anchors": ["src/document.rs: encode (element.set().unwrap(), annotationtype().expect)"]}
{"id": "C17", "title": "An explicit processor wins and is recorded", "statement": "If an element names an existing processor, the stored element refers to that processor, whatever the declaration's default or the active processor is, and the processor is listed with the element's declaration. If it names none, it gets the declaration's only processor, else the active processor, else none.", "quantifier": "all documents, elements, processors", "why_tests_cant": "interaction of three defaults over all states", "anchors": ["src/document.rs: encode", "src/metadata.rs: Declaration::default_processor"]}
{"id": "C18", "title": "Parent and child links always agree", "statement": "An element is listed among the children of another exactly when that other is its parent, exactly once, and every listed child exists.", "quantifier": "all documents reachable by any sequence of operations", "why_tests_cant": "an invariant over histories mixing add, attach, detach, annotate and parse", "anchors": ["src/document.rs: add_element, add_element_to, add_children, attach_element, detach_element, annotate", "src/parser.rs: parse_elements"]}
{"id": "C19", "title": "attach_element moves exactly one element", "statement": "A successful attach_element(p, c) makes p the parent of c, makes c the last child of p, removes c from the children of its old parent (keeping the order of the others), and changes nothing else; on error nothing changes.", "quantifier": "all documents with consistent links, all p and c, including p equal to the old parent", "why_tests_cant": "the order of push and removal matters only for special positions", "anchors": ["src/document.rs: attach_element"]}
{"id": "C20", "title": "detach_element orphans exactly one element", "statement": "A successful detach_element(c) leaves c without parent, removes it from its old parent's children keeping the order of the others, keeps c and its subtree stored, and changes nothing else.", "quantifier": "all documents with consistent links, all c", "why_tests_cant": "frame condition over all other elements", "anchors": ["src/document.rs: detach_element"]}
{"id": "C21", "title": "The document is always a forest", "statement": "No element is ever its own ancestor, so following parents always ends.", "quantifier": "all documents reachable by any sequence of operations", "why_tests_cant": "cycles arise from particular attach sequences or duplicate IDs", "anchors": ["src/document.rs: attach_element", "src/parser.rs: parse_elements"]}
{"id": "C22", "title": "get_index is the position among the parent's data", "statement": "For an element with a parent, get_index returns the index at which the parent's data holds that element; the data item at that index is that element.", "quantifier": "all documents with consistent links, all elements", "why_tests_cant": "all positions and sibling lists", "anchors": ["src/element.rs: ReadElement::get_index"]}
{"id": "C23", "title": "add_element_to appends a whole subtree", "statement": "add_element_to(p, e) with freshly built e returns a new element that becomes the last child of p; the nested elements of e become its descendants in the same nesting and order with the same text; all other elements keep their place.", "quantifier": "all documents, parents and nested element values of any depth and width", "why_tests_cant": "recursion over arbitrary nesting", "anchors": ["src/document.rs: add_element_to, add_children, post_add"]}
{"id": "C24", "title": "select visits in document order", "statement": "select_data yields the matching items of a pre-order depth-first traversal: an element before its content, content in order, with the right parent key, cursor and depth.", "quantifier": "all documents, start elements, recursion modes and selectors (how and() joins an unmatchable selector with alternatives is the subject of C31)", "why_tests_cant": "the iterator is a stack machine; its equivalence with a recursive traversal is about all trees", "anchors": ["src/select.rs: SelectIterator::next"]}
{"id": "C25", "title": "select is complete and duplicate free", "statement": "With Recursion::Always every matching descendant element of the start element is yielded exactly once, and nothing that is not a descendant is yielded.", "quantifier": "all documents with consistent acyclic links, all selectors (how and() joins an unmatchable selector with alternatives is the subject of C31)", "why_tests_cant": "quantifies over all descendants of all trees", "anchors": ["src/select.rs: SelectIterator::next"]}
{"id": "C26", "title": "select terminates", "statement": "Iterating a selection over a forest ends after finitely many steps.", "quantifier": "all acyclic documents, selectors, recursion modes", "why_tests_cant": "termination cannot be observed by running finitely many tests", "anchors": ["src/select.rs: SelectIterator::next"]}
{"id": "C27", "title": "A span is reported at most once", "statement": "When span references are followed, each span element is yielded at most once per iteration, no matter how many of its words are visited, and every matching span reachable through a visited reference is yielded.", "quantifier": "all documents, start elements and selectors, any number of references in any key order", "why_tests_cant": "the bookkeeping vector grows in both directions depending on the order of keys", "anchors": ["src/select.rs: SelectIterator::already_returned, next"]}
{"id": "C28", "title": "Recursion modes control descent by the type of the current element", "statement": "Recursion::No yields only direct content. With the other modes the content of a child element is visited exactly when the element that holds the child is of a listed type or group (LimitedTo), is not of a listed type or group (ExceptFor), or always (Always).", "quantifier": "all documents, type lists and start elements", "why_tests_cant": "all trees and lists", "anchors": ["src/select.rs: Recursion::eval, SelectIterator::next"]}
{"id": "C29", "title": "A compiled query matches by decoded values", "statement": "An element matches the selector compiled from a query on type, set, class and processor exactly when its type, decoded set, decoded class and processor ID satisfy the query.", "quantifier": "all documents, queries and stored elements", "why_tests_cant": "the selector compares keys; agreement with string comparison depends on all interning tables", "anchors": ["src/select.rs: Selector::from_query, matches", "src/query.rs: Cmp::matches"]}
{"id": "C30", "title": "Unmatchable queries select nothing", "statement": "If a query mentions a set, class or processor unknown to the document, no element of the document satisfies it and the selection is empty.", "quantifier": "all documents, queries, start elements", "why_tests_cant": "soundness of the short cut over all documents", "anchors": ["src/select.rs: Selector::matchable, SelectIterator::next"]}
{"id": "C31", "title": "and() is union", "statement": "The selection of a.and(b) consists of what a or b selects; chaining gives the union of all.", "quantifier": "all selectors and documents, any chain length", "why_tests_cant": "only particular combinations expose overwriting or early exit", "anchors": ["src/select.rs: Selector::and, matchable, matches"]}
{"id": "C32", "title": "Every criterion of a query is applied", "statement": "Each criterion set on a query (type, group, set, class, processor, subset, annotator, annotator type, confidence) restricts the result.", "quantifier": "all queries and documents", "why_tests_cant": "a silently dropped criterion is only visible for particular documents", "anchors": ["src/select.rs: Selector::from_query", "src/query.rs: Query"]}
{"id": "C33", "title": "The single-result getters return the first of the multi-result getters", "statement": "get_annotation, get_element, get_feature and get_ancestor return the first item of get_annotations, get_elements, get_features, get_ancestors, and None exactly when those are empty.", "quantifier": "all documents, elements, types and sets", "why_tests_cant": "all traversals", "anchors": ["src/element.rs: get_annotation, get_annotations, get_element, get_elements, get_ancestor"]}
{"id": "C34", "title": "Ancestors are the parent chain, nearest first", "statement": "The ancestor iterator yields exactly the matching elements of the chain parent, grandparent, ..., root in that order, and ends.", "quantifier": "all acyclic documents, elements and selectors", "why_tests_cant": "chains of any length", "anchors": ["src/select.rs: AncestorIterator::next"]}
{"id": "C35", "title": "common_ancestors is the intersection of ancestor chains", "statement": "common_ancestors(selector, keys) returns the matching elements that are ancestors of every given element, nearest to the first element first.", "quantifier": "all documents, selectors and key lists of any length", "why_tests_cant": "fails only for three or more keys in special configurations", "anchors": ["src/select.rs: common_ancestors"]}
{"id": "C36", "title": "Ancestors and descendants are dual", "statement": "a is among the ancestors of x exactly when x is yielded by selecting all elements under a.", "quantifier": "all documents with consistent acyclic links, all pairs of elements", "why_tests_cant": "relates two independent iterators on all trees", "anchors": ["src/select.rs: AncestorIterator::next, SelectIterator::next"]}
{"id": "C37", "title": "Text extraction terminates", "statement": "text() returns (text or an error) for every element of a document whose child links and word references are acyclic.", "quantifier": "all such documents, elements and parameters", "why_tests_cant": "termination", "anchors": ["src/text.rs: text_by_key, get_textdelimiter"]}
{"id": "C38", "title": "Text of a structure element is its parts joined by their delimiters", "statement": "For an element with structural children that have text, text() is the concatenation of the texts of those children, with the delimiter of each child (only between two children that both have text), and text content of the element itself is used only if no child yields text.", "quantifier": "all documents, nesting depths and child lists", "why_tests_cant": "all lists of children, with and without text, in all orders", "anchors": ["src/text.rs: text_by_key"]}
{"id": "C39", "title": "Text respects the requested text class", "statement": "text() with a text class returns the content of the text content element of that class.", "quantifier": "all documents and text classes", "why_tests_cant": "needs documents with several text classes", "anchors": ["src/text.rs: text_by_key, text", "src/text.rs: TextParameters"]}
{"id": "C40", "title": "Tokenisation flag only adds delimiters", "statement": "retaintokenisation never changes which parts are printed: the two results of an element differ only in delimiters; if every space attribute is yes (or absent) the results are equal.", "quantifier": "all documents and elements", "why_tests_cant": "all documents", "anchors": ["src/text.rs: get_textdelimiter, text_by_key"]}
{"id": "C41", "title": "Hidden and unprintable elements contribute no text", "statement": "Hidden words and unprintable elements never contribute characters or delimiters to the text of an ancestor.", "quantifier": "all documents and elements", "why_tests_cant": "all positions in all trees", "anchors": ["src/text.rs: text_by_key", "src/specification.rs: Properties::hidden, printable"]}
{"id": "C42", "title": "Element tags round-trip", "statement": "Parsing the tag of an element type gives the element type back; a tag is parsed to a type only if it is that type's tag or a documented alias.", "quantifier": "all element types and all strings", "why_tests_cant": "rejection quantifies over all strings", "anchors": ["src/types.rs: ElementType::as_str, ElementType::from_str"]}
{"id": "C43", "title": "Annotation types and declaration tags round-trip", "statement": "Every annotation type's name parses back to it, every '<name>-annotation' tag written by the serialiser is recognised by the parser as that type, and every other tag is rejected.", "quantifier": "all annotation types and all strings", "why_tests_cant": "rejection quantifies over all strings", "anchors": ["src/types.rs: AnnotationType::as_str, from_str", "src/parser.rs: get_declaration_type", "src/serialiser.rs: xml_declarations"]}
{"id": "C44", "title": "The type tables agree with the specification table", "statement": "annotationtype() equals the annotation type in the specification; elementtype() of an annotation type is a primary element of that annotation type; layertype() is a layer of the same annotation type; every span type has a layer that accepts it.", "quantifier": "all element and annotation types", "why_tests_cant": "finite but cross-table; kept here because every other property depends on it", "anchors": ["src/types.rs", "src/specification.rs: Properties::new"]}
{"id": "C45", "title": "Attributes survive printing and parsing", "statement": "Every attribute that can be printed is parsed back to the same attribute from its own name and printed value; unknown names are rejected unless they contain a colon.", "quantifier": "all attributes and values", "why_tests_cant": "all strings and all 16-bit numbers, dates", "anchors": ["src/attrib.rs: Attribute::parse, as_str, to_string, attribtype"]}
{"id": "C46", "title": "Setting an attribute replaces, deleting removes", "statement": "set_attrib leaves exactly one attribute of that type, with the new value, and all others untouched, provided there was at most one before; del_attrib returns and removes the first; builders never create two attributes of one type.", "quantifier": "all attribute lists and sequences of set/del operations", "why_tests_cant": "all sequences", "anchors": ["src/element.rs: set_attrib, del_attrib, with_attrib, attrib, has_attrib"]}
{"id": "C47", "title": "Validation accepts exactly what the specification lists", "statement": "check_element_addable(p, e) succeeds exactly when p exists and the specification entry of p's type lists e's type or a group containing it; otherwise it reports an error.", "quantifier": "all documents, parents and element types", "why_tests_cant": "all pairs of types through group membership", "anchors": ["src/document.rs: check_element_addable"]}
{"id": "C48", "title": "annotate never creates an invalid parent/child pair", "statement": "Whatever annotate adds directly (the element and, for spans, a new layer) is accepted by the specification of the element it is placed under.", "quantifier": "all documents, parents, elements", "why_tests_cant": "three code paths, all types", "anchors": ["src/document.rs: annotate, annotate_span"]}
{"id": "C49", "title": "A failed annotate changes nothing", "statement": "If annotate returns an error the document is unchanged.", "quantifier": "all documents, parents, elements", "why_tests_cant": "errors after partial effects only occur in special cases", "anchors": ["src/document.rs: annotate, add_element_to, add_children"]}
{"id": "C50", "title": "Spans of one type and set under one element share a layer", "statement": "Annotating spans of the same type and set repeatedly from the same place uses one annotation layer.", "quantifier": "all documents, sequences of annotate calls", "why_tests_cant": "needs sequences of calls", "anchors": ["src/document.rs: annotate, get_layer_key"]}
{"id": "C51", "title": "Serialised XML is well formed", "statement": "The events written by the serialiser are properly nested: each start tag is closed by an end tag of the same name, in the right order.", "quantifier": "all documents whose traversal terminates, all root elements", "why_tests_cant": "the serialiser closes tags by comparing depths of a flat iteration", "anchors": ["src/serialiser.rs: xml_elements, xml"]}
{"id": "C52", "title": "Serialised XML is the document tree", "statement": "The element part written by xml() is, event for event, the recursive rendering of the element tree: one element per element, children in order, text and comments in place.", "quantifier": "all documents whose traversal terminates", "why_tests_cant": "equivalence of a flat loop with recursion on all trees", "anchors": ["src/serialiser.rs: xml_elements"]}
{"id": "C53", "title": "Parsing builds exactly the XML tree", "statement": "Parsing the body of a document creates one element per FoLiA tag, nested as in the XML, with text and comments in the same positions (except blank ones).", "quantifier": "all well-formed event sequences with unique IDs", "why_tests_cant": "all trees", "anchors": ["src/parser.rs: parse_elements"]}
{"id": "C54", "title": "Serialise then parse is the identity", "statement": "Loading what was serialised gives a document with the same element tree, text, decoded attributes.", "quantifier": "all documents", "why_tests_cant": "all documents", "anchors": ["src/serialiser.rs", "src/parser.rs"]}
{"id": "C55", "title": "Declarations and provenance survive a round trip", "statement": "Declarations (type, set, alias, format, associated processors) and the processor hierarchy are the same after serialising and loading.", "quantifier": "all documents", "why_tests_cant": "all combinations of declarations and processors", "anchors": ["src/serialiser.rs: xml_declarations, xml_provenance, xml_processor", "src/parser.rs: parse"]}
{"id": "C56", "title": "Metadata survives a round trip", "statement": "Metadata key/value pairs, type and source are the same after serialising and loading.", "quantifier": "all documents, any iteration order of the hash map", "why_tests_cant": "hash map iteration order is arbitrary", "anchors": ["src/serialiser.rs: xml_metadata", "src/parser.rs: parse"]}
{"id": "C57", "title": "Parsing never panics", "statement": "Loading any XML text returns a document or an error.", "quantifier": "all event sequences", "why_tests_cant": "all inputs", "anchors": ["src/parser.rs"]}
{"id": "C58", "title": "Attribute shortcuts for features are equivalent to feature elements", "statement": "An attribute named after a feature subset that the element type accepts creates a feature child with that subset and class, as the first content of the element.", "quantifier": "all element types, attribute values", "why_tests_cant": "all types", "anchors": ["src/parser.rs: parse_attributes"]}
{"id": "C59", "title": "The provenance chain and hierarchy are consistent", "statement": "add_processor puts the processor at the end of the chain; nested new subprocessors become its subprocessors with the right parent, in order, and existing processors are unchanged.", "quantifier": "all documents and nested processor values", "why_tests_cant": "recursion over nesting", "anchors": ["src/document.rs: add_processor, add_subprocessor, attach_processor"]}
{"id": "C60", "title": "An inclusive selection starts with the start element", "statement": "With the inclusive option the selection starts with the start element itself when the selector accepts it, followed by exactly the items of the selection without that option.", "quantifier": "all documents, start elements, selectors and recursion modes", "why_tests_cant": "the start element is looked up through its parent, which behaves differently for the body, children and detached elements", "anchors": ["src/select.rs: SelectIterator::next"]}
{"id": "C61", "title": "A finished selection stays finished", "statement": "After next() has returned None, every further call of next() on the same iterator returns None.", "quantifier": "all documents, selectors, recursion modes and iterator states", "why_tests_cant": "depends on internal iterator state after exhaustion", "anchors": ["src/select.rs: SelectIterator::next"]}
{"id": "C62", "title": "The text of text content is the text in it", "statement": "The text of a text content element (or of markup inside it) is the concatenation of the text fragments in it, in document order, including those inside nested markup.", "quantifier": "all documents, text content elements and nested markup", "why_tests_cant": "arbitrary nesting of markup", "anchors": ["src/text.rs: text_by_key"]}
{"id": "C63", "title": "The document ID survives a round trip", "statement": "A document that is serialised and loaded again has the same ID; its version becomes the FoLiA version of the library.", "quantifier": "all documents that can be serialised and loaded, any indentation and any loading properties", "why_tests_cant": "all documents", "anchors": ["src/serialiser.rs: xml", "src/parser.rs: parse"]}
{"id": "C64", "title": "A well-formed file loads", "statement": "A FoLiA file loads without an error when its tags and attributes are known, its IDs are distinct, its features are in annotations, every word reference is in a span and refers to an element that was opened before it ends, and there is room for its elements (2^32) and declarations (2^16). The result has exactly one element per tag and per feature shortcut.", "quantifier": "all files (any nesting, any attributes, foreign tags, comments, any metadata that loads), all loading properties", "why_tests_cant": "success must hold for every well-formed file, of any size and nesting", "anchors": ["src/parser.rs: parse, parse_elements, parse_attributes", "src/document.rs: add_element, post_add, declare"]}
{"id": "C65", "title": "Adding a well-formed element succeeds", "statement": "Adding or annotating succeeds for an element whose nested elements, features and word references are placed as the format wants (accepted by the parent, word references in a span and referring to existing elements, a place for the layer of a span), with new IDs and room for its elements and declarations.", "quantifier": "all documents, element values of any nesting, and parents", "why_tests_cant": "success must hold for every document and element value", "anchors": ["src/document.rs: add_element, add_element_to, add_children, annotate, annotate_span, post_add, declare"]}
{"id": "C66", "title": "A saved document loads again", "statement": "A document that was made with care can be serialised, and the XML loads without an error and gives the same tree, when its body is not empty, its texts and comments can be written, no element has two values for one attribute, features are in annotations, word references point backwards, and its processors have no dates.", "quantifier": "all documents made with care, any indentation", "why_tests_cant": "must hold for every document, of any size, nesting, metadata and provenance", "anchors": ["src/serialiser.rs: xml, xml_elements, xml_metadata", "src/parser.rs: parse, parse_elements, parse_attributes"]}
{"id": "C67", "title": "Words and the span annotations over them are linked", "statement": "Every word reference in the tree refers to an element that exists and is part of a span annotation. The span annotations that an element says it is part of are exactly those of the word references to it, one for each word reference: the nearest span annotation above the reference.", "quantifier": "all documents: new or loaded, and all changes to them", "why_tests_cant": "the links are made in the course of adding elements of any nesting and of loading files of any size, and must hold after any history", "anchors": ["src/document.rs: post_add, add_element_to, add_children, annotate_span", "src/parser.rs: parse_elements"]}
{"id": "C68", "title": "Saving what was loaded writes the same file", "statement": "When a document is serialised, the XML loaded, and the result serialised again, the second XML is the first: the same tags with the same attributes in the same order, the same texts, comments and line breaks. Only the order of the metadata key/value pairs, which are kept in a hash map, may differ.", "quantifier": "all documents made with care that can be loaded, any indentation", "why_tests_cant": "must hold for every document: any nesting, attributes, sets, classes, features, processors, declarations and span annotations", "anchors": ["src/serialiser.rs: xml, xml_elements, xml_metadata, xml_declarations, xml_provenance", "src/parser.rs: parse, parse_elements, parse_metadata", "src/element.rs: ElementData::encode"]}
{"id": "C69", "title": "The text of a document survives saving and loading", "statement": "When a document is serialised and the XML loaded, text() gives for every element, and for the document, the text that it gave before (and fails where it failed before): words, markup and span annotations, with the same delimiters.", "quantifier": "all documents made with care that can be loaded, all elements, all requests (set, class, retaining of delimiters), any indentation", "why_tests_cant": "must hold for every document: any nesting of structure, markup and span annotations, and word references to anywhere in the tree", "anchors": ["src/text.rs: text, text_by_key, get_textdelimiter", "src/serialiser.rs: xml, xml_elements", "src/parser.rs: parse, parse_elements", "src/element.rs: resolve", "src/document.rs: apply_properties"]}
{"id": "C70", "title": "What a query finds is found again after saving and loading", "statement": "When a document is serialised and the XML loaded, the same query has an answer in both documents, and the answers list the elements at the same places of the tree, in the same order.", "quantifier": "all documents made with care that can be loaded, all queries, starting elements and modes of recursion, any indentation", "why_tests_cant": "must hold for every document and query: sets and classes are numbered anew when a file is loaded", "anchors": ["src/select.rs: Selector, select, select_by_key", "src/query.rs: Query, Selector::from_query", "src/element.rs: get_elements, get_annotations", "src/serialiser.rs: xml", "src/parser.rs: parse"]}
{"id": "C71", "title": "Annotating does not change the text", "statement": "Adding an annotation to a document leaves the text of everything that was there as it was: text() gives the same text, or fails in the same way, for every element, whether the annotation is inline, a span in an existing or new layer, a comment, or a hidden word.", "quantifier": "all documents made with care, all elements and annotations added with add_element_to, annotate or annotate_span, all requests", "why_tests_cant": "must hold for every document and annotation: the text is gathered from the whole tree, with delimiters taken from last children and word references followed", "anchors": ["src/text.rs: text, text_by_key, get_textdelimiter", "src/document.rs: add_element_to, annotate, annotate_span, get_layer_key"]}
{"id": "C72", "title": "Adding elements does not change what queries find among what was there", "statement": "When elements are added to a document, every element that was there keeps its type, attributes, parent and content, new content coming after the old. A query that could be asked before can be asked afterwards, and of what it finds below an element, the elements that were there before are exactly those that it found before, in the same order. Without recursion the new ones come last, so that get_annotation and get_element give the element that they gave.", "quantifier": "all documents made with care, all additions, declarations and metadata changes in any number and order, all queries, starting elements and modes of recursion", "why_tests_cant": "must hold for every document, query and history: additions renumber nothing, but links to spans and layers are made along the way and new sets and classes get into the vocabularies", "anchors": ["src/document.rs: add_element_to, annotate, annotate_span, post_add, declare", "src/select.rs: select, select_by_key", "src/query.rs: Selector::from_query", "src/element.rs: get_element, get_elements, get_annotation, get_annotations"]}
{"id": "C73", "title": "Formatting a value gives its text", "statement": "Formatting a value with {} (format!, println!, to_string) returns its text: for an element type, annotation type, processor type or attribute type the name it has in a file, for an attribute the value it has in a file, for an element its text. It does not panic and it ends.", "quantifier": "all types, all attributes, all documents and all their elements", "why_tests_cant": "must hold for every value of the types, and for the text of every element of every document", "anchors": ["src/attrib.rs: Display for AttribType, Display for Attribute", "src/element.rs: Display for Element", "src/types.rs: Display for ElementType, Display for AnnotationType", "src/metadata.rs: Display for ProcessorType"]}
{"id": "C74", "title": "The bytes of a saved document are read back, whatever characters it holds", "statement": "What xml() writes for a document is read back by the XML reader as the tags, attributes, texts and comments that were put in: no value, whatever quotes, angle brackets, ampersands or other characters it holds, can end its attribute or text early or add tags. Two documents saved as the same bytes have the same tags, attributes and text runs. The bytes of a document made with care load into a document with the same tree.", "quantifier": "all documents, all characters in IDs, classes, sets, texts, comments and metadata, any indentation", "why_tests_cant": "must hold for every string in every position: escaping when writing and unescaping when reading are separate code", "anchors": ["src/serialiser.rs: to_xml, xml, xml_elements", "src/parser.rs: parse, parse_elements", "src/document.rs: Document::from_str, Document::from_file", "quick-xml: Writer, Reader, escape, unescape, Attributes"]}
{"id": "C75", "title": "A saved document is well-formed XML", "statement": "The bytes that xml() writes form a well-formed XML document, and those written for one element are well-formed as the content of an element: tags are balanced, names are names, attribute values are quoted and escaped and no attribute occurs twice in a tag.", "quantifier": "all documents and elements, any indentation", "why_tests_cant": "must hold for every tree and every string in it, and for any other XML parser that gets the file", "anchors": ["src/serialiser.rs: to_xml, xml, xml_elements, xml_metadata, xml_declarations, xml_provenance", "src/element.rs: ElementData::encode", "quick-xml: Writer"]}
{"id": "C76", "title": "A file that was cut off is not taken for a complete one", "statement": "Loading a file that is incomplete (cut off by a full disk, a crash or an interrupted transfer) fails with an error.", "quantifier": "all files, all places where they may have been cut off", "why_tests_cant": "must hold for every file and every place of the cut", "anchors": ["src/document.rs: Document::from_str, Document::from_file", "src/parser.rs: parse, parse_elements, parse_metadata", "quick-xml: Reader"]}
{"id": "C77", "title": "Only files in the FoLiA namespace are loaded", "statement": "A file in which the FoLiA namespace URI does not occur (an HTML page, a TEI document, a file with the namespace left out) is never loaded as a document.", "quantifier": "all files, that is all strings", "why_tests_cant": "must hold for every string that may be given to from_str or found in a file", "anchors": ["src/document.rs: Document::from_str, Document::from_file", "src/parser.rs: parse, NSFOLIA", "quick-xml: Reader::read_namespaced_event"]}
{"id": "C78", "title": "The linter says what becomes of each file", "statement": "The program folialintr prints, for each file given and in the order given, the document as it is saved after loading with the default properties, or complains if it cannot be read, loaded or saved; what it says about one file does not depend on the others. What it prints can be read back. A file that the library saved is accepted and printed as the same file, up to the order of the metadata; printed again with the indentation it was saved with it does not change.", "quantifier": "all lists of files, all their contents; for the last part all documents made with care", "why_tests_cant": "must hold for every file and every document that was saved; loading and saving are separate code", "anchors": ["src/bin/folialintr.rs: main", "src/document.rs: Document::from_file, DocumentProperties::default", "src/serialiser.rs: xml"]}
{"id": "C79", "title": "A new document is what its properties say", "statement": "Making a new document succeeds. The document has the ID given, an empty body of the type asked for and no other element, the declarations asked for and no others, each without alias or format; if a processor is given it is the active processor, it and its subprocessors are all of the provenance and every declaration refers to it; the default text set, if asked for, has the one class current.", "quantifier": "all IDs and all properties: any number of declarations up to the size of the store, with and without sets and repeated, any tree of processors with different IDs", "why_tests_cant": "must hold for every list of declarations, in any order and with repetitions, and every tree of processors", "anchors": ["src/document.rs: Document::new, apply_properties, declare, add_processor, DocumentProperties"]}
