{
 "claims": [
  {
   "property": "C01",
   "status": "proved",
   "theorems": [
    "C01_store_key_retrieves",
    "C01_declaration_key_retrieves",
    "C01_processor_key_retrieves",
    "C01_element_key_retrieves",
    "C01_add_element_is_store_add"
   ],
   "note": ""
  },
  {
   "property": "C02",
   "status": "proved",
   "theorems": [
    "C02_declaration_keys_dense",
    "C02_processor_keys_dense",
    "C02_element_keys_dense",
    "C02_keys_never_reused"
   ],
   "note": ""
  },
  {
   "property": "C03",
   "status": "partial",
   "theorems": [
    "C03_declaration_by_id",
    "C03_processor_by_id",
    "C03_element_by_id_partial",
    "C03_element_by_id_exact_partial",
    "C03_element_by_id_refuted"
   ],
   "note": "False for elements in full: adding a set-less layer with an ID overwrites its attributes, so the stored element loses its xml:id while the index keeps it (refuted with a witness). Proved for declarations and processors; for elements the found element is the one that was added under that ID, and it still carries the ID when no such layer is ever added."
  },
  {
   "property": "C04",
   "status": "proved",
   "theorems": [
    "C04_duplicate_declaration",
    "C04_duplicate_processor",
    "C04_duplicate_element"
   ],
   "note": ""
  },
  {
   "property": "C05",
   "status": "proved",
   "theorems": [
    "C05_declaration_limit",
    "C05_processor_limit",
    "C05_element_limit",
    "C05_vocabulary_limit",
    "C05_keys_fit"
   ],
   "note": ""
  },
  {
   "property": "C06",
   "status": "proved",
   "theorems": [
    "C06_interning_bijection",
    "C06_later_encodings_keep_keys",
    "C06_class_bijection"
   ],
   "note": ""
  },
  {
   "property": "C07",
   "status": "proved",
   "theorems": [
    "C07_declaration_identity",
    "C07_found_by_type_and_set"
   ],
   "note": ""
  },
  {
   "property": "C08",
   "status": "proved",
   "theorems": [
    "C08_declare_result",
    "C08_declare_again",
    "C08_declare_succeeds"
   ],
   "note": ""
  },
  {
   "property": "C09",
   "status": "proved",
   "theorems": [
    "C09_declarations_stable",
    "C09_declaration_ids_stable"
   ],
   "note": ""
  },
  {
   "property": "C10",
   "status": "proved",
   "theorems": [
    "C10_default_key",
    "C10_default_mask",
    "C10_default_set"
   ],
   "note": ""
  },
  {
   "property": "C11",
   "status": "partial",
   "theorems": [
    "C11_active_processor_partial",
    "C11_active_processor_refuted"
   ],
   "note": "False in full: declare returns early for an existing declaration and then does not associate the active processor (refuted with a witness). The partial theorem covers newly created declarations and declarations found as the only one of their type."
  },
  {
   "property": "C12",
   "status": "partial",
   "theorems": [
    "C12_values_survive_partial",
    "C12_set_survives_partial",
    "C12_unannotated_refuted"
   ],
   "note": "Proved for every element type that has an annotation type and for features with a subset, as long as no vocabulary of the resulting document is full. Elements of other types lose set and class without an error (refuted with a witness)."
  },
  {
   "property": "C13",
   "status": "partial",
   "theorems": [
    "C13_values_do_not_drift_partial",
    "C13_layer_drift_refuted",
    "C13_feature_class_drift_refuted"
   ],
   "note": "Proved for all later histories, except for layers added without a set (refuted: a later add can give such a layer a set and remove its ID) and for the class of features without a subset (refuted: it is read from the wrong vocabulary and changes)."
  },
  {
   "property": "C14",
   "status": "partial",
   "theorems": [
    "C14_other_attributes_kept_by_store",
    "C14_other_attributes_kept_partial",
    "C14_attributes_stay_partial",
    "C14_other_attributes_kept_refuted"
   ],
   "note": "Proved for Store::add without restriction and for all other ways to add except layers without set, class, subset and processor, whose attributes add_element_to overwrites (refuted with a witness)."
  },
  {
   "property": "C15",
   "status": "partial",
   "theorems": [
    "C15_accessors_return",
    "C15_references_resolve",
    "C15_references_agree",
    "C15_class_resolves_partial",
    "C15_class_resolves_refuted"
   ],
   "note": "Proved: no accessor fails and all references resolve. Only the class accessor on a feature without subset reports None although the feature holds a class (refuted with a witness)."
  },
  {
   "property": "C16",
   "status": "partial",
   "theorems": [
    "C16_adding_returns_partial",
    "C16_no_panic_partial",
    "C16_no_panic_feature_refuted",
    "C16_no_panic_mixed_refuted",
    "C16_adding_returns_refuted"
   ],
   "note": "Proved for documents made with care, elements with textual attributes and new IDs: add_element, add_element_to, annotate and annotate_span return Ok or Err (no panic, no endless loop). Refuted in general: a feature under a parent without annotation type panics, mixed encoded and textual attributes panic, an element containing a word reference with its own ID loops forever."
  },
  {
   "property": "C17",
   "status": "partial",
   "theorems": [
    "C17_explicit_processor",
    "C17_default_processor_partial",
    "C17_default_processor_refuted"
   ],
   "note": "Explicit processors: proved. Defaults: proved for elements with at least one of set, class, subset; an element with none of them gets no processor (refuted with a witness)."
  },
  {
   "property": "C18",
   "status": "partial",
   "theorems": [
    "C18_links_agree_partial",
    "C18_links_agree_refuted",
    "C18_links_agree_duplicate_refuted",
    "C18_links_agree_failure_refuted"
   ],
   "note": "Proved for every document made by new or by loading a file without duplicate xml:id, and then changed by any history of careful operations (freshly built elements, new IDs, no failing partial additions, no cycles). Refuted in full with three witnesses: add_element with nested new elements, duplicate IDs, and an add_element_to that fails half way."
  },
  {
   "property": "C19",
   "status": "proved",
   "theorems": [
    "C19_attach_moves_one"
   ],
   "note": ""
  },
  {
   "property": "C20",
   "status": "proved",
   "theorems": [
    "C20_detach_orphans_one"
   ],
   "note": ""
  },
  {
   "property": "C21",
   "status": "partial",
   "theorems": [
    "C21_forest_partial",
    "C21_forest_refuted"
   ],
   "note": "Proved for documents made with care (same class as C18). Refuted in full: attach_element accepts an element and its own descendant."
  },
  {
   "property": "C22",
   "status": "proved",
   "theorems": [
    "C22_get_index"
   ],
   "note": ""
  },
  {
   "property": "C23",
   "status": "proved",
   "theorems": [
    "C23_add_element_to_appends_tree",
    "C23_others_only_extended"
   ],
   "note": ""
  },
  {
   "property": "C24",
   "status": "proved",
   "theorems": [
    "C24_walk_happens",
    "C24_select_order"
   ],
   "note": ""
  },
  {
   "property": "C25",
   "status": "proved",
   "theorems": [
    "C25_select_complete"
   ],
   "note": ""
  },
  {
   "property": "C26",
   "status": "proved",
   "theorems": [
    "C26_select_terminates",
    "C26_select_returns"
   ],
   "note": ""
  },
  {
   "property": "C27",
   "status": "proved",
   "theorems": [
    "C27_span_once"
   ],
   "note": ""
  },
  {
   "property": "C28",
   "status": "proved",
   "theorems": [
    "C28_recursion_modes",
    "C28_no_recursion",
    "C28_always",
    "C28_limited"
   ],
   "note": ""
  },
  {
   "property": "C29",
   "status": "partial",
   "theorems": [
    "C29_compiled_query_partial",
    "C29_compiled_query_of_type_partial",
    "C29_without_set_partial",
    "C29_missed_refuted",
    "C29_wrong_refuted"
   ],
   "note": "Proved for queries that name the set (or ask for none) together with an element type that has an annotation type (for features with a subset: the context type), and for queries without set and class. Refuted otherwise with witnesses: a set without element type, a class without set, a set for features without subset, no set for elements without declaration are missed; 'has a set' selects elements whose declaration has no set."
  },
  {
   "property": "C30",
   "status": "proved",
   "theorems": [
    "C30_unknown_selects_nothing",
    "C30_unknown_is_unsatisfied"
   ],
   "note": ""
  },
  {
   "property": "C31",
   "status": "partial",
   "theorems": [
    "C31_and_union_partial",
    "C31_and_chain_refuted",
    "C31_and_unmatchable_refuted"
   ],
   "note": "Proved for two selectors when the first one has no alternative yet and is not known to be unmatchable. Refuted otherwise: and() on a selector that already has an alternative throws it away, and an unmatchable first selector empties the union."
  },
  {
   "property": "C32",
   "status": "partial",
   "theorems": [
    "C32_criteria_applied_partial",
    "C32_selected_satisfy_partial",
    "C32_ignored_refuted"
   ],
   "note": "Type, group, set, class, processor and subset are applied (proved, except 'has a set' and 'has a class' for features without subset). Annotator, annotator type and confidence are ignored (refuted with witnesses)."
  },
  {
   "property": "C33",
   "status": "proved",
   "theorems": [
    "C33_get_element_is_first",
    "C33_get_annotation_is_first",
    "C33_get_feature_is_first",
    "C33_get_ancestor_is_first",
    "C33_get_ancestor_by_group_is_first"
   ],
   "note": ""
  },
  {
   "property": "C34",
   "status": "proved",
   "theorems": [
    "C34_ancestors_are_the_chain",
    "C34_ancestors_end"
   ],
   "note": ""
  },
  {
   "property": "C35",
   "status": "partial",
   "theorems": [
    "C35_common_ancestors_partial",
    "C35_common_ancestors_refuted"
   ],
   "note": "Proved whenever the elements have a common matching ancestor. Refuted when they have none: the code starts over when the intersection becomes empty."
  },
  {
   "property": "C36",
   "status": "proved",
   "theorems": [
    "C36_duality"
   ],
   "note": ""
  },
  {
   "property": "C37",
   "status": "proved",
   "theorems": [
    "C37_text_returns",
    "C37_cycle_diverges"
   ],
   "note": "Proved for every reachable document that is acyclic in child links and word references and every request that names a set and a class. An entity whose word reference points at itself shows that the hypothesis is needed (it recurses for ever)."
  },
  {
   "property": "C38",
   "status": "proved",
   "theorems": [
    "C38_text_of_structure",
    "C38_parts_have_text",
    "C38_no_text_of_structure",
    "C38_text_of_content",
    "C38_one_delimiter",
    "C38_text_of_tree",
    "C38_one_text"
   ],
   "note": "C38_text_of_tree gives the text of an element by one inductive definition over the stored tree, with no function of the text model in it; C38_text_of_structure and C38_text_of_content are the one-level versions. Proved as an equivalence for all printed elements, with a relational specification of parts, delimiters and text content. The text of what a word reference points at counts as a part too, and no delimiter is printed before the text of a text container that a word reference leads to."
  },
  {
   "property": "C39",
   "status": "partial",
   "theorems": [
    "C39_text_class_refuted",
    "C39_class_ignored",
    "C39_text_class_partial",
    "C39_unknown_class",
    "C39_unknown_set"
   ],
   "note": "False: the text class is only checked for existence and then ignored, the last text content element wins (refuted with a witness). Proved for elements with a single text content; unknown sets and classes are reported as errors."
  },
  {
   "property": "C40",
   "status": "proved",
   "theorems": [
    "C40_only_adds_delimiters",
    "C40_equal_if_spaced"
   ],
   "note": "Proved for all documents and elements."
  },
  {
   "property": "C41",
   "status": "partial",
   "theorems": [
    "C41_silent_has_no_text",
    "C41_silent_children_dropped",
    "C41_silent_elements_dropped_partial",
    "C41_silent_delimiter_refuted",
    "C41_hidden_in_content_refuted"
   ],
   "note": "Proved: silent elements have no text, the text of a structural element does not depend on its silent children, and (for the whole document at once) on silent elements anywhere, provided that no element without a delimiter of its own ends with a silent child and no hidden word occurs directly in text content. Both provisos are needed (refuted with witnesses)."
  },
  {
   "property": "C42",
   "status": "proved",
   "theorems": [
    "C42_tag_parses_back",
    "C42_only_own_tag",
    "C42_other_tags_rejected",
    "C42_tag_is_specified"
   ],
   "note": ""
  },
  {
   "property": "C43",
   "status": "proved",
   "theorems": [
    "C43_name_parses_back",
    "C43_other_names_rejected",
    "C43_declaration_tag",
    "C43_other_tags_rejected",
    "C43_written_tag_recognised"
   ],
   "note": ""
  },
  {
   "property": "C44",
   "status": "partial",
   "theorems": [
    "C44_annotationtype_is_specified",
    "C44_elementtype_has_type",
    "C44_elementtype_primary_partial",
    "C44_elementtype_primary_refuted",
    "C44_layertype_is_layer",
    "C44_layertype_same_type_partial",
    "C44_layertype_same_type_refuted",
    "C44_span_has_accepting_layer",
    "C44_layer_of_own_type"
   ],
   "note": "Proved, except that two annotation types (hyphenation, hspace) map to an element that is not marked primary, and the layer of predicates is the semantic-roles layer whose annotation type is semrole (both refuted with witnesses)."
  },
  {
   "property": "C45",
   "status": "proved",
   "theorems": [
    "C45_print_parse",
    "C45_printable",
    "C45_unknown_names",
    "C45_own_name",
    "C45_parse_never_panics"
   ],
   "note": ""
  },
  {
   "property": "C46",
   "status": "proved",
   "theorems": [
    "C46_del_attrib",
    "C46_set_attrib_one",
    "C46_set_attrib_others",
    "C46_set_then_get",
    "C46_del_then_get",
    "C46_sequences",
    "C46_builders_keep_attributes"
   ],
   "note": ""
  },
  {
   "property": "C47",
   "status": "proved",
   "theorems": [
    "C47_check_exact",
    "C47_check_errors"
   ],
   "note": ""
  },
  {
   "property": "C48",
   "status": "partial",
   "theorems": [
    "C48_annotate_valid_partial",
    "C48_annotate_span_valid_partial",
    "C48_where_partial",
    "C48_annotate_valid_refuted"
   ],
   "note": "False in full: an element whose xml:id is already taken makes the stored element with that ID, of any type, move under the parent (refuted with a witness). Proved for freshly built elements: the element and a layer made for it are accepted by the type they are put under, everything else keeps its type and parent, and spans go into a layer of their annotation type."
  },
  {
   "property": "C49",
   "status": "partial",
   "theorems": [
    "C49_refused_unchanged_partial",
    "C49_span_refused_unchanged_partial",
    "C49_failed_unchanged_refuted"
   ],
   "note": "False in full: a span that refers to an unknown word fails after its layer was made, which stays behind (refuted with a witness). Proved for the errors that report that the element does not fit or that a place or set cannot be determined."
  },
  {
   "property": "C50",
   "status": "partial",
   "theorems": [
    "C50_shared_layer_partial",
    "C50_shared_layer_refuted"
   ],
   "note": "False from a word: the layer is looked up under the word but made under the sentence, so each call makes a new layer (refuted with a witness). Proved when annotating from any other structure element, for fresh elements with any number of other additions in between."
  },
  {
   "property": "C51",
   "status": "proved",
   "theorems": [
    "C51_element_xml_nested",
    "C51_document_xml_nested"
   ],
   "note": "Holds of every event list either serialiser returns, for every document and start element, with no condition on the document."
  },
  {
   "property": "C52",
   "status": "partial",
   "theorems": [
    "C52_xml_is_tree_partial",
    "C52_document_xml_partial",
    "C52_xml_unique",
    "C52_xml_is_tree_refuted"
   ],
   "note": "Proved for every document made by careful steps and every start element that has a parent or is the body. An element taken out of the tree is written under the tag of the body (refutation)."
  },
  {
   "property": "C53",
   "status": "proved",
   "theorems": [
    "C53_parse_builds_tree"
   ],
   "note": "Proved for every file of the given shape (prolog, root, metadata, body, anything after) that loads and in which no two tags carry the same xml:id. Bodies of any size and depth. The processor of the body tag itself is only stated when no default processor is set in the properties. Layers whose tag shows no set, class, subset or processor keep their attributes or have exactly a reference to a declaration of their annotation type."
  },
  {
   "property": "C54",
   "status": "partial",
   "theorems": [
    "C54_references_partial",
    "C54_feature_set_refuted",
    "C54_feature_processor_refuted",
    "C54_layer_id_refuted",
    "C54_tree_round_trip_partial",
    "C54_description_refuted",
    "C54_blank_text_refuted",
    "C54_adjacent_texts_refuted",
    "C54_comment_refuted",
    "C54_default_set_refuted",
    "C54_forward_reference_refuted"
   ],
   "note": "Proved for every document made with care whose texts and comments XML can hold (writable_doc): the loaded document has exactly the elements written, same nesting, order, types, texts and comments, plain attributes, class, subset and every set shown by a tag. If all declarations have processors of the provenance chain and features belong to a declaration they can find without naming a set, every element whose tag shows a set, class, subset or processor also comes back with its declaration, set and processor (C54_references_partial). Missing: elements whose tag shows nothing (they lose a default set: refuted; a layer among them keeps its plain attributes and nothing else, or takes a declaration of its type, the same as before if that was the only one, and loses its ID: refuted), a set of a feature that is not the only one (refuted), the only processor of the declaration of a feature (refuted). Texts that are blank, adjacent to another text, or after a written line break, and comments with escaped characters do not come back as they were: refuted with witnesses. A span that refers to a word further on is written to a file that cannot be loaded: refuted with a witness."
  },
  {
   "property": "C55",
   "status": "partial",
   "theorems": [
    "C55_declarations_exact_partial",
    "C55_provenance_round_trip_partial",
    "C55_bare_declaration_refuted",
    "C55_loose_processor_refuted",
    "C55_processor_metadata_refuted",
    "C55_dates_unreadable",
    "C55_dated_processor_refuted"
   ],
   "note": "Proved for documents whose declarations all have processors of the provenance chain: the processor hierarchy comes back in order with the same values (parent links and IDs too), and each declaration comes back under its key with the same type, set, alias, format and processors. Loading the body may append further processors in general; under the conditions of C54_references_partial it adds no processor and no declaration (C55_declarations_exact_partial). False in general: a declaration without processors is ignored on loading, processors outside the chain and processor metadata are not written, and a document with a dated processor cannot be loaded again (the parser rejects the date format that the serialiser writes)."
  },
  {
   "property": "C56",
   "status": "partial",
   "theorems": [
    "C56_metadata_round_trip_partial",
    "C56_empty_value_refuted",
    "C56_submetadata_refuted"
   ],
   "note": "Proved for every document and every order of the key/value pairs, given that loading succeeds, as long as no value is empty and no submetadata block has pairs. Refuted in full: an empty value is not read back; the start tag of submetadata is never written, so its pairs come back as (and overwrite) the metadata of the document."
  },
  {
   "property": "C57",
   "status": "partial",
   "theorems": [
    "C57_cut_returns_partial",
    "C57_cut_tag_refuted",
    "C57_load_returns_partial",
    "C57_repeated_id_refuted",
    "C57_malformed_attribute_refuted",
    "C57_undecodable_root_refuted",
    "C57_stray_feature_refuted"
   ],
   "note": "False in full: a malformed or repeated attribute, an undecodable root attribute and a feature directly in the body panic, and two nested layers with one xml:id never return (each refuted with a witness file). Proved for every event sequence of any length, complete or cut off, in which the attributes can be read, no xml:id is repeated and each feature has a parent with an annotation type. On bytes: a file that meets these conditions and is cut off outside a tag still loads or is refused (C57_cut_returns_partial, any place of the cut, also within a text, an entity, a comment or an end tag); cut off within a tag, even a file saved by the library makes the parser panic (C57_cut_tag_refuted)."
  },
  {
   "property": "C58",
   "status": "proved",
   "theorems": [
    "C58_shortcuts_become_features"
   ],
   "note": "Proved for every tag at every depth below the body of a file that loads and in which no two tags carry the same xml:id."
  },
  {
   "property": "C59",
   "status": "partial",
   "theorems": [
    "C59_add_processor_partial",
    "C59_taken_id_refuted",
    "C59_taken_sub_id_refuted"
   ],
   "note": "Proved for every document and every nesting of new processors whose IDs are distinct and unused, including that it succeeds as long as there are keys left. False when an ID is taken (two refutations): the chain then lists the existing processor twice, and an existing processor of the chain becomes a subprocessor."
  },
  {
   "property": "C60",
   "status": "partial",
   "theorems": [
    "C60_inclusive_partial",
    "C60_inclusive_refuted"
   ],
   "note": "Proved for elements with a parent and for the body. Refuted for detached elements: the selection starts with element 0 instead."
  },
  {
   "property": "C61",
   "status": "partial",
   "theorems": [
    "C61_stays_finished_partial",
    "C61_stays_finished_refuted"
   ],
   "note": "Proved unless the selector is known to be unmatchable and has an alternative (refuted: None first, items afterwards)."
  },
  {
   "property": "C62",
   "status": "partial",
   "theorems": [
    "C62_content_is_fragments_partial",
    "C62_content_is_fragments_refuted"
   ],
   "note": "Proved when all printable elements in the text content are markup. Refuted for line breaks and whitespace elements: the text of the content is then an error."
  },
  {
   "property": "C63",
   "status": "proved",
   "theorems": [
    "C63_document_id_round_trip"
   ],
   "note": ""
  },
  {
   "property": "C64",
   "status": "proved",
   "theorems": [
    "C64_well_formed_loads"
   ],
   "note": "The frame (root tag, metadata, body tag) is assumed to load with an empty body; the body is any well_formed tree (WellSpec.v)."
  },
  {
   "property": "C65",
   "status": "partial",
   "theorems": [
    "C65_adding_succeeds",
    "C65_annotating_succeeds",
    "C65_annotating_span_succeeds",
    "C65_nested_feature_refuted"
   ],
   "note": "Proved for add_element, add_element_to, annotate and annotate_span on every document made with care. Missing: features nested in a new element, which are always refused (C65_nested_feature_refuted, witness), so the theorems exclude them; features added to a stored element are included."
  },
  {
   "property": "C66",
   "status": "partial",
   "theorems": [
    "C66_saved_loads_partial",
    "C66_empty_body_refuted",
    "C66_double_attribute_refuted",
    "C66_feature_place_refuted"
   ],
   "note": "Proved with the hypotheses of the statement (SaveSpec.v). They are needed: an empty body (C66_empty_body_refuted: a new document that is saved cannot be loaded), two values for one attribute (C66_double_attribute_refuted: loading panics), a feature in an element without annotation type (C66_feature_place_refuted: loading panics), a forward reference (C54_forward_reference_refuted) and dated processors (C55_dates_unreadable). Loading is with any properties without a processor and with at most 1000 declarations, the default ones among them. Missing: more than 32000 declarations, and processors attached in a cycle or to two parents."
  },
  {
   "property": "C67",
   "status": "partial",
   "theorems": [
    "C67_spans_linked_partial",
    "C67_detach_refuted",
    "C67_attach_refuted",
    "C67_cut_off_refuted"
   ],
   "note": "Proved (C67_spans_linked_partial) for documents that are new or loaded from a file that is not cut off, after any careful operations that do not move or remove word references (moving other elements is allowed). Missing: operations that do. They break the claim: C67_detach_refuted (a removed word reference is still listed by its word), C67_attach_refuted (a word reference put in place by attach_element is not listed) and C67_cut_off_refuted (a file cut off inside a span annotation is loaded)."
  },
  {
   "property": "C68",
   "status": "partial",
   "theorems": [
    "C68_body_again_partial",
    "C68_file_again_partial",
    "C68_layer_id_refuted",
    "C68_layer_set_refuted",
    "C68_empty_word_refuted",
    "C68_last_word_refuted"
   ],
   "note": "Proved for the body (C68_body_again_partial) and the whole file (C68_file_again_partial) under the hypotheses of ResaveSpec.v and those of C54, C55 and C56. They are needed: a layer without a visible set must have no ID (C68_layer_id_refuted: it is lost) and only one declaration for its annotation type (C68_layer_set_refuted: the second file shows a set); a word without content, or the last word, must not be part of a span annotation outside the tree (C68_empty_word_refuted, C68_last_word_refuted). Missing: features without subset or class, documents with full vocabularies, and files in which an element, a processor or the document share an ID."
  },
  {
   "property": "C69",
   "status": "partial",
   "theorems": [
    "C69_text_kept_partial",
    "C69_document_text_partial",
    "C69_request_kept_partial",
    "C69_default_class_refuted",
    "C69_unused_class_refuted",
    "C69_blank_text_refuted"
   ],
   "note": "Proved for every element written and every request that both documents know (C69_text_kept_partial), and for requests of a class that an element of the tree uses, under the hypotheses of C54_references_partial and with room in the vocabularies (C69_request_kept_partial). The full claim is false: a document built in memory answers requests for the class \"current\" although no element states it, after loading it refuses them (C69_default_class_refuted); likewise for a class that no element has any more (C69_unused_class_refuted). Texts of white space only are lost (C69_blank_text_refuted)."
  },
  {
   "property": "C70",
   "status": "partial",
   "theorems": [
    "C70_selection_kept_partial",
    "C70_elements_kept_partial",
    "C70_members_kept_partial",
    "C70_set_only_refuted",
    "C70_span_order_refuted"
   ],
   "note": "Proved for queries that ask for a type, optionally with a set and class or with the presence or absence of a class: the same elements in the same order for types that are not span annotations, from every element and in every mode of recursion (C70_selection_kept_partial, C70_elements_kept_partial); the same elements for all types (C70_members_kept_partial). Hypotheses: those of C54_references_partial, and room in the vocabularies. Missing: queries for features, subsets and processors. The full claim is false: an annotation without class is no longer found by its set (C70_set_only_refuted), and span annotations over the same word may change their order (C70_span_order_refuted)."
  },
  {
   "property": "C71",
   "status": "partial",
   "theorems": [
    "C71_adding_keeps_text_partial",
    "C71_annotating_keeps_text_partial",
    "C71_spans_keep_text_partial",
    "C71_no_ids_awaited",
    "C71_delimiter_refuted",
    "C71_awaited_refuted",
    "C71_hidden_in_content_refuted"
   ],
   "note": "Proved for additions that are not read (the parent or the new element is hidden or not printable), where the delimiter does not depend on the last child (the parent has a delimiter of its own, or it is silent and the same holds for its parent), and no word reference waits for the new IDs: for add_element_to (C71_adding_keeps_text_partial) and annotate (C71_annotating_keeps_text_partial). Spans annotated from a word or other structure element need only the last condition (C71_spans_keep_text_partial). The full claim is false: a comment on a correction that holds words takes away the space after it (C71_delimiter_refuted), a hidden word in text content makes the text fail (C71_hidden_in_content_refuted), and a dangling word reference can be resolved by the addition (C71_awaited_refuted)."
  },
  {
   "property": "C72",
   "status": "partial",
   "theorems": [
    "C72_elements_stay_partial",
    "C72_ancestors_stay_partial",
    "C72_answers_stay_partial",
    "C72_select_stays_partial",
    "C72_get_elements_stays_partial",
    "C72_get_annotations_stays_partial",
    "C72_new_comes_last_partial",
    "C72_get_element_stays_partial",
    "C72_get_annotation_stays_partial",
    "C72_word_reference_refuted"
   ],
   "note": "Proved for any number of careful steps that attach and detach nothing and add no word reference by itself to an element that is there (C72_elements_stay_partial, C72_ancestors_stay_partial, C72_answers_stay_partial, C72_select_stays_partial, C72_get_elements_stays_partial, C72_get_annotations_stays_partial, C72_new_comes_last_partial, C72_get_element_stays_partial, C72_get_annotation_stays_partial). A careful step that fails leaves the document as it was; missing are failing additions that change it, and documents not made with care. A word reference added to an entity that is already there makes the word lead to that entity (C72_word_reference_refuted)."
  },
  {
   "property": "C73",
   "status": "partial",
   "theorems": [
    "C73_element_type_partial",
    "C73_annotation_type_partial",
    "C73_processor_type_partial",
    "C73_attribute_partial",
    "C73_encoded_attribute_panics",
    "C73_element_partial",
    "C73_element_panics",
    "C73_element_refuted",
    "C73_attribute_refuted",
    "C73_attribute_type_refuted"
   ],
   "note": "Proved for element types, annotation types and processor types (the name, from which the type is read back), for attributes that are neither encoded nor ignored (the value, from which the attribute is read back), and for elements that have text (C73_element_partial: exactly the text with the default parameters). Refuted otherwise: the fmt of AttribType calls itself and never returns (C73_attribute_type_refuted); an element without text returns fmt::Error, on which format! and to_string panic (C73_element_refuted, C73_element_panics says exactly when); an encoded attribute of a stored element panics (C73_attribute_refuted, C73_encoded_attribute_panics)."
  },
  {
   "property": "C74",
   "status": "partial",
   "theorems": [
    "C74_file_read_back",
    "C74_value_hidden",
    "C74_bytes_determine",
    "C74_bytes_load",
    "C74_saved_bytes_load_partial"
   ],
   "note": "XmlText.v models the writer and the reader of quick-xml on bytes. Reading the bytes gives the events that Xml.v says (C74_file_read_back, for every document that can be saved, any indentation; C74_value_hidden, C74_bytes_determine), and loading bytes is loading those events (C74_bytes_load). Partial because C74_saved_bytes_load_partial, the tree after loading, has the hypotheses of C66."
  },
  {
   "property": "C75",
   "status": "partial",
   "theorems": [
    "C75_legal_document_partial",
    "C75_document_partial",
    "C75_element_partial",
    "C75_control_refuted",
    "C75_comment_refuted",
    "C75_double_attribute_refuted"
   ],
   "note": "Well-formedness is the grammar of XmlSpec.v, written from XML 1.0. Proved for every document all of whose strings (ID, metadata, declarations, processors, attributes, texts) have only characters that XML has, whose comments have no double hyphen and whose elements have no two values for one attribute (C75_legal_document_partial, over the document; legal_document is in LegalSpec.v). Also proved for the events written for documents (C75_document_partial) and elements (C75_element_partial) whose values have no characters that XML forbids, whose tags have no attribute twice and whose comments have no double hyphen. Refuted without these: a control character is written as it is (C75_control_refuted), so is a comment with a double hyphen (C75_comment_refuted), and an element with two values for one attribute gets both (C75_double_attribute_refuted)."
  },
  {
   "property": "C76",
   "status": "partial",
   "theorems": [
    "C76_bytes_partial",
    "C76_saved_head_partial",
    "C76_head_partial",
    "C76_no_body_partial",
    "C76_cut_refuted"
   ],
   "note": "Every file that loads, whatever its bytes, has a FoLiA start tag, after it a metadata end tag and after that a text or speech start tag (C76_bytes_partial; C76_head_partial and C76_no_body_partial on the events read). A saved file cut off anywhere before the tag of the body is refused (C76_saved_head_partial). Refuted for files cut off in the body: parse_elements stops without error at the end of the file, and the rest of the words is lost (C76_cut_refuted). Where the cut is in a start tag loading may panic instead (C57_cut_tag_refuted)."
  },
  {
   "property": "C77",
   "status": "proved",
   "theorems": [
    "C77_namespace"
   ],
   "note": "C77_namespace, on bytes: prefixes, quotes and processing instructions as the reader of quick-xml takes them (XmlText.v). Every binding of a prefix that the reader knows was read from the file, by induction over the bytes."
  },
  {
   "property": "C78",
   "status": "partial",
   "theorems": [
    "C78_each_file",
    "C78_printed",
    "C78_own_file_partial",
    "C78_fixpoint_partial",
    "C78_stops_refuted"
   ],
   "note": "Lint.v models main of folialintr.rs on the contents of the files. Proved: one report per file in the order given, each about its own file (C78_each_file), and what is printed is read back as the saved document (C78_printed). That every file is reported on is refuted (C78_stops_refuted): a file that makes the parser panic, such as one with an attribute twice, ends the program, and later files are not reported on. C78_own_file_partial and C78_fixpoint_partial, a saved document is printed as the same file, have the hypotheses of C68 and that the file loads (see C66)."
  },
  {
   "property": "C79",
   "status": "proved",
   "theorems": [
    "C79_new_document"
   ],
   "note": "C79_new_document. The hypotheses are on the properties only: different IDs in the tree of processors, which is not yet part of a document, and no more of either than the store can hold. A type asked for without a set is declared without a set, or by the declaration of that type that is already there (see C79_declared)."
  }
 ]
}