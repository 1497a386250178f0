{
 "claims": [
  {
   "property": "C01",
   "status": "proved",
   "theorems": [
    "c01_accepted_are_valid"
   ],
   "note": "every text (list of code points, scalar or not)"
  },
  {
   "property": "C02",
   "status": "partial",
   "theorems": [
    "c02_valid_are_accepted_partial",
    "c02_dotted_refuted"
   ],
   "note": "REFUTED: the documented grammar allows dots inside a label, the checker rejects every dot; proved: exactly the labels without a dot are accepted"
  },
  {
   "property": "C03",
   "status": "proved",
   "theorems": [
    "c03_new_and_suffix",
    "c03_new_keeps",
    "c03_from_suffix",
    "c03_from_int",
    "c03_from_int_injective"
   ],
   "note": "every text and every integer; suffix is modelled as byte slicing and never panics on accepted identifiers"
  },
  {
   "property": "C04",
   "status": "proved",
   "theorems": [
    "c04_never_repeats",
    "c04_capacity",
    "c04_unchecked_never_panics",
    "c04_numbered_in_order"
   ],
   "note": "every prefix, offset and number of calls, with overflow checks (panic) and without (wrapping, up to usize::MAX+1 calls); also the documented capacity"
  },
  {
   "property": "C05",
   "status": "partial",
   "theorems": [
    "c05_generated_are_valid_partial",
    "c05_invalid_prefix_refuted"
   ],
   "note": "REFUTED: the prefix is not checked (prefix \"a b\"); proved: the identifiers are accepted exactly when the prefix can start a label"
  },
  {
   "property": "C06",
   "status": "partial",
   "theorems": [
    "c06_no_collision_partial",
    "c06_no_digit_partial",
    "c06_collision_iff_partial",
    "c06_collision_refuted"
   ],
   "note": "REFUTED: the empty prefix and the prefix \"1\" both produce _:10; proved: two different prefixes collide for some numbers exactly when one is the other followed by digits not starting with 0"
  },
  {
   "property": "C07",
   "status": "proved",
   "theorems": [
    "c07_strings_read_back",
    "c07_no_injection"
   ],
   "note": "every Unicode string and following text, against an independent N-Triples reader"
  },
  {
   "property": "C08",
   "status": "proved",
   "theorems": [
    "c08_literals_read_back",
    "c08_same_text_same_literal"
   ],
   "note": "datatype IRIs restricted to characters allowed in IRIREF and well-formed tags, as the statement says; equality up to the equality of IRIs"
  },
  {
   "property": "C09",
   "status": "partial",
   "theorems": [
    "c09_valid_iris_read_back_partial",
    "c09_escapes_refuted",
    "c09_dialect_reads_back_partial"
   ],
   "note": "REFUTED for texts with forbidden characters: the escape is written \\u0x20 instead of \\u0020; proved: every text of allowed characters reads back, and all texts are read back in the dialect with the escapes as written, so no two IRIs share a text"
  },
  {
   "property": "C10",
   "status": "partial",
   "theorems": [
    "c10_terms_read_back",
    "c10_same_text_same_term",
    "c10_display_same_text_same_term",
    "c10_named_partial",
    "c10_blank_nodes_refuted",
    "c10_read_back_partial",
    "c10_collision_iff_partial"
   ],
   "note": "REFUTED for blank nodes: a LocalTerm blank node is printed as a quoted string, the text of a literal; proved for all named terms, and for all local terms: exactly which terms share a text, and what is read back"
  },
  {
   "property": "C11",
   "status": "partial",
   "theorems": [
    "c11_btree_dataset_partial",
    "c11_indexed_dataset_partial",
    "c11_btree_graph_partial",
    "c11_indexed_graph_partial",
    "c11_btree_dataset_same_text_partial",
    "c11_indexed_dataset_same_text_partial",
    "c11_btree_graph_same_text_partial",
    "c11_indexed_graph_same_text_partial",
    "c11_blank_nodes_refuted",
    "c11_btree_dataset_blank_partial",
    "c11_indexed_dataset_blank_partial",
    "c11_btree_graph_blank_partial",
    "c11_indexed_graph_blank_partial"
   ],
   "note": "REFUTED with blank nodes (they print like literals); proved: the text of every reachable container of ground valid terms reads back, for the four containers; with blank nodes, exactly what is read back"
  },
  {
   "property": "C12",
   "status": "proved",
   "theorems": [
    "c12_total_orders",
    "c12_mixed_equality",
    "c12_mixed_order",
    "c12_borrowed_order",
    "c12_borrowed_equality",
    "c12_cow_as_owned",
    "c12_hash_agrees",
    "c12_str_order_is_byte_order"
   ],
   "note": "for every lawful comparison of IRIs and language tags (defined by other crates); Id has no comparison in the code, IdRef has; also hashes and the byte order of strings"
  },
  {
   "property": "C13",
   "status": "proved",
   "theorems": [
    "c13_literal_types",
    "c13_literals",
    "c13_terms",
    "c13_local_terms_and_ids",
    "c13_no_loss",
    "c13_from",
    "c13_try_into",
    "c13_queries"
   ],
   "note": "all types; CowLocalTerm and CowId have no way back, so injectivity is proved for them"
  },
  {
   "property": "C14",
   "status": "partial",
   "theorems": [
    "c14_borrow_partial",
    "c14_borrow_eq_refuted",
    "c14_borrow_cmp_refuted",
    "c14_borrow_hash_refuted"
   ],
   "note": "REFUTED: \"a\"^^xsd:string and \"a\"@en borrow the same string but are not equal, and a literal never hashes like its string; proved: the order of literals refines that of the strings"
  },
  {
   "property": "C15",
   "status": "proved",
   "theorems": [
    "c15_lexicographic",
    "c15_total_orders",
    "c15_partial_cmp",
    "c15_mixed_equality",
    "c15_mixed_order"
   ],
   "note": "any component types"
  },
  {
   "property": "C16",
   "status": "proved",
   "theorems": [
    "c16_round_trips",
    "c16_references",
    "c16_lexical_references",
    "c16_triple_components",
    "c16_quad_components",
    "c16_map"
   ],
   "note": "mutable accessors are modelled as the assignment through them"
  },
  {
   "property": "C17",
   "status": "proved",
   "theorems": [
    "c17_btree_dataset_is_a_set"
   ],
   "note": "For every history (insert, remove, extend, contains, len, is_empty, iter, into_iter) the outputs are those of a plain set of quads."
  },
  {
   "property": "C18",
   "status": "proved",
   "theorems": [
    "c18_iteration_in_order"
   ],
   "note": "iter/quads/into_iter yield exactly the quads present, strictly increasing."
  },
  {
   "property": "C19",
   "status": "proved",
   "theorems": [
    "c19_no_panic"
   ],
   "note": "No history panics; the other theorems of C18-C22 also show that comparison, hashing, serialization and resource queries return."
  },
  {
   "property": "C20",
   "status": "proved",
   "theorems": [
    "c20_equality_by_contents",
    "c20_lexicographic_total_order"
   ],
   "note": "==, cmp and hash depend on the set only; cmp is the lexicographic total order of the sorted sequences."
  },
  {
   "property": "C21",
   "status": "partial",
   "theorems": [
    "c21_resources_sound_partial",
    "c21_resources_exact_partial",
    "c21_resources_exact_refuted"
   ],
   "note": "REFUTED as stated: a quad that repeats a resource which is new creates two entries for it (insert looks up all components before inserting any), and removing it makes contains_resource false for a resource still in use. Proved: soundness for all histories, exactness for each resource that no inserted quad repeats while new. C59 gives the exact answer for every history."
  },
  {
   "property": "C22",
   "status": "proved",
   "theorems": [
    "c22_collect",
    "c22_extend",
    "c22_rebuild"
   ],
   "note": "from_iter, extend, iterate-and-collect, serialize-and-deserialize (as sequences)."
  },
  {
   "property": "C23",
   "status": "proved",
   "theorems": [
    "c23_btree_graph_is_a_set",
    "c23_iteration_in_order",
    "c23_no_panic",
    "c23_collect",
    "c23_rebuild"
   ],
   "note": "Outputs of every history are those of a plain set of triples; iteration, no panic, collect, serialize/rebuild."
  },
  {
   "property": "C24",
   "status": "proved",
   "theorems": [
    "c24_equality_by_contents",
    "c24_lexicographic_total_order"
   ],
   "note": "==, cmp and hash depend on the set only; cmp is the lexicographic total order of the sorted sequences."
  },
  {
   "property": "C25",
   "status": "partial",
   "theorems": [
    "c25_resources_sound_partial",
    "c25_resources_exact_partial",
    "c25_resources_exact_refuted"
   ],
   "note": "REFUTED as stated (same cause as C21). Proved: soundness for all histories, exactness for each resource that no inserted triple repeats while new. C59 gives the exact answer for every history."
  },
  {
   "property": "C26",
   "status": "proved",
   "theorems": [
    "c26_indexed_dataset_is_a_set",
    "c26_contents",
    "c26_new_is_reached"
   ],
   "note": "Histories include insert, remove, extend, remove_graph, partial extractions and observers, starting from any converted BTreeDataset. Which triples remove_graph returns is C31, which quads an extraction yields is C32; here they are only required to be present and are what is removed."
  },
  {
   "property": "C27",
   "status": "proved",
   "theorems": [
    "c27_conversion_preserves"
   ],
   "note": "The conversion of every reachable BTreeDataset succeeds with the same quads; that it is as usable is in C26 and C28-C32, C49, C50, whose histories start with a conversion."
  },
  {
   "property": "C28",
   "status": "partial",
   "theorems": [
    "c28_pattern_sound_partial",
    "c28_pattern_complete_partial",
    "c28_pattern_all_partial",
    "c28_pattern_exact_partial",
    "c28_repeated_resource_refuted",
    "c28_after_removal_refuted",
    "c28_provided_queries_partial",
    "c28_provided_queries_refuted"
   ],
   "note": "REFUTED as stated, in two ways: after inserting a quad that repeats a new resource a same-as pattern misses it; after a removal, patterns without a given subject stop at the vacant slot. Proved: soundness and no duplicates for all histories; if the subject is given or no slot is vacant, every matching element whose checked resources were never repeated while new is yielded (so a pattern that checks nothing is exact); exactness for histories without repeated new resources. C60 gives the exact answer for every history."
  },
  {
   "property": "C29",
   "status": "partial",
   "theorems": [
    "c29_positions_sound_partial",
    "c29_positions_each_partial",
    "c29_positions_at_partial",
    "c29_positions_stable_partial",
    "c29_positions_exact_partial",
    "c29_named_graphs_complete_partial",
    "c29_named_graphs_exact_partial",
    "c29_resources_partial",
    "c29_subjects_predicates_refuted",
    "c29_objects_refuted",
    "c29_named_graphs_refuted",
    "c29_phantom_graph_refuted",
    "c29_once_refuted"
   ],
   "note": "REFUTED as stated: removing a quad hides its subject, predicate and object even if other quads use them; a named graph whose name occurs elsewhere stays reported after its last quad is removed; repeated new resources are reported twice; a resource that never named a graph may be listed as one. Proved: soundness and counts for all histories; for each resource never repeated while new, exactly when it is reported (stable), and exactness under the stated side conditions. C61 gives the exact answer for every history."
  },
  {
   "property": "C30",
   "status": "partial",
   "theorems": [
    "c30_no_panic_partial",
    "c30_named_graphs_panic_refuted"
   ],
   "note": "REFUTED as stated: named_graphs() panics after four operations. Proved: nothing else panics, for all histories; named_graphs() does not panic under the conditions of c29_named_graphs_exact_partial. C61 gives the exact answer for every history."
  },
  {
   "property": "C31",
   "status": "partial",
   "theorems": [
    "c31_remove_graph_partial",
    "c31_returned_graph_is_a_set",
    "c31_remove_graph_refuted"
   ],
   "note": "REFUTED as stated: after repeated new resources remove_graph may miss quads. Proved: for all histories what is returned was in the graph and is what is removed; everything for the default graph and for every graph whose name was never repeated while new; the returned graph is a set of triples from then on. C61 gives the exact answer for every history."
  },
  {
   "property": "C32",
   "status": "partial",
   "theorems": [
    "c32_extract_removes_what_it_yields_partial",
    "c32_extract_complete_partial",
    "c32_extract_exact_partial",
    "c32_extract_refuted"
   ],
   "note": "REFUTED as stated: same causes as C28. Proved: for all histories what is yielded matches and is what is removed; completeness and exactness under the conditions of c28_pattern_complete_partial and c28_pattern_exact_partial."
  },
  {
   "property": "C33",
   "status": "proved",
   "theorems": [
    "c33_indexed_graph_is_a_set",
    "c33_contents",
    "c33_new_is_reached",
    "c33_no_panic",
    "c33_conversion_preserves"
   ],
   "note": "Histories start from any converted BTreeGraph; the outputs are those of a set for the whole history."
  },
  {
   "property": "C34",
   "status": "partial",
   "theorems": [
    "c34_pattern_sound_partial",
    "c34_pattern_complete_partial",
    "c34_pattern_all_partial",
    "c34_pattern_exact_partial",
    "c34_repeated_resource_refuted",
    "c34_after_removal_refuted",
    "c34_provided_queries_partial",
    "c34_provided_queries_refuted"
   ],
   "note": "REFUTED as stated, in two ways: after inserting a triple that repeats a new resource a same-as pattern misses it; after a removal, patterns without a given subject stop at the vacant slot. Proved: soundness and no duplicates for all histories; if the subject is given or no slot is vacant, every matching element whose checked resources were never repeated while new is yielded (so a pattern that checks nothing is exact); exactness for histories without repeated new resources."
  },
  {
   "property": "C35",
   "status": "partial",
   "theorems": [
    "c35_positions_sound_partial",
    "c35_positions_each_partial",
    "c35_positions_at_partial",
    "c35_positions_stable_partial",
    "c35_positions_exact_partial",
    "c35_resources_partial",
    "c35_subjects_predicates_refuted",
    "c35_objects_refuted",
    "c35_once_refuted"
   ],
   "note": "REFUTED as stated: removing a triple hides its subject, predicate and object even if other triples use them; repeated new resources are reported twice. Proved: soundness and counts for all histories; for each resource never repeated while new, exactly when it is reported (stable), and exactness under the stated side conditions. C61 gives the exact answer for every history."
  },
  {
   "property": "C36",
   "status": "proved",
   "theorems": [
    "c36_dataset_contains",
    "c36_quad_objects",
    "c36_quad_predicates_objects",
    "c36_dataset_try",
    "c36_dataset_try_error",
    "c36_graph_contains",
    "c36_triple_objects",
    "c36_triple_predicates_objects",
    "c36_graph_try",
    "c36_graph_try_error",
    "c36_graph_quads",
    "c36_graph_as_dataset"
   ],
   "note": "for every container given by its iterators and their next function; the iterator over predicates is a finite list; what this gives on the indexed containers is stated under C28 and C34"
  },
  {
   "property": "C37",
   "status": "proved",
   "theorems": [
    "c37_from_pattern",
    "c37_from_triple",
    "c37_from_option_triple",
    "c37_filter_triple"
   ],
   "note": "from_pattern, from_triple, from_option_triple against assignments of resources to variables."
  },
  {
   "property": "C38",
   "status": "proved",
   "theorems": [
    "c38_from_pattern",
    "c38_from_pattern_strict_partial",
    "c38_from_pattern_strict_refuted",
    "c38_from_quad",
    "c38_from_option_quad",
    "c38_with_any_graph",
    "c38_into_triple",
    "c38_with_any_graph_into_triple",
    "c38_from_pattern_into_triple"
   ],
   "note": "Variables range over graph labels (a resource or, in the graph position only, the default graph). Under the strict reading where a graph variable must be a resource the property is refuted for default-graph quads (c38_from_pattern_strict_refuted) and holds otherwise."
  },
  {
   "property": "C39",
   "status": "proved",
   "theorems": [
    "c39_triple_patterns_canonical",
    "c39_quad_patterns_canonical"
   ],
   "note": "Over any resource type with two distinct elements."
  },
  {
   "property": "C40",
   "status": "proved",
   "theorems": [
    "c40_triple_accessors",
    "c40_quad_accessors",
    "c40_triple_accessors_determine",
    "c40_quad_accessors_determine",
    "c40_into_parts",
    "c40_into_triple_accessors",
    "c40_map_accessors",
    "c40_map_matches",
    "c40_map_matches_any",
    "c40_triple_ids",
    "c40_quad_ids",
    "c40_as_given",
    "c40_map_from_pattern",
    "c40_is_id_or",
    "c40_map2"
   ],
   "note": "Accessors, into_parts, into_triple, map, map2. as_ref is the identity in the model."
  },
  {
   "property": "C41",
   "status": "partial",
   "theorems": [
    "c41_set_subject",
    "c41_set_subject_returns",
    "c41_set_predicate_partial",
    "c41_set_predicate_returns",
    "c41_set_predicate_refuted",
    "c41_set_object_partial",
    "c41_set_object_refuted",
    "c41_set_object_returns_partial",
    "c41_set_object_returns_refuted",
    "c41_set_object_returns_any",
    "c41_any_subject_set_predicate",
    "c41_any_subject_set_object_partial"
   ],
   "note": "REFUTED as stated: set_predicate on ?x ?y ?x forgets object=subject; set_object drops the equality on ?x p ?x but keeps it on ?x ?y ?x; set_object returns Any instead of SameAsPredicate. Proved: set_subject for all patterns; set_predicate and set_object for all other patterns; returned values otherwise."
  },
  {
   "property": "C42",
   "status": "partial",
   "theorems": [
    "c42_from_triple_meaning",
    "c42_from_option_triple_meaning",
    "c42_from_triple_pattern_meaning",
    "c42_lifting_consistent_partial",
    "c42_from_triple_is_from_option_triple",
    "c42_lifting_consistent_refuted"
   ],
   "note": "REFUTED as stated: from_triple and from_option_triple give any graph, from_triple_pattern gives the default graph. Proved: exact meaning of the three, agreement on the default graph."
  },
  {
   "property": "C43",
   "status": "proved",
   "theorems": [
    "c43_get_answers",
    "c43_insert_new",
    "c43_gs_get_answers",
    "c43_as_get_answers",
    "c43_ga_get_answers",
    "c43_gg_get_answers",
    "c43_aa_get_answers",
    "c43_ag_get_answers"
   ],
   "note": "For every insertion history and every triple the answer is, up to order, one value per inserted pair whose pattern matches; also proved for the six public inner maps."
  },
  {
   "property": "C44",
   "status": "partial",
   "theorems": [
    "c44_gs_union_exact",
    "c44_gs_union_partial",
    "c44_as_union_exact",
    "c44_as_union_partial",
    "c44_ga_union_exact",
    "c44_ga_union_partial",
    "c44_gg_union_exact",
    "c44_gg_union_partial",
    "c44_aa_union_exact",
    "c44_aa_union_partial",
    "c44_ag_union_exact",
    "c44_ag_union_partial",
    "c44_gs_union_refuted",
    "c44_as_union_refuted",
    "c44_ga_union_refuted",
    "c44_gg_union_refuted",
    "c44_aa_union_refuted",
    "c44_ag_union_refuted"
   ],
   "note": "REFUTED as stated: union_with extends nested hash maps, so values stored in the first map under a key the second map also uses are lost (c44_*_union_refuted, one per map type). Proved: the exact answer of the union (c44_*_union_exact), and that nothing is lost when no key is shared (c44_*_union_partial)."
  },
  {
   "property": "C45",
   "status": "proved",
   "theorems": [
    "c45_recognised",
    "c45_recognised_with",
    "c45_never_panics",
    "c45_are_isomorphic_with",
    "c45_recognised_normal",
    "c45_normal_with",
    "c45_btree_datasets",
    "c45_indexed_datasets"
   ],
   "note": "any interpretation in which no two resources share a term, local terms with (), also when IRIs and tags are compared up to normal forms, and the datasets enumerated by the two tree containers after any histories; the search never panics"
  },
  {
   "property": "C46",
   "status": "proved",
   "theorems": [
    "c46_bijection",
    "c46_bijection_with",
    "c46_bijection_normal"
   ],
   "note": "any interpretation; also up to normal forms of IRIs and tags"
  },
  {
   "property": "C47",
   "status": "partial",
   "theorems": [
    "c47_ground_quads_refuted",
    "c47_blank_quads_refuted",
    "c47_exact_partial",
    "c47_exact_with_partial",
    "c47_found_partial",
    "c47_isomorphic_partial",
    "c47_mapping_partial",
    "c47_isomorphic_with_partial",
    "c47_exact_normal_partial",
    "c47_isomorphic_normal_partial",
    "c47_mapping_normal_partial",
    "c47_btree_datasets_partial",
    "c47_indexed_datasets_partial"
   ],
   "note": "REFUTED: quads without blank nodes are never compared, and the named resources of quads with several blank nodes are not compared together with them (ring witness); proved: the exact meaning of the answer (half isomorphism), and the property itself for datasets sharing their ground quads whose quads are identifiable (also up to normal forms of IRIs and tags, and for the contents of containers after any histories)"
  },
  {
   "property": "C48",
   "status": "partial",
   "theorems": [
    "c48_lexical",
    "c48_lexical_denotes",
    "c48_local_generator_lexical",
    "c48_local_generator_insert",
    "c48_dispatch_lookup",
    "c48_dispatch_insert",
    "c48_terms_of",
    "c48_local_terms_of",
    "c48_is_anonymous",
    "c48_generated_distinct_partial",
    "c48_generated_fresh_refuted",
    "c48_with_generator_partial",
    "c48_with_local_generator_partial",
    "c48_with_generator_generates",
    "c48_with_local_generator_generates",
    "c48_with_local_generator_distinct_partial",
    "c48_with_generator_reverse",
    "c48_with_local_generator_reverse",
    "c48_with_local_generator_fresh_refuted",
    "c48_fallible"
   ],
   "note": "REFUTED freshness: an identifier the program already uses (_:0) is generated again as a new resource; everything else is proved, for every interpretation and every history of insertions and generations, including that the new resources are the successive terms of the generator"
  },
  {
   "property": "C49",
   "status": "partial",
   "theorems": [
    "c49_multi_pattern_sound_partial",
    "c49_multi_pattern_complete_partial",
    "c49_multi_pattern_exact_partial",
    "c49_multi_pattern_refuted"
   ],
   "note": "REFUTED as stated: same causes as C28. Proved: soundness and no duplicates for all histories; completeness and exactness under the conditions of c28_pattern_complete_partial and c28_pattern_exact_partial."
  },
  {
   "property": "C50",
   "status": "proved",
   "theorems": [
    "c50_equality_by_contents",
    "c50_lexicographic_total_order",
    "c50_collect",
    "c50_rebuild"
   ],
   "note": "All histories, including those of the refuted properties."
  },
  {
   "property": "C51",
   "status": "proved",
   "theorems": [
    "c51_equality",
    "c51_ordering",
    "c51_collect",
    "c51_rebuild"
   ],
   "note": "All histories, including those of the refuted properties."
  },
  {
   "property": "C52",
   "status": "partial",
   "theorems": [
    "c52_flags_partial",
    "c52_flags_refuted",
    "c52_flags_iff_partial",
    "c52_strings_read_partial"
   ],
   "note": "REFUTED: width and precision apply to each character of a string or IRI; proved: without width and precision the text is the plain one, these are the only harmless specifications, and what is read from a string written with any specification"
  },
  {
   "property": "C53",
   "status": "proved",
   "theorems": [
    "c53_blank_ids",
    "c53_literal_types",
    "c53_literals",
    "c53_terms",
    "c53_local_terms",
    "c53_local_terms_distinct",
    "c53_only_valid_terms",
    "c53_accepted_types",
    "c53_accepted_literals",
    "c53_accepted_terms",
    "c53_accepted_local_terms",
    "c53_accepted_triples",
    "c53_accepted_quads",
    "c53_accepted_pattern_elements",
    "c53_borrowed_forms",
    "c53_triples",
    "c53_quads",
    "c53_local_terms_not_null",
    "c53_pattern_elements",
    "c53_btree_dataset",
    "c53_btree_graph",
    "c53_indexed_dataset",
    "c53_indexed_graph",
    "c53_btree_dataset_input",
    "c53_btree_graph_input",
    "c53_indexed_dataset_input",
    "c53_indexed_graph_input",
    "c53_generated_refuted"
   ],
   "note": "on the data model of formats of the JSON family; the accepted inputs of every term, triple, quad and pattern element type are characterized exactly; IRIs are only assumed to begin with a letter; identifiers are valid, as the statement says: c53_generated_refuted shows that a generator with an unchecked prefix leaves that domain"
  },
  {
   "property": "C54",
   "status": "partial",
   "theorems": [
    "c54_triple_exact",
    "c54_triple_panics",
    "c54_quad_exact",
    "c54_quad_panics",
    "c54_triples_exact",
    "c54_triples_panics",
    "c54_quads_exact",
    "c54_quads_panics",
    "c54_one_reading",
    "c54_pattern_exact_partial",
    "c54_pattern_constants_refuted",
    "c54_pattern_no_constant_compiles",
    "c54_pattern_never_panics"
   ],
   "note": "the four macros of triples and quads are characterized exactly; REFUTED for grdf_quad_pattern!: no pattern with an IRI, blank node or literal compiles (c54_pattern_constants_refuted, c54_pattern_no_constant_compiles); proved for patterns of variables and identifiers"
  },
  {
   "property": "C55",
   "status": "proved",
   "theorems": [
    "c55_btree_dataset_of_classes",
    "c55_btree_graph_of_classes",
    "c55_indexed_dataset_of_classes",
    "c55_indexed_dataset_contents",
    "c55_indexed_dataset_pattern",
    "c55_indexed_graph_of_classes",
    "c55_indexed_graph_pattern",
    "c55_btree_dataset_renamed",
    "c55_btree_graph_renamed",
    "c55_indexed_dataset_renamed",
    "c55_indexed_graph_renamed",
    "c55_btree_dataset_cmp_renamed",
    "c55_btree_graph_cmp_renamed",
    "c55_indexed_dataset_cmp_renamed",
    "c55_indexed_graph_cmp_renamed",
    "c55_btree_dataset_own_resources",
    "c55_btree_graph_own_resources",
    "c55_indexed_dataset_own_resources",
    "c55_indexed_graph_own_resources"
   ],
   "note": "completeness of patterns on classes follows the same restrictions as C28 and C34, through the renaming theorems"
  },
  {
   "property": "C56",
   "status": "proved",
   "theorems": [
    "c56_places",
    "c56_dataset_answers",
    "c56_graph_answers",
    "c56_dataset_wildcards",
    "c56_graph_wildcards",
    "c56_dataset_insertion_order",
    "c56_graph_insertion_order"
   ],
   "note": "all histories of the statement; c56_places and the two theorems about wildcards hold for all histories; C60 covers all histories"
  },
  {
   "property": "C57",
   "status": "proved",
   "theorems": [
    "c57_btree_dataset_iterators",
    "c57_btree_graph_iterators",
    "c57_indexed_dataset_iterators",
    "c57_indexed_graph_iterators",
    "c57_named_graphs_calls",
    "c57_dataset_query",
    "c57_dataset_multi_query",
    "c57_dataset_extract",
    "c57_graph_query",
    "c57_map_values",
    "c57_terms_of",
    "c57_local_terms_of",
    "c57_quad_objects",
    "c57_quad_predicates_objects",
    "c57_triple_objects",
    "c57_triple_predicates_objects",
    "c57_graph_as_dataset",
    "c57_infallible"
   ],
   "note": "iterators over the collections of the standard library and of slab and raw_btree are taken to be fused"
  },
  {
   "property": "C58",
   "status": "proved",
   "theorems": [
    "c58_triple_map",
    "c58_quad_map",
    "c58_pattern_map",
    "c58_pattern_map2",
    "c58_pattern_determined",
    "c58_triple_calls",
    "c58_quad_calls",
    "c58_pattern_calls",
    "c58_pattern_calls2"
   ],
   "note": ""
  },
  {
   "property": "C59",
   "status": "proved",
   "theorems": [
    "c59_btree_dataset_resources",
    "c59_btree_graph_resources",
    "c59_indexed_dataset_resources",
    "c59_indexed_graph_resources",
    "c59_same_changes_same_resources",
    "c59_same_changes_same_graph_resources"
   ],
   "note": ""
  },
  {
   "property": "C60",
   "status": "proved",
   "theorems": [
    "c60_dataset_queries",
    "c60_graph_queries",
    "c60_dataset_subject",
    "c60_dataset_remove_graph"
   ],
   "note": ""
  },
  {
   "property": "C61",
   "status": "proved",
   "theorems": [
    "c61_dataset_listings",
    "c61_remove_named_graph",
    "c61_graph_listings"
   ],
   "note": ""
  },
  {
   "property": "C62",
   "status": "proved",
   "theorems": [
    "c62_dataset_runs",
    "c62_dataset_answers",
    "c62_graph_answers"
   ],
   "note": ""
  },
  {
   "property": "C63",
   "status": "partial",
   "theorems": [
    "c63_btree_dataset_partial",
    "c63_btree_graph_partial",
    "c63_losses_partial",
    "c63_no_interruption_partial",
    "c63_idle_dataset_partial",
    "c63_idle_graph_partial",
    "c63_same_dataset_partial",
    "c63_same_dataset_done_partial",
    "c63_same_graph_partial",
    "c63_same_graph_done_partial",
    "c63_dataset_calls_partial",
    "c63_graph_calls_partial",
    "c63_btree_dataset_refuted",
    "c63_btree_dataset_eq_refuted",
    "c63_btree_graph_refuted",
    "c63_btree_graph_eq_refuted",
    "c63_resources_refuted"
   ],
   "note": "REFUTED as stated: an insertion interrupted at its last comparisons leaves a quad that len, is_empty, eq and hash count for ever (c63_btree_dataset_refuted, c63_btree_dataset_eq_refuted and the same for graphs), and resources of an interrupted removal stay (c63_resources_refuted). Proved for every history and every interruption: no operation panics by itself and all others return what they return for the set before or after the interrupted operation; what len counts in excess are elements that interrupted operations were to insert, at most one each; operations that do not change the set leave the container identical, interrupted or not."
  },
  {
   "property": "C64",
   "status": "partial",
   "theorems": [
    "c64_indexed_dataset_partial",
    "c64_converted_dataset_partial",
    "c64_indexed_graph_partial",
    "c64_remove_graph_partial",
    "c64_idle_dataset_partial",
    "c64_idle_converted_partial",
    "c64_idle_graph_partial",
    "c64_same_dataset_partial",
    "c64_same_dataset_done_partial",
    "c64_same_remove_graph_partial",
    "c64_same_graph_partial",
    "c64_same_graph_done_partial",
    "c64_dataset_calls_partial",
    "c64_graph_calls_partial",
    "c64_wrong_subject_refuted",
    "c64_wrong_subject_graph_refuted",
    "c64_missed_refuted",
    "c64_ghost_refuted",
    "c64_remove_default_graph_refuted",
    "c64_remove_named_graph_refuted",
    "c64_remove_graph_refuted",
    "c64_converted_query_refuted"
   ],
   "note": "REFUTED as stated: after an interrupted insertion a query returns a quad with another subject (c64_wrong_subject_refuted, also for graphs), misses a quad (c64_missed_refuted) or returns one that is not contained (c64_ghost_refuted); after an interrupted removal remove_graph panics (c64_remove_default_graph_refuted, c64_remove_named_graph_refuted); an interrupted remove_graph loses quads (c64_remove_graph_refuted); after the conversion of an interrupted BTreeDataset a query panics (c64_converted_query_refuted). Proved for every history and every interruption: no set operation panics by itself, all return what they return for the set before or after the interrupted operation (len and is_empty up to losses); queries do not panic and return only elements and losses, each at most once, if there was no loss before a conversion; operations that do not change the set leave the container identical."
  },
  {
   "property": "C65",
   "status": "proved",
   "theorems": [
    "c65_strings_iris_tags",
    "c65_literals",
    "c65_terms",
    "c65_local_terms",
    "c65_statements",
    "c65_btree_dataset",
    "c65_indexed_dataset",
    "c65_btree_graph",
    "c65_indexed_graph",
    "c65_contextual",
    "c65_context_ignored",
    "c65_stops_at_failure",
    "c65_prefix",
    "c65_bounded_buffer",
    "c65_one_text"
   ],
   "note": ""
  },
  {
   "property": "C66",
   "status": "proved",
   "theorems": [
    "c66_btree_dataset_slots",
    "c66_btree_dataset_memory",
    "c66_btree_graph_slots",
    "c66_btree_graph_memory",
    "c66_indexed_dataset_slots",
    "c66_indexed_dataset_memory",
    "c66_indexed_dataset_emptied",
    "c66_indexed_graph_slots",
    "c66_indexed_graph_memory"
   ],
   "note": ""
  },
  {
   "property": "C67",
   "status": "proved",
   "theorems": [
    "c67_interrupted",
    "c67_one_lost",
    "c67_same",
    "c67_same_done",
    "c67_lost"
   ],
   "note": "c67_lost shows that one quad can be lost indeed."
  },
  {
   "property": "C68",
   "status": "partial",
   "theorems": [
    "c68_valid_partial",
    "c68_random_fresh_partial",
    "c68_named_refuted",
    "c68_fresh_refuted",
    "c68_names_partial"
   ],
   "note": "REFUTED as stated: V3 and V5 generators return the same IRI at every call (c68_named_refuted, c68_fresh_refuted). Proved: every IRI is a valid URN of a UUID with the right version, variant and bits; V4 generators are as fresh as their random bits; V3 and V5 IRIs differ exactly if the hashes do. The file does not compile with its features enabled: the model follows its text."
  },
  {
   "property": "C69",
   "status": "partial",
   "theorems": [
    "c69_blank_ids_partial",
    "c69_literal_types_partial",
    "c69_literals_partial",
    "c69_triples_partial",
    "c69_quads_partial",
    "c69_pattern_elements_partial",
    "c69_btree_dataset_partial",
    "c69_btree_graph_partial",
    "c69_indexed_dataset_partial",
    "c69_indexed_graph_partial",
    "c69_btree_dataset_input_partial",
    "c69_btree_graph_input_partial",
    "c69_indexed_dataset_input_partial",
    "c69_indexed_graph_input_partial",
    "c69_terms_refuted",
    "c69_terms_written",
    "c69_no_term_partial",
    "c69_btree_dataset_of_terms_partial",
    "c69_btree_graph_of_terms_partial",
    "c69_indexed_dataset_of_terms_partial",
    "c69_indexed_graph_of_terms_partial",
    "c69_interrupted_refuted"
   ],
   "note": "REFUTED as stated: Term and LocalTerm are serde(untagged), whose reader needs deserialize_any, so no term and no non-empty container of terms can be read back (c69_terms_refuted, c69_no_term_partial, c69_*_of_terms_partial); and after an interrupted insertion a BTreeDataset announces too many elements (c69_interrupted_refuted). Proved for everything else."
  },
  {
   "property": "C70",
   "status": "proved",
   "theorems": [
    "c70_equivalence",
    "c70_any_order",
    "c70_any_names",
    "c70_equivalence_with",
    "c70_any_order_with",
    "c70_any_names_with"
   ],
   "note": "c70_shared_terms shows that the hypothesis on interpretations is needed."
  },
  {
   "property": "C71",
   "status": "proved",
   "theorems": [
    "c71_btree_dataset_given",
    "c71_indexed_dataset_given",
    "c71_btree_graph_given",
    "c71_indexed_graph_given",
    "c71_btree_dataset_read",
    "c71_indexed_dataset_read",
    "c71_btree_graph_read",
    "c71_indexed_graph_read",
    "c71_one_reading",
    "c71_reader_ends",
    "c71_endless_source",
    "c71_no_partial_success"
   ],
   "note": "The element type is opaque: what the serializer does with an element is its own business (C53 and C69 fix formats)."
  },
  {
   "property": "C72",
   "status": "proved",
   "theorems": [
    "c72_btree_dataset_consumed",
    "c72_btree_graph_consumed",
    "c72_indexed_dataset_consumed",
    "c72_indexed_graph_consumed",
    "c72_any_btree_dataset_consumed",
    "c72_any_btree_graph_consumed",
    "c72_any_indexed_dataset_consumed",
    "c72_any_indexed_graph_consumed",
    "c72_set_subject",
    "c72_set_predicate",
    "c72_set_object",
    "c72_any_subject_set_predicate",
    "c72_any_subject_set_object"
   ],
   "note": "That replace_with_or_abort_and_return aborts is trusted (crate replace_with)."
  },
  {
   "property": "C73",
   "status": "partial",
   "theorems": [
    "c73_btree_dataset_partial",
    "c73_btree_graph_partial",
    "c73_indexed_dataset_partial",
    "c73_indexed_graph_partial",
    "c73_btree_dataset_resources_refuted",
    "c73_btree_graph_resources_refuted",
    "c73_indexed_dataset_resources_refuted",
    "c73_indexed_graph_resources_refuted"
   ],
   "note": "REFUTED as stated: resource_count is too small for BTreeDataset and BTreeGraph and too large for the indexed containers after a quad repeated a new resource. Proved: quads_count and triples_count are exact for every history; bounds of resource_count for every history, exact if no inserted quad repeats a new resource."
  },
  {
   "property": "C74",
   "status": "proved",
   "theorems": [
    "c74_triple_pattern_compared",
    "c74_quad_pattern_compared",
    "c74_triple_pattern_keys",
    "c74_quad_pattern_keys",
    "c74_component_keys",
    "c74_variable_keys",
    "c74_variables_compared",
    "c74_triple_pattern_meaning",
    "c74_quad_pattern_meaning",
    "c74_pattern_hashes",
    "c74_variable_hashes",
    "c74_statement_hashes",
    "c74_statement_hashes_differ"
   ],
   "note": "derived implementations are written out as rustc expands them; the feed of a hasher is a list"
  },
  {
   "property": "C75",
   "status": "proved",
   "theorems": [
    "c75_strings_text",
    "c75_strings_one_text",
    "c75_terms_text",
    "c75_borrowed_text",
    "c75_statements_text",
    "c75_patterns_text",
    "c75_components_text",
    "c75_variables_text",
    "c75_btree_dataset_text",
    "c75_indexed_dataset_text",
    "c75_btree_graph_text",
    "c75_indexed_graph_text",
    "c75_same_quads",
    "c75_same_triples",
    "c75_container_characters",
    "c75_strings_tell",
    "c75_terms_tell",
    "c75_borrowed_tell",
    "c75_statements_tell",
    "c75_triple_patterns_tell",
    "c75_quad_patterns_tell",
    "c75_components_tell",
    "c75_variables_tell"
   ],
   "note": "derived implementations are written out as rustc expands them; Formatter builders, PadAdapter and str::escape_debug are modelled, the table of Unicode characters above 127 that are escaped is a parameter"
  },
  {
   "property": "C76",
   "status": "proved",
   "theorems": [
    "c76_refused_returned",
    "c76_deserialize_accepts",
    "c76_deserialize_refuses",
    "c76_deserialize_other",
    "c76_messages_differ",
    "c76_invalid_debug",
    "c76_invalid_tells",
    "c76_export_debug",
    "c76_export_tells",
    "c76_export_display",
    "c76_export_differ"
   ],
   "note": "the visitor methods that serde provides and the messages of its error type are modelled, floats are left out"
  },
  {
   "property": "C77",
   "status": "partial",
   "theorems": [
    "c77_lookups",
    "c77_plain",
    "c77_get",
    "c77_returned",
    "c77_interrupted",
    "c77_ga_lookups",
    "c77_ga_plain",
    "c77_ga_get",
    "c77_ga_returned",
    "c77_ga_interrupted_partial",
    "c77_ga_union",
    "c77_ga_union_lookups",
    "c77_ga_union_interrupted",
    "c77_gg_lookups",
    "c77_gg_plain",
    "c77_gg_get",
    "c77_gg_returned",
    "c77_gg_interrupted_partial",
    "c77_gg_union",
    "c77_gg_union_lookups",
    "c77_gg_union_interrupted",
    "c77_aa_lookups",
    "c77_aa_plain",
    "c77_aa_get",
    "c77_aa_returned",
    "c77_aa_interrupted_partial",
    "c77_aa_union",
    "c77_aa_union_lookups",
    "c77_aa_union_interrupted",
    "c77_ag_lookups",
    "c77_ag_plain",
    "c77_ag_get",
    "c77_ag_returned",
    "c77_ag_interrupted_partial",
    "c77_ag_union",
    "c77_ag_union_lookups",
    "c77_ag_union_interrupted",
    "c77_gs_lookups",
    "c77_gs_plain",
    "c77_gs_get",
    "c77_gs_returned",
    "c77_gs_interrupted_partial",
    "c77_gs_union",
    "c77_gs_union_lookups",
    "c77_gs_union_interrupted",
    "c77_as_lookups",
    "c77_as_plain",
    "c77_as_get",
    "c77_as_returned",
    "c77_as_interrupted_partial",
    "c77_as_union",
    "c77_as_union_lookups",
    "c77_as_union_interrupted",
    "c77_ga_trace_refuted",
    "c77_gg_trace_refuted",
    "c77_aa_trace_refuted",
    "c77_ag_trace_refuted",
    "c77_gs_trace_refuted",
    "c77_as_trace_refuted"
   ],
   "note": "REFUTED as stated: an interrupted insertion may leave an empty entry, and as the argument of union_with a map with such an entry hides the values of the other map under that key (c77_*_trace_refuted, one per inner map). Proved: for TriplePatternMap, which has no union, nothing can be seen of it (c77_get, c77_returned, c77_interrupted); for the inner maps the same, the exact answers of the union (c77_*_union) and what an interrupted union leaves (c77_*_union_interrupted). Trusted: a hash table is unchanged when a look-up panics, and keys already stored can be hashed again"
  },
  {
   "property": "C78",
   "status": "proved",
   "theorems": [
    "c78_tp_text",
    "c78_as_text",
    "c78_gs_text",
    "c78_ag_text",
    "c78_aa_text",
    "c78_gg_text",
    "c78_ga_text",
    "c78_as_union_text",
    "c78_gs_union_text",
    "c78_ag_union_text",
    "c78_aa_union_text",
    "c78_gg_union_text",
    "c78_ga_union_text",
    "c78_tp_reads",
    "c78_as_reads",
    "c78_gs_reads",
    "c78_ag_reads",
    "c78_aa_reads",
    "c78_gg_reads",
    "c78_ga_reads",
    "c78_characters",
    "c78_numbers",
    "c78_strings",
    "c78_terms",
    "c78_statements"
   ],
   "note": "For the seven maps: after any insertions, and any union of two such maps, the possible texts are exactly those of the trees that list the pairs; equal texts give equal pairs when the texts of values and resources can be read and do not begin with a closing brace; numbers, strings, terms and statements qualify. Trusted: DebugSet and DebugMap of core::fmt, Debug of HashSet and HashMap as modelled"
  },
  {
   "property": "C79",
   "status": "proved",
   "theorems": [
    "c79_ga_get",
    "c79_ga_insert",
    "c79_ga_apart",
    "c79_ga_algebra",
    "c79_ga_text",
    "c79_gg_get",
    "c79_gg_insert",
    "c79_gg_apart",
    "c79_gg_algebra",
    "c79_gg_text",
    "c79_aa_get",
    "c79_aa_insert",
    "c79_aa_apart",
    "c79_aa_algebra",
    "c79_aa_text",
    "c79_ag_get",
    "c79_ag_insert",
    "c79_ag_apart",
    "c79_ag_algebra",
    "c79_ag_text",
    "c79_gs_get",
    "c79_gs_insert",
    "c79_gs_apart",
    "c79_gs_algebra",
    "c79_gs_text",
    "c79_as_get",
    "c79_as_insert",
    "c79_as_apart",
    "c79_as_algebra",
    "c79_as_text"
   ],
   "note": "For the six maps, by induction on the tree; the tree of a union of two maps built by insertions alone is C44"
  },
  {
   "property": "C80",
   "status": "proved",
   "theorems": [
    "c80_ga_left",
    "c80_ga_sound",
    "c80_ga_kept",
    "c80_ga_whole",
    "c80_gg_left",
    "c80_gg_sound",
    "c80_gg_kept",
    "c80_gg_whole",
    "c80_aa_left",
    "c80_aa_sound",
    "c80_aa_kept",
    "c80_aa_whole",
    "c80_ag_left",
    "c80_ag_sound",
    "c80_ag_kept",
    "c80_ag_whole",
    "c80_gs_left",
    "c80_gs_sound",
    "c80_gs_kept",
    "c80_gs_whole",
    "c80_as_left",
    "c80_as_sound",
    "c80_as_kept",
    "c80_as_whole"
   ],
   "note": "For the six maps, by induction on the tree; trusted as in C77: a hash table is unchanged when a look-up panics, and keys already stored can be hashed again"
  },
  {
   "property": "C81",
   "status": "proved",
   "theorems": [
    "c81_ga_exact",
    "c81_ga_insert",
    "c81_ga_origin",
    "c81_ga_classes",
    "c81_ga_renamed",
    "c81_ga_left",
    "c81_gg_exact",
    "c81_gg_insert",
    "c81_gg_origin",
    "c81_gg_classes",
    "c81_gg_renamed",
    "c81_gg_left",
    "c81_aa_exact",
    "c81_aa_insert",
    "c81_aa_origin",
    "c81_aa_classes",
    "c81_aa_renamed",
    "c81_aa_left",
    "c81_ag_exact",
    "c81_ag_insert",
    "c81_ag_origin",
    "c81_ag_classes",
    "c81_ag_renamed",
    "c81_ag_left",
    "c81_gs_exact",
    "c81_gs_insert",
    "c81_gs_origin",
    "c81_gs_classes",
    "c81_gs_renamed",
    "c81_gs_left",
    "c81_as_exact",
    "c81_as_insert",
    "c81_as_origin",
    "c81_as_classes",
    "c81_as_renamed",
    "c81_as_left",
    "c81_tpm_exact",
    "c81_tpm_insert",
    "c81_tpm_classes",
    "c81_tpm_renamed"
   ],
   "note": "For the six maps with union_with and for TriplePatternMap; std trusted: HashSet::insert and HashMap::insert keep the old key if an equal one is held, HashMap::extend replaces the value"
  },
  {
   "property": "C82",
   "status": "proved",
   "theorems": [
    "c82_names",
    "c82_vocabulary",
    "c82_distinct",
    "c82_iris",
    "c82_literals",
    "c82_apart"
   ],
   "note": "All 33 constants of schema.rs and XSD_STRING; a constant is its text, and IRI equality is any reflexive one that tells them apart"
  },
  {
   "property": "C83",
   "status": "proved",
   "theorems": [
    "c83_history",
    "c83_bounds",
    "c83_extract",
    "c83_same",
    "c83_enough",
    "c83_recovers",
    "c83_wrong_graph",
    "c83_own_panic",
    "c83_wrong_extraction",
    "c83_twice"
   ],
   "note": "Panics inside Drop are in C86; the iterator of an extraction is dropped before the next operation, as the borrow checker asks; c83_wrong_graph, c83_own_panic, c83_wrong_extraction and c83_twice are the limits"
  },
  {
   "property": "C84",
   "status": "proved",
   "theorems": [
    "c84_with_generator",
    "c84_with_local_generator",
    "c84_means",
    "c84_local_means",
    "c84_blank_checked",
    "c84_blank_never_repeats",
    "c84_distinct",
    "c84_cell",
    "c84_cell_within"
   ],
   "note": "Without overflow checks the counter of blank node identifiers wraps; there the theorems ask for at most usize::MAX + 1 calls.  New resources may coincide with terms of the program (C48)"
  },
  {
   "property": "C85",
   "status": "proved",
   "theorems": [
    "c85_btree_dataset",
    "c85_btree_graph",
    "c85_indexed_dataset",
    "c85_indexed_graph",
    "c85_insert_last",
    "c85_same_btree_dataset",
    "c85_same_btree_graph",
    "c85_same_indexed_dataset",
    "c85_same_indexed_graph",
    "c85_counted_btree_dataset",
    "c85_counted_btree_graph",
    "c85_counted_indexed_dataset",
    "c85_counted_indexed_graph",
    "c85_named_graphs_left"
   ],
   "note": "Losses of insertions interrupted by a comparison are counted by len, and the indexes may answer queries wrongly, as in C63 and C64 (queries return only elements of the set and losses).  remove_graph and extractions are in C86; the destructor of the container is not included; of two panics only the first counts (the second aborts).  c85_named_graphs_left is the exception for named_graphs"
  },
  {
   "property": "C86",
   "status": "proved",
   "theorems": [
    "c86_history",
    "c86_bounds",
    "c86_extract",
    "c86_same",
    "c86_enough",
    "c86_recovers",
    "c86_counted_graph",
    "c86_counted_extract",
    "c86_graph_lost",
    "c86_quad_lost",
    "c86_own_panic",
    "c86_wrong_graph"
   ],
   "note": "The exceptions are c86_graph_lost, c86_quad_lost, c86_own_panic and c86_wrong_graph.  The state left by an interrupted operation is given by the relation survives with cut.  Values dropped while another panic unwinds, and the destructor of a whole container or iterator, are not included"
  },
  {
   "property": "C87",
   "status": "proved",
   "theorems": [
    "c87_relabelled",
    "c87_met",
    "c87_returns",
    "c87_merge",
    "c87_content"
   ],
   "note": "The program is written with the functions of the crate, in RelabelModel.v; its map of names is an association list"
  },
  {
   "property": "C88",
   "status": "proved",
   "theorems": [
    "c88_loaded",
    "c88_round_trip",
    "c88_exported"
   ],
   "note": "The programs are written with the functions of the crate, in LoadModel.v.  Insertions of the interpretation do not panic (panics are in C84)"
  },
  {
   "property": "C89",
   "status": "proved",
   "theorems": [
    "c89_sound",
    "c89_complete",
    "c89_missed"
   ],
   "note": "The program is written with the functions of the crate, in JoinModel.v.  c89_missed shows that the exceptions of the statement occur"
  },
  {
   "property": "C90",
   "status": "partial",
   "theorems": [
    "c90_factorial_refuted",
    "c90_polynomial_refuted",
    "c90_stack_refuted",
    "c90_counted",
    "c90_counted_with",
    "c90_bounds_partial",
    "c90_bounds_with_partial",
    "c90_distinct_partial",
    "c90_distinct_with_partial"
   ],
   "note": "REFUTED as stated: for every n some datasets of n + 2 quads need n! calls, and a dataset of n quads compared with itself nests n + 1 calls.  Proved: at most (n + 1)! calls and n + 1 nested ones for n blank nodes, exactly n + 1 nested ones if recognised; at most n + 1 calls if no blank node looks like two of the other dataset"
  },
  {
   "property": "C91",
   "status": "partial",
   "theorems": [
    "c91_subject_refuted",
    "c91_object_refuted",
    "c91_dataset_partial",
    "c91_graph_partial",
    "c91_dataset_counted",
    "c91_graph_counted"
   ],
   "note": "REFUTED as stated: for a given subject and predicate the whole index of the predicate may be passed over although the subject has one triple, and ?x ?x o looks at every triple of the graph although one has the object o.  Proved, for both containers and any history: entries passed over are at most the elements sharing a given component, summed over the components given; elements looked at are at most n + 1 for a subject with n elements, 2n + 1 for a predicate, also for an object after any predicate and for a graph after any predicate and object; never more than the peak size plus one; counting changes no answer"
  },
  {
   "property": "C92",
   "status": "proved",
   "theorems": [
    "c92_sound",
    "c92_exact",
    "c92_rebuilt",
    "c92_repeat_missed",
    "c92_removal_missed"
   ],
   "note": "stated with its exceptions: the missed entailments are c92_repeat_missed and c92_removal_missed, consequences of findings on pattern queries"
  },
  {
   "property": "C93",
   "status": "proved",
   "theorems": [
    "c93_renamed",
    "c93_merged",
    "c93_returns",
    "c93_added",
    "c93_added_mixed",
    "c93_recognised",
    "c93_recognised_differ"
   ],
   "note": "stated with its exceptions: c93_added_mixed and c93_recognised_differ are the cases where more, or something else, is stated"
  },
  {
   "property": "C94",
   "status": "proved",
   "theorems": [
    "c94_dataset",
    "c94_graph",
    "c94_other_order",
    "c94_positions",
    "c94_removed_and_inserted"
   ],
   "note": "stated with its exceptions: c94_other_order, c94_positions and c94_removed_and_inserted show that what the statement excludes is false"
  },
  {
   "property": "C95",
   "status": "proved",
   "theorems": [
    "c95_dataset_collected",
    "c95_graph_collected",
    "c95_dataset_copied",
    "c95_graph_copied"
   ],
   "note": "both directions: exact answers if repeated resources are introduced, and a query that misses the quad otherwise"
  },
  {
   "property": "C96",
   "status": "proved",
   "theorems": [
    "c96_skolemised",
    "c96_restored",
    "c96_names",
    "c96_one_iri"
   ],
   "note": "the exception for named generators is c96_one_iri; hash functions and random bytes are parameters"
  },
  {
   "property": "C97",
   "status": "proved",
   "theorems": [
    "c97_dataset",
    "c97_graph",
    "c97_indexed_dataset",
    "c97_indexed_graph",
    "c97_queries"
   ],
   "note": "the exception for queries is c97_queries"
  },
  {
   "property": "C98",
   "status": "proved",
   "theorems": [
    "c98_edited",
    "c98_new_iri"
   ],
   "note": "the exception is c98_new_iri"
  },
  {
   "property": "C99",
   "status": "proved",
   "theorems": [
    "c99_dataset",
    "c99_graph",
    "c99_indexed_dataset",
    "c99_indexed_graph",
    "c99_versions_dataset",
    "c99_versions_graph",
    "c99_versions_indexed_dataset",
    "c99_versions_indexed_graph",
    "c99_queries"
   ],
   "note": "the exception for queries is c99_queries"
  },
  {
   "property": "C100",
   "status": "proved",
   "theorems": [
    "c100_dataset_copy",
    "c100_graph_copy",
    "c100_dataset",
    "c100_graph",
    "c100_dataset_left",
    "c100_graph_left"
   ],
   "note": "the exceptions are c100_dataset_left and c100_graph_left"
  }
 ]
}