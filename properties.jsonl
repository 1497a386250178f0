{"id": "C01", "title": "Accepted blank node identifiers are valid", "statement": "If BlankId::new, BlankIdBuf::new, BlankIdBuf::from_suffix, FromStr or serde deserialization accepts a string, that string matches the grammar the type documents: '_:' (PN_CHARS_U | [0-9]) ((PN_CHARS | '.')* PN_CHARS)?.", "quantifier": "every Unicode string", "why_tests_cant": "the set of strings is infinite and the character classes span the whole Unicode range", "anchors": ["src/blankid.rs: BlankId::new, BlankIdBuf::new, BlankIdBuf::from_suffix, check, is_pn_char, is_pn_char_u, is_pn_char_base"]}
{"id": "C02", "title": "Valid blank node identifiers are accepted", "statement": "Every string matching the documented grammar '_:' (PN_CHARS_U | [0-9]) ((PN_CHARS | '.')* PN_CHARS)? is accepted by BlankId::new.", "quantifier": "every string of the documented grammar", "why_tests_cant": "infinitely many strings; a test only tries some of them (and none of the existing ones has an inner dot)", "anchors": ["src/blankid.rs: BlankId (doc comment), check"]}
{"id": "C03", "title": "Blank node identifier constructors round-trip", "statement": "new(s) keeps the string s; from_suffix(s) succeeds exactly when new('_:'+s) does and then suffix() returns s; the suffix of an accepted identifier is not empty and begins after '_:'; from_u8/from_u16/from_u32/from_u64 produce strings that new accepts, and two different integers produce different identifiers.", "quantifier": "every string and every integer of each width", "why_tests_cant": "2^64 integers and infinitely many strings", "anchors": ["src/blankid.rs: BlankIdBuf::from_u8, from_u16, from_u32, from_u64, from_suffix, BlankId::suffix"]}
{"id": "C04", "title": "A blank id generator never repeats itself", "statement": "The identifiers returned by successive calls to next_blank_id of one generator::Blank are pairwise different, whatever the prefix and the starting offset, and whatever number of calls, until the counter overflows usize.", "quantifier": "every prefix, every starting offset, every number of calls", "why_tests_cant": "freshness is a statement about every pair of calls in an unbounded history", "anchors": ["src/term/generator/blank.rs: Blank::new, new_with_offset, new_with_prefix, new_full, next_blank_id"]}
{"id": "C05", "title": "Generated blank ids are valid blank ids", "statement": "Every identifier returned by generator::Blank (built through unsafe new_unchecked) is one that BlankId::new accepts.", "quantifier": "every prefix, offset and number of calls", "why_tests_cant": "depends on an arbitrary user supplied prefix", "anchors": ["src/term/generator/blank.rs: next_blank_id", "src/blankid.rs: check"]}
{"id": "C06", "title": "Generators with different prefixes do not collide", "statement": "Two generator::Blank with different prefixes never produce the same identifier.", "quantifier": "every pair of distinct prefixes, every pair of offsets, every number of calls", "why_tests_cant": "collisions exist only for specific prefix/counter combinations", "anchors": ["src/term/generator/blank.rs: new_with_prefix, next_blank_id"]}
{"id": "C07", "title": "Quoted strings can be read back", "statement": "The N-Triples text written for a string literal value by RdfDisplay is a '\"'-delimited string that an N-Triples reader decodes to exactly the original string, whatever follows it; it contains no raw line feed, carriage return or unescaped quote, so a value can never end its literal or its line early.", "quantifier": "every Unicode string and every following text", "why_tests_cant": "injection-safety over all strings", "anchors": ["src/display.rs: RdfDisplay for str"]}
{"id": "C08", "title": "Literal text determines the literal", "statement": "RdfDisplay (and Display) of a Literal is decodable: from the text one recovers value, datatype IRI (xsd:string when none is written) or language tag; so two literals with the same text are equal.", "quantifier": "every literal; for decoding as N-Triples, datatype IRIs without characters forbidden in IRIs and well formed language tags", "why_tests_cant": "non-ambiguity is a property of all pairs of literals", "anchors": ["src/literal/mod.rs: Display, RdfDisplay", "src/literal/type/mod.rs: RdfDisplay, is_xsd_string"]}
{"id": "C09", "title": "IRI text is valid N-Triples", "statement": "RdfDisplay of an IRI reference is '<' followed by characters allowed in IRIREF or UCHAR escapes ('\\u' and 4 hex digits) and '>', and decodes to the original.", "quantifier": "every string handed to the IRI printer; in particular every valid IRI", "why_tests_cant": "all strings", "anchors": ["src/display.rs: RdfDisplay for IriRef, Iri, IriBuf"]}
{"id": "C10", "title": "Term text determines the term", "statement": "RdfDisplay of a Term (IRI or literal) is decodable, and RdfDisplay of a LocalTerm distinguishes a blank node from every literal and prints it as its N-Triples label.", "quantifier": "every pair of terms", "why_tests_cant": "pairs of terms", "anchors": ["src/term/mod.rs: RdfDisplay for Term", "src/term/local/mod.rs: RdfDisplay for LocalTerm"]}
{"id": "C11", "title": "The text of a dataset determines the dataset", "statement": "RdfDisplay of a dataset is one line '<quad> .' per quad; the lines decode to the sequence of quads, so two datasets of ground terms with the same text contain the same quads.", "quantifier": "every dataset obtained by any history of insertions and removals", "why_tests_cant": "every pair of datasets", "anchors": ["src/dataset/impl/btree_dataset.rs: RdfDisplay", "src/quad.rs: RdfDisplay", "src/triple.rs: RdfDisplay"]}
{"id": "C12", "title": "Terms, literals and ids are totally ordered, and borrowed forms agree", "statement": "Ord on Literal, LiteralType, Term, LocalTerm and IdRef (Id itself has none) is a total order whose Equal is ==; comparing an owned value with a borrowed one (LiteralRef, LiteralTypeRef, TermRef, LocalTermRef), or two borrowed ones, gives the same answer as comparing the owned values; equal values hash alike; copy-on-write literals compare and hash like the owned ones.", "quantifier": "every pair/triple of terms", "why_tests_cant": "transitivity and antisymmetry range over all triples of values", "anchors": ["src/literal/mod.rs, ref.rs", "src/literal/type/mod.rs, ref.rs", "src/term/mod.rs, ref.rs", "src/term/local/mod.rs, ref.rs", "src/id/mod.rs, ref.rs"]}
{"id": "C13", "title": "Owned, borrowed and copy-on-write forms convert without loss", "statement": "as_ref then to_owned, as_cow then into_owned, From conversions and the try_into_* family of Term, LocalTerm, Literal, LiteralType, Id return the original value; a try_into_* either returns the payload or gives back the unchanged term.", "quantifier": "every term", "why_tests_cant": "all values", "anchors": ["src/term/mod.rs", "src/term/cow.rs", "src/term/local/mod.rs", "src/term/local/cow.rs", "src/literal/cow.rs", "src/literal/type/cow.rs", "src/id/cow.rs"]}
{"id": "C14", "title": "Borrowing a literal as a string is lawful", "statement": "Literal implements Borrow<str>, so == , cmp and hash of two literals agree with those of the borrowed strings (this is what HashMap/BTreeMap lookups by &str rely on).", "quantifier": "every pair of literals", "why_tests_cant": "pairs of literals", "anchors": ["src/literal/mod.rs: Borrow<str>", "src/literal/ref.rs: Borrow<str>"]}
{"id": "C15", "title": "Triples and quads are ordered lexicographically", "statement": "cmp/partial_cmp/== of Triple and Quad is the lexicographic order subject, predicate, object, graph with the default graph first; it is a total order when the components are, and the heterogeneous comparison agrees with the homogeneous one.", "quantifier": "every pair/triple of triples and quads over any totally ordered resource type", "why_tests_cant": "laws over all triples of values and all resource types", "anchors": ["src/triple.rs: PartialEq, PartialOrd", "src/quad.rs: PartialEq, PartialOrd"]}
{"id": "C16", "title": "Triple/quad conversions are lossless", "statement": "Triple::into_quad(g) then into_triple gives back the triple and g; component accessors, as_ref, cloned and the map_* functions touch exactly the component they name.", "quantifier": "every triple/quad and every mapping function", "why_tests_cant": "all values and functions", "anchors": ["src/triple.rs", "src/quad.rs"]}
{"id": "C17", "title": "BTreeDataset is a set of quads", "statement": "After any history of insert, remove, extend and clone-free queries on a new BTreeDataset, insert returns true exactly when the quad was absent, remove returns true exactly when it was present, contains answers membership, len is the number of distinct quads present, and is_empty says whether there is none; an operation changes membership of no other quad.", "quantifier": "every finite history of operations over any totally ordered resource type", "why_tests_cant": "unbounded histories; bugs need particular interleavings of slab slot reuse and shared resources", "anchors": ["src/dataset/impl/btree_dataset.rs: insert, remove, contains, len, is_empty"]}
{"id": "C18", "title": "BTreeDataset iterates in order, once per quad", "statement": "iter(), quads(), (&d).into_iter() and d.into_iter() yield exactly the quads present, each once, in strictly increasing quad order.", "quantifier": "every reachable dataset", "why_tests_cant": "unbounded histories", "anchors": ["src/dataset/impl/btree_dataset.rs: iter, Quads::next, IntoTriples::next"]}
{"id": "C19", "title": "BTreeDataset never panics", "statement": "No history of public operations makes BTreeDataset panic: no access to a vacant slab entry, no counter underflow.", "quantifier": "every finite history", "why_tests_cant": "a dangling index only shows after a particular history", "anchors": ["src/dataset/impl/btree_dataset.rs: insert, remove, quad_with_resources, resource_cmp, quad_cmp"]}
{"id": "C20", "title": "Dataset comparison depends only on contents", "statement": "Two BTreeDatasets, however built, are == exactly when they contain the same quads; cmp is a total order, Equal exactly when ==, and is the lexicographic order on the sorted quads; equal datasets feed the hasher the same data.", "quantifier": "every pair of histories", "why_tests_cant": "internal indexes differ between histories; only a proof covers all pairs", "anchors": ["src/dataset/impl/btree_dataset.rs: PartialEq, PartialOrd, Ord, Hash"]}
{"id": "C21", "title": "BTreeDataset tracks exactly the resources in use", "statement": "contains_resource(r) is true, and resources() yields r (once, in order), exactly when r occurs in some quad currently in the dataset.", "quantifier": "every finite history", "why_tests_cant": "needs reference counts to stay exact across unbounded histories", "anchors": ["src/dataset/impl/btree_dataset.rs: contains_resource, resources, insert, remove"]}
{"id": "C22", "title": "Rebuilding a dataset preserves it", "statement": "from_iter of any sequence contains exactly the quads of the sequence; extend adds exactly them; collecting the iteration of a dataset, and serializing then deserializing it, give an equal dataset.", "quantifier": "every sequence of quads and every reachable dataset", "why_tests_cant": "all sequences", "anchors": ["src/dataset/impl/btree_dataset.rs: FromIterator, Extend, Serialize, Deserialize"]}
{"id": "C23", "title": "BTreeGraph is a set of triples", "statement": "After any history of insert and remove on a new BTreeGraph, insert returns true exactly when the triple was absent, remove exactly when it was present, contains answers membership and len counts the triples; iteration yields them once, in increasing order; no operation panics.", "quantifier": "every finite history over any totally ordered resource type", "why_tests_cant": "unbounded histories", "anchors": ["src/dataset/graph/impl/btree_graph.rs: insert, remove, contains, len, iter"]}
{"id": "C24", "title": "Graph comparison depends only on contents", "statement": "Two BTreeGraphs are == exactly when they contain the same triples, whatever their histories; cmp is a total order consistent with it; equal graphs hash equally.", "quantifier": "every pair of histories", "why_tests_cant": "pairs of unbounded histories", "anchors": ["src/dataset/graph/impl/btree_graph.rs: PartialEq, PartialOrd, Ord, Hash"]}
{"id": "C25", "title": "BTreeGraph tracks exactly the resources in use", "statement": "contains_resource(r) is true, and resources() yields r, exactly when r occurs in a triple currently in the graph.", "quantifier": "every finite history", "why_tests_cant": "unbounded histories", "anchors": ["src/dataset/graph/impl/btree_graph.rs: contains_resource, resources, insert, remove"]}
{"id": "C26", "title": "IndexedBTreeDataset is a set of quads", "statement": "Under any history of insert, remove and remove_graph, the indexed dataset answers insert/remove/contains/len/iteration like a set of quads, in order, without panicking.", "quantifier": "every finite history", "why_tests_cant": "unbounded histories, slot reuse, nine indexes to keep consistent", "anchors": ["src/dataset/impl/indexed_btree_dataset.rs: insert, remove, remove_by_index, contains, len, iter"]}
{"id": "C27", "title": "Indexing a dataset preserves it", "statement": "into_indexed on any BTreeDataset gives an indexed dataset with the same quads, which is as usable as one built by insertions.", "quantifier": "every reachable BTreeDataset", "why_tests_cant": "all histories", "anchors": ["src/dataset/impl/indexed_btree_dataset.rs: from_non_indexed", "src/dataset/impl/btree_dataset.rs: into_indexed"]}
{"id": "C28", "title": "Quad pattern matching finds exactly the matching quads", "statement": "pattern_matching / quad_pattern_matching on an indexed dataset yields each quad of the dataset that matches the canonical pattern exactly once, and nothing else.", "quantifier": "every reachable indexed dataset and every canonical quad pattern", "why_tests_cant": "product of all histories and all patterns", "anchors": ["src/dataset/impl/indexed_btree_dataset.rs: pattern_matching, PatternMatching::next, *Constraints"]}
{"id": "C29", "title": "Subjects, predicates, objects and named graphs are reported exactly", "statement": "subjects(), predicates(), objects() and named_graphs() (and their counts) of an indexed dataset yield exactly the resources occurring in that position in some quad present.", "quantifier": "every reachable indexed dataset", "why_tests_cant": "only wrong after particular removals", "anchors": ["src/dataset/impl/indexed_btree_dataset.rs: subjects, predicates, objects, named_graphs, remove_by_index"]}
{"id": "C30", "title": "Iterating an indexed dataset never panics", "statement": "No iterator of a reachable IndexedBTreeDataset (subjects, predicates, objects, named_graphs, resources, quads, pattern matching) panics.", "quantifier": "every reachable indexed dataset", "why_tests_cant": "needs a history leaving a dangling index", "anchors": ["src/dataset/impl/indexed_btree_dataset.rs: NamedGraphs::next, IndexedBTreeDataset::remove_by_index"]}
{"id": "C31", "title": "remove_graph removes exactly one graph", "statement": "remove_graph(g) removes all quads of graph g and no other quad, and returns (when it returns a graph) exactly the triples removed; it returns None only if no quad was in that graph.", "quantifier": "every reachable indexed dataset, every graph label", "why_tests_cant": "all histories", "anchors": ["src/dataset/impl/indexed_btree_dataset.rs: remove_graph"]}
{"id": "C32", "title": "Extraction removes exactly what it returns", "statement": "Draining extract_pattern_matching(p) removes from the dataset exactly the quads it yields, and these are exactly the quads matching p.", "quantifier": "every reachable indexed dataset, every canonical pattern", "why_tests_cant": "all histories and patterns; the iterator mutates the dataset it walks", "anchors": ["src/dataset/impl/indexed_btree_dataset.rs: extract_pattern_matching, ExtractPatternMatching::next"]}
{"id": "C33", "title": "IndexedBTreeGraph is a set of triples", "statement": "Under any history of insert and remove the indexed graph answers insert/remove/contains/len/iteration like a set of triples, without panicking; into_indexed of a BTreeGraph has the same triples.", "quantifier": "every finite history", "why_tests_cant": "unbounded histories", "anchors": ["src/dataset/graph/impl/indexed_btree_graph.rs: insert, remove, contains, len, iter, from_non_indexed"]}
{"id": "C34", "title": "Triple pattern matching finds exactly the matching triples", "statement": "pattern_matching / triple_pattern_matching on an indexed graph yields each triple of the graph that matches the canonical pattern exactly once, and nothing else.", "quantifier": "every reachable indexed graph and every canonical triple pattern", "why_tests_cant": "all histories and patterns", "anchors": ["src/dataset/graph/impl/indexed_btree_graph.rs: pattern_matching, PatternMatching::next, *Constraints"]}
{"id": "C35", "title": "Subjects, predicates and objects of a graph are reported exactly", "statement": "subjects(), predicates() and objects() of an indexed graph yield exactly the resources occurring in that position of some triple present.", "quantifier": "every reachable indexed graph", "why_tests_cant": "only wrong after particular removals", "anchors": ["src/dataset/graph/impl/indexed_btree_graph.rs: subjects, predicates, objects, remove"]}
{"id": "C36", "title": "Trait-level queries agree with membership", "statement": "contains_triple/contains_quad and contains_*_subject/predicate/object/named_graph, triple_objects/quad_objects, and the fallible try_* variants answer according to the set of triples/quads, for any container whose pattern matching is exact; a graph seen as a dataset has exactly its triples as default-graph quads.", "quantifier": "every container, every pattern, every resource", "why_tests_cant": "all containers and patterns", "anchors": ["src/dataset/mod.rs: PatternMatchingDataset", "src/dataset/graph/mod.rs: PatternMatchingGraph", "src/dataset/fallible.rs", "src/dataset/graph/fallible.rs", "src/utils.rs"]}
{"id": "C37", "title": "Canonical triple patterns mean what the pattern says", "statement": "A triple matches CanonicalTriplePattern::from_pattern(p) exactly when the variables of p can be assigned resources so that p becomes the triple (repeated variables get one resource); from_triple matches exactly that triple; from_option_triple matches exactly the triples agreeing on the given components.", "quantifier": "every pattern over any variable type, every triple", "why_tests_cant": "infinitely many patterns and triples", "anchors": ["src/pattern/triple/canonical.rs: from_pattern, from_triple, from_option_triple", "src/pattern/mod.rs", "src/pattern/resource_or_variable.rs"]}
{"id": "C38", "title": "Canonical quad patterns mean what the pattern says", "statement": "A quad matches CanonicalQuadPattern::from_pattern(p) exactly when the variables of p can be assigned so that p becomes the quad (a variable stands for a resource, or for the default graph if it only occurs as the graph); from_quad, from_option_quad, with_any_graph and into_triple/into_parts have the matching meaning.", "quantifier": "every quad pattern, every quad", "why_tests_cant": "infinitely many patterns and quads", "anchors": ["src/pattern/quad/canonical.rs: from_pattern, from_quad, from_option_quad, into_parts, into_triple", "src/pattern/triple/canonical.rs: with_any_graph"]}
{"id": "C39", "title": "Canonical patterns are canonical", "statement": "Two canonical patterns that match the same triples (resp. quads) are equal, so pattern equality decides semantic equality (over a resource type with enough elements).", "quantifier": "every pair of canonical patterns", "why_tests_cant": "all pairs of patterns, all triples", "anchors": ["src/pattern/triple/canonical.rs: CanonicalTriplePattern", "src/pattern/quad/canonical.rs: CanonicalQuadPattern"]}
{"id": "C40", "title": "Pattern accessors describe the pattern", "statement": "subject(), predicate(), object(), graph(), into_parts(), as_ref and map of a canonical pattern agree with each other, and the accessors together determine which triples/quads match.", "quantifier": "every canonical pattern", "why_tests_cant": "all patterns", "anchors": ["src/pattern/triple/canonical.rs: subject, predicate, object, into_parts", "src/pattern/quad/canonical.rs: subject, predicate, object, graph, into_parts, map, map2"]}
{"id": "C41", "title": "Setting one component of a pattern changes only that component", "statement": "set_subject/set_predicate/set_object of a canonical triple pattern install the requested constraint, return the previous one, and leave the constraints between the other components as they were.", "quantifier": "every canonical pattern and every new constraint", "why_tests_cant": "many shape combinations, most untested", "anchors": ["src/pattern/triple/canonical.rs: set_subject, set_predicate, set_object (all impls)"]}
{"id": "C42", "title": "Lifting a triple pattern to quads is consistent", "statement": "from_triple(t), from_option_triple(t) and from_triple_pattern(p) of CanonicalQuadPattern treat the graph component the same way: ground triples give the same quad pattern through either route.", "quantifier": "every triple", "why_tests_cant": "all triples", "anchors": ["src/pattern/quad/canonical.rs: from_triple, from_option_triple, from_triple_pattern"]}
{"id": "C43", "title": "A pattern map returns exactly the values whose pattern matches", "statement": "After any sequence of insert(pattern, value) into a TriplePatternMap, get(triple) yields exactly the values inserted under a canonical pattern matching the triple; insert returns whether the (pattern, value) pair was new.", "quantifier": "every sequence of insertions, every triple", "why_tests_cant": "unbounded histories and all pattern shapes", "anchors": ["src/pattern/triple/map.rs: TriplePatternMap::insert, get"]}
{"id": "C44", "title": "Union of pattern maps loses nothing", "statement": "After a.union_with(b), get(t) yields exactly the values get(t) yielded on a or on b.", "quantifier": "every pair of pattern maps, every triple", "why_tests_cant": "loss only shows when both maps share an inner key", "anchors": ["src/pattern/triple/map.rs: union_with (all impls)"]}
{"id": "C45", "title": "Isomorphic datasets are recognised", "statement": "If there is a bijection between the blank nodes of a and b turning the quads of a into those of b, find_bijection returns a bijection and are_isomorphic returns true.", "quantifier": "every pair of finite datasets", "why_tests_cant": "all pairs of datasets; the search is heuristic with pruning by signatures and backtracking", "anchors": ["src/dataset/isomorphism.rs: find_bijection_with, are_isomorphic_with, signature_matches_with, find_from_candidates"]}
{"id": "C46", "title": "A returned mapping is a bijection of blank nodes", "statement": "When find_bijection(a, b) returns a mapping, forward and backward are inverse of each other and pair each blank node of a with exactly one blank node of b and conversely.", "quantifier": "every pair of finite datasets", "why_tests_cant": "all pairs of datasets", "anchors": ["src/dataset/isomorphism.rs: BTreeBijection, find_from_candidates"]}
{"id": "C47", "title": "Recognised datasets are isomorphic", "statement": "If are_isomorphic(a, b) is true then some bijection of blank nodes turns the quads of a into those of b.", "quantifier": "every pair of finite datasets", "why_tests_cant": "false positives need particular structure", "anchors": ["src/dataset/isomorphism.rs: are_isomorphic_with, resource_matches_with, quad_matches_with"]}
{"id": "C48", "title": "Interpretations are consistent", "statement": "The lexical interpretation () maps each term to itself and back; a generated resource (WithGenerator / LocalGeneratorInterpretation) is interpreted under a fresh identifier; term dispatch (iri/literal/blank) agrees with the specialised lookups; is_anonymous holds exactly when no term denotes the resource.", "quantifier": "every term and every interpretation", "why_tests_cant": "all terms and call sequences", "anchors": ["src/interpretation/mod.rs", "src/interpretation/impl/none.rs", "src/interpretation/impl/with_generator.rs", "src/term/generator/interpretation.rs"]}
{"id": "C49", "title": "Multi-pattern matching is the union of single matches", "statement": "pattern_matching over a set-valued (multi) pattern yields exactly the quads that match for some choice of the listed components.", "quantifier": "every reachable indexed dataset, every multi pattern", "why_tests_cant": "all histories and patterns", "anchors": ["src/dataset/impl/indexed_btree_dataset.rs: multi_pattern_matching, MultiPatternMatching::next, new_multi"]}
{"id": "C50", "title": "Indexed datasets compare and rebuild by contents", "statement": "Two indexed datasets are equal, compare Equal and feed the same data to a hasher exactly when they contain the same quads, however they were built; collecting a sequence keeps exactly its quads; serialising announces the right length and rebuilding from the serialised elements gives an equal dataset.", "quantifier": "every pair of reachable indexed datasets, every sequence of quads", "why_tests_cant": "Equality must be independent of slab layout and of index contents, which depend on the whole history of insertions, removals, graph removals, extractions and conversion.", "anchors": ["src/dataset/impl/indexed_btree_dataset.rs: PartialEq::eq, Ord::cmp, Hash::hash, FromIterator, Extend, Serialize, Deserialize"]}
{"id": "C51", "title": "Indexed graphs compare, hash and rebuild by content", "statement": "Two indexed graphs are equal, compare as Eq and hash alike exactly when they hold the same triples, whatever the histories (and conversions) that built them; collecting triples yields a graph with exactly these triples; collecting what a graph iterates over or serializes rebuilds an equal graph.", "quantifier": "every two reachable indexed graphs, every list of triples", "why_tests_cant": "internal layouts differ with the history; all histories", "anchors": ["src/dataset/graph/impl/indexed_btree_graph.rs: PartialEq, Ord, Hash, FromIterator, Extend, Serialize, Deserialize"]}
{"id": "C52", "title": "Formatting flags do not change the content", "statement": "Width, fill and precision given to the formatter never change the content of the RDF text of a term: at most the whole text is padded.", "quantifier": "every term and every formatter setting", "why_tests_cant": "all values and flags", "anchors": ["src/display.rs: RdfDisplay for str, IriRef, LangTag"]}
{"id": "C53", "title": "Serialization round trip", "statement": "With the serde feature, every literal, term, triple, quad and container made of valid IRIs, language tags and blank node identifiers is read back unchanged from what it is serialized to; blank nodes, IRIs and literals are never confused although terms carry no tag. Whatever the input, deserialization does not panic, accepts exactly the inputs of the documented form, yields only valid terms, and a container holds exactly the elements read.", "quantifier": "every valid value, every reachable container, every input of a self-describing format", "why_tests_cant": "all values and all inputs, including malformed ones; the untagged representations could be ambiguous for some value", "anchors": ["src/blankid.rs: Deserialize for BlankIdBuf", "src/term/mod.rs: Term (serde untagged)", "src/term/local/mod.rs: LocalTerm (serde untagged)", "src/literal/mod.rs: Literal", "src/dataset/impl/btree_dataset.rs: Serialize, Deserialize", "src/dataset/impl/indexed_btree_dataset.rs: Serialize, Deserialize", "src/dataset/graph/impl/btree_graph.rs: Serialize, Deserialize", "src/dataset/graph/impl/indexed_btree_graph.rs: Serialize, Deserialize"]}
{"id": "C54", "title": "Meaning of the macros", "statement": "grdf_triple!, grdf_quad!, grdf_triples! and grdf_quads! build exactly the triples and quads their notation denotes: identifiers, <\"iri\">, _:\"label\", \"value\"^^\"type\" and \"value\" (where the value may also be a character), each statement of an array ended by a dot. They compile for nothing else, nor when a variable whose type is not Copy is used twice, and panic exactly when everything is well written but for the label of a blank node. grdf_quad_pattern! accepts the same notation with variables ?x and builds the pattern of terms it denotes.", "quantifier": "every sequence of tokens and every assignment of values to the variables in scope", "why_tests_cant": "all token sequences, including ambiguous looking ones (a literal followed by ^^); a macro rule that is never tried is not even type checked", "anchors": ["src/macro.rs: grdf_triple, grdf_triples, grdf_quad, grdf_quads, grdf_quad_pattern", "src/lib.rs: exports", "src/term/local/mod.rs: From impls"]}
{"id": "C55", "title": "Containers look at resources only through their order", "statement": "With any consistent order on resources, even one that calls distinguishable values equal, each container behaves as a set of triples or quads of classes of equal resources. Replacing resources by others that compare the same way changes nothing in the answers except the resources themselves, also when the order is inconsistent. Every resource that comes out of a container (iteration, patterns, extraction, removed graphs, lists of resources) was put in by an insertion.", "quantifier": "every resource type and comparison, every history of operations on each of the four containers", "why_tests_cant": "tests use one resource type, whose equal values are identical", "anchors": ["src/dataset/impl/btree_dataset.rs: BTreeDataset", "src/dataset/graph/impl/btree_graph.rs: BTreeGraph", "src/dataset/impl/indexed_btree_dataset.rs: IndexedBTreeDataset, PatternMatching, ExtractPatternMatching", "src/dataset/graph/impl/indexed_btree_graph.rs: IndexedBTreeGraph, PatternMatching"]}
{"id": "C56", "title": "Exact answers of pattern queries, and their order", "statement": "The answer of a pattern query, a multi-pattern query or an extraction on an indexed container, including the order of the answer, is a function of the history of the container: inserted elements take the place freed last, or a new place at the end; a query with a given subject yields the matching elements in the order of the places; any other query walks along the places, is ended by a free place, and jumps over free places when it skips to the next element with a given component. In particular a container from which nothing was removed answers with all the matching elements in the order of insertion, and the query of all elements yields those before the first free place. Histories in which an inserted element repeats a resource that is not in use are excepted.", "quantifier": "every resource type with a total order, every history of operations of an indexed dataset or graph (including the conversion from a BTree container, removal of graphs and extractions), every canonical pattern and multi pattern", "why_tests_cant": "the order and the omissions depend on the whole history of insertions and removals and on how the candidates of each component interleave", "anchors": ["src/dataset/impl/indexed_btree_dataset.rs: IndexedBTreeDataset, PatternMatching, MultiPatternMatching, ExtractPatternMatching, SubjectConstraints, PredicateConstraints, ObjectConstraints", "src/dataset/graph/impl/indexed_btree_graph.rs: IndexedBTreeGraph, PatternMatching"]}
{"id": "C57", "title": "Iterators called item by item, and after their end", "statement": "Each call of next on an iterator of the library returns the next item of the sequence that the iterator stands for, and once the sequence is exhausted every later call returns None: the iterators are fused although none of them is declared so. This holds for the three kinds of queries on indexed datasets and the queries on indexed graphs, where calls after the end of an extraction also leave the dataset unchanged; for the values found in a triple pattern map; and for the iterators made of others (terms of a resource, objects, predicates and objects, graphs queried as datasets, infallible iterators) when those are fused. An iterator over the named graphs of an indexed dataset that panicked can be called again, and goes on with the next name.", "quantifier": "every history of an indexed container, every pattern, map and triple, every component iterator, and any number of calls", "why_tests_cant": "a test calls next until the first None; the state left by that call depends on which constraint ended the search, for every content and pattern", "anchors": ["src/dataset/impl/indexed_btree_dataset.rs: PatternMatching::next, MultiPatternMatching::next, ExtractPatternMatching::next", "src/dataset/graph/impl/indexed_btree_graph.rs: PatternMatching::next", "src/pattern/triple/map.rs: Values::next and the six iterators it is made of", "src/interpretation/mod.rs: TermsOf::next, LocalTermsOf::next", "src/dataset/mod.rs: QuadObjects::next, QuadPredicatesObjects::next", "src/dataset/graph/mod.rs: TripleObjects::next, TriplePredicatesObjects::next", "src/utils.rs: InfallibleIterator, TripleToQuadIterator, OptionIterator"]}
{"id": "C58", "title": "Mapping functions call the given function once per component, in order", "statement": "Triple::map, Quad::map, and map and map2 of quad patterns call the function they are given exactly once for each component (for patterns: each given resource), in the order subject, predicate, object, graph, each call seeing the state left by the previous one, and put the results in the same places. Nothing else of the value changes: absent graphs stay absent, and the equalities demanded by a pattern stay as they are. map2 sends the first results to the first pattern and the second results to the second.", "quantifier": "every triple, quad and canonical quad pattern, every function with a state, every initial state", "why_tests_cant": "a function with a state (an interner, a generator of fresh resources) observes the number and order of its calls; there are 52 shapes of patterns, each with its own path through fifteen nested types", "anchors": ["src/triple.rs: Triple::map", "src/quad.rs: Quad::map", "src/pattern/quad/canonical.rs: CanonicalQuadPattern::map, CanonicalQuadPattern::map2 and those of the fourteen nested types"]}
{"id": "C59", "title": "The reported resources follow from the changes alone", "statement": "resources() and contains_resource() of each of the four containers are determined, for every history, by the list of the insertions and removals that changed the set: a resource is filed under a number when an element brings it in while it is not reported, later elements using it join that number, and an element that brings it in several times while it is not reported is marked; it stops being reported when a marked element, or the last element of some number, leaves. In particular the BTree and the indexed containers report the same resources after the same changes, in increasing order, whatever the internal trees and slots look like.", "quantifier": "every ordered type of resources, every history of insertions, removals, extensions, conversions, extractions and removals of graphs, every resource", "why_tests_cant": "the exact set reported depends on which earlier element introduced each entry for a resource, over histories of any length; C21, C25 and C29 only cover resources never repeated while new", "anchors": ["src/dataset/impl/btree_dataset.rs: BTreeDataset::resources, contains_resource, insert, remove", "src/dataset/graph/impl/btree_graph.rs: BTreeGraph::resources, contains_resource, insert, remove", "src/dataset/impl/indexed_btree_dataset.rs: IndexedBTreeDataset::resources, contains_resource, insert, remove, remove_graph, extract_pattern_matching, From<BTreeDataset>", "src/dataset/graph/impl/indexed_btree_graph.rs: IndexedBTreeGraph::resources, contains_resource, insert, remove"]}
{"id": "C60", "title": "Exact answers of pattern queries, for every history", "statement": "The answer of a pattern query, a multi-pattern query or an extraction on an indexed container, including its order, is determined for every history by the list of the insertions and removals that changed the set: the query is the walk along the places of C56, where a component counts as a given resource only if the account of this resource (C59) reports it and has its element under the last number, and where, in an element that brought the resource in several times while it was not reported, only one of these components counts, and no two of them count as equal. remove_graph on an indexed dataset removes from a named graph exactly the quads whose graph counts as the given name, by the same account, and returns their triples in order.", "quantifier": "every resource type with a total order, every history of operations of an indexed dataset or graph (including the conversion from a BTree container, removal of graphs and extractions), every canonical pattern and multi pattern", "why_tests_cant": "which elements a query misses depends on which earlier element introduced each internal entry of each resource it gives, over histories of any length; C28, C32, C49 and C56 only cover resources never repeated while new", "anchors": ["src/dataset/impl/indexed_btree_dataset.rs: IndexedBTreeDataset, insert, remove, remove_graph, pattern_matching, multi_pattern_matching, extract_pattern_matching, SubjectConstraints, PredicateConstraints, ObjectConstraints, GraphConstraints", "src/dataset/graph/impl/indexed_btree_graph.rs: IndexedBTreeGraph, insert, remove, PatternMatching"]}
{"id": "C61", "title": "Exact subjects, predicates, objects, named graphs, counts and removed graphs, for every history", "statement": "On an indexed dataset or graph, subjects(), predicates(), objects() and named_graphs(), including the order, the repetitions and whether the call panics, the corresponding counts, resource_count(), contains_resource() and the graph returned by remove_graph() are determined for every history by the list of the insertions and removals that changed the set: each resource brought in while it is not shown takes a place (the last vacated one, or a new one at the end); an element uses the places of its components; a place is given back when no remaining element uses it, and its resource is then no longer shown; a place is listed as that of a subject, predicate or object from the arrival of a quad with that subject, predicate or object to the departure of any such quad, and as that of a named graph until it is given back by a quad of this graph. The listings are the resources at the listed places, in the order of the places; named_graphs() panics exactly if a listed place is vacant. remove_graph() returns exactly the triples of the quads whose graph name has the place where the name is shown, if this place is listed as that of a named graph, and otherwise nothing.", "quantifier": "every resource type with a total order, every history of operations of an indexed dataset or graph (including the conversion from a BTree container, removal of graphs and extractions), every resource and graph name", "why_tests_cant": "which resource is listed, how often and in which order depends on the reuse of places and on all earlier insertions and removals, over histories of any length; C29, C31 and C35 only cover resources never repeated while new and listings under side conditions", "anchors": ["src/dataset/impl/indexed_btree_dataset.rs: IndexedBTreeDataset, Resources, subjects, predicates, objects, named_graphs, subject_count, predicate_count, object_count, named_graph_count, resource_count, contains_resource, insert, remove, remove_graph, From<BTreeDataset>", "src/dataset/graph/impl/indexed_btree_graph.rs: IndexedBTreeGraph, subjects, predicates, objects, resource_count, contains_resource, insert, remove"]}
{"id": "C62", "title": "The indexed containers are deterministic: everything they return can be computed from the operations alone", "statement": "For every history of operations of an indexed dataset (including the conversion from a BTree dataset, removal of graphs and extractions), a small reference machine - a row of quads and a shelf of resources - computes, from the operations alone, what every operation returned, what any next operation would return, and every answer of the resulting dataset: iteration, length, membership, resources, subjects, predicates, objects, named graphs, their counts, and pattern and multi-pattern queries with their order. Components of a quad are equal for a query if they have the same place on the shelf, and a given resource stands for the place where it is shown. No operation panics. The same shelf determines the queries and the resources of an indexed graph.", "quantifier": "every resource type with a total order, every history of operations of an indexed dataset or graph, every next operation, every canonical pattern and multi pattern", "why_tests_cant": "the return values of later operations depend, through reused places and repeated new resources, on all earlier ones; C56, C60 and C61 describe the answers from changes that were already observed", "anchors": ["src/dataset/impl/indexed_btree_dataset.rs: IndexedBTreeDataset (all methods), From<BTreeDataset>, PatternMatching, ExtractPatternMatching", "src/dataset/graph/impl/indexed_btree_graph.rs: IndexedBTreeGraph, PatternMatching"]}
{"id": "C63", "title": "BTree containers stay usable when the user's comparison panics", "statement": "If the user-supplied ordering of resources panics during an operation of a BTree dataset or BTree graph, and the panic is caught, the container can still be used: an interrupted insertion leaves the set as it was, an interrupted removal leaves it as it was or without the element, an interrupted extension leaves it extended by a prefix, and every later operation neither panics by itself nor answers otherwise than for that set. In particular length, emptiness, equality and hash are those of the set.", "quantifier": "every resource type with a total order, every history of insert, remove, extend, contains, len, is_empty, iter and into_iter, and for each operation every comparison at which it may be interrupted (also several interruptions in one history)", "why_tests_cant": "the state left behind depends on which of the comparisons of an operation panics and on all operations before; tests inject a panic at a few places of a few histories", "anchors": ["src/dataset/impl/btree_dataset.rs: BTreeDataset::{contains, insert, remove, len, is_empty, iter}, Extend, PartialEq, Hash", "src/dataset/graph/impl/btree_graph.rs: BTreeGraph::{contains, insert, remove, len, is_empty, iter}, Extend, PartialEq, Hash"]}
{"id": "C64", "title": "Indexed containers stay usable when the user's comparison panics", "statement": "If the user-supplied ordering of resources panics during an operation of an indexed BTree dataset or graph, and the panic is caught, the container can still be used: an interrupted insertion leaves the set as it was, an interrupted removal leaves it as it was or without the element, an interrupted extension leaves it extended by a prefix, an interrupted removal of a graph only takes quads of that graph away, and every later operation or query neither panics by itself nor answers otherwise than for that set. The same holds when the interrupted container was a BTree dataset or graph that is converted later.", "quantifier": "every resource type with a total order, every state reached without panic (by conversion, extraction, removal of graphs, ...), every history from there of insert, remove, extend, contains, len, is_empty, iter and into_iter and one removal of a graph, for each operation every comparison at which it may be interrupted (also several interruptions in one history), and every query afterwards", "why_tests_cant": "the marks left behind depend on which of the comparisons of an operation panics and on all operations before; tests inject a panic at a few places of a few histories", "anchors": ["src/dataset/impl/indexed_btree_dataset.rs: IndexedBTreeDataset::{contains, insert, remove, remove_by_index, remove_graph, len, is_empty, iter, resources, contains_resource, pattern_matching, subjects, predicates, objects}, Extend, From<BTreeDataset>", "src/dataset/graph/impl/indexed_btree_graph.rs: IndexedBTreeGraph::{contains, insert, remove, len, is_empty, iter, resources, contains_resource, pattern_matching, subjects, predicates, objects}, Extend, From<BTreeGraph>"]}
{"id": "C65", "title": "Displaying to a writer that may fail", "statement": "Whatever writer a term, triple, quad, dataset or graph is displayed to, and whichever of its calls fails: the pieces given to the writer are, in order, those of the value's text, the same for all writers; after the first failure nothing more is written and the failure is reported; success is reported only if the whole text was taken. So a writer holds a beginning of the text, a buffer of n characters its first n characters, and the display fails exactly when the text is longer. A value with a context is displayed with that context, and IRIs and language tags do not depend on it.", "quantifier": "every writer (any state, any answer to each call), every value, width and precision, every container state reached by a history, every context", "why_tests_cant": "writers may fail at any of the calls, whose number grows with the value; tests use strings, which never fail", "anchors": ["src/display.rs: RdfDisplay for str, String, IriRef, Iri, IriBuf, IriRefBuf, LangTag, LangTagBuf, RdfDisplayed, RdfDisplayWithContext, RdfDisplay for Contextual", "src/literal/mod.rs, src/literal/ref.rs, src/literal/type/mod.rs, src/literal/type/ref.rs, src/term/mod.rs, src/term/local/mod.rs, src/blankid.rs: Display, RdfDisplay", "src/triple.rs, src/quad.rs: Display, RdfDisplay", "src/dataset/impl/btree_dataset.rs, src/dataset/impl/indexed_btree_dataset.rs, src/dataset/graph/impl/btree_graph.rs, src/dataset/graph/impl/indexed_btree_graph.rs: RdfDisplay"]}
{"id": "C66", "title": "Containers do not leak", "statement": "However long its history, a container allocates as many quad (triple) entries as the largest number of elements it held at once, no more resource entries than the largest total number of components its elements had at once, and its trees and indexes hold no more than the present elements account for (the list of named graphs, no more than the resource entries). So the memory of a container whose size never exceeds N is at most a fixed multiple of N: inserting and removing for ever does not make it grow, also across the conversion to an indexed container, extraction and remove_graph. An emptied indexed dataset keeps only vacant entries, and maybe names of graphs. (Entries are counted, not bytes: vectors may reserve more, by a constant factor.)", "quantifier": "every history of operations, on the four containers, with every total order on resources", "why_tests_cant": "a leak shows only as growth over histories of unbounded length, and for particular patterns of shared or repeated resources", "anchors": ["src/dataset/impl/btree_dataset.rs: insert, remove, extend", "src/dataset/graph/impl/btree_graph.rs: insert, remove, extend", "src/dataset/impl/indexed_btree_dataset.rs: from_non_indexed, insert, remove, remove_graph, remove_by_index, extract_pattern_matching", "src/dataset/graph/impl/indexed_btree_graph.rs: from_non_indexed, insert, remove"]}
{"id": "C67", "title": "An extraction interrupted by a panic loses at most one element", "statement": "extract_pattern_matching called on an indexed dataset whose resources' comparison or Clone panics at any time, the panic being caught: making the iterator never changes the dataset; however often next is then called, also after interrupted calls, no call panics by itself, the calls return an initial part of what the query returns, in its order and each quad once; the dataset loses the quads returned and at most one more - the one that was being taken when a call was interrupted, after which the iterator returns None for ever - and no quad that does not match. A call interrupted before the removal changes nothing, and the next call tries the same quad again. Afterwards the dataset can be used as after any interrupted operation (C64).", "quantifier": "every indexed dataset reached by a history, every pattern, every sequence of calls of next, every point of interruption in each of them, every lawful order on resources", "why_tests_cant": "each call can be interrupted at any of the comparisons and clones it makes, and calls after an interruption start from the state it left", "anchors": ["src/dataset/impl/indexed_btree_dataset.rs: extract_pattern_matching, ExtractPatternMatching::next, remove_by_index", "src/quad.rs: cloned"]}
{"id": "C68", "title": "UUID generators return valid and fresh IRIs", "statement": "Every term returned by generator::Uuid is an IRI, the URN (urn:uuid:, five groups of lower case hexadecimal digits) of a UUID of the version of the generator and of the RFC 4122 variant, whose other bits are those of the random source (V4) or of the hash of namespace and name (V3, V5); and, as the trait Generator promises, successive terms of one generator are different as far as the random source is.", "quantifier": "every generator (version, namespace, name), every hash function, every sequence of random draws, every number of calls", "why_tests_cant": "freshness is about every pair of calls, and the text about every value of 128 bits", "anchors": ["src/term/generator/uuid.rs: Uuid, next_uuid, Generator for Uuid", "src/term/generator/mod.rs: Generator"]}
{"id": "C69", "title": "Serialization round trip in compact binary formats", "statement": "In formats that do not describe what they hold (bincode, postcard: fields by position, variants by number, sequences by their announced length), every serializable value of the crate made of valid identifiers - blank node identifiers, literal types, literals, terms, local terms, triples, quads, pattern elements and the four containers after any history - is read back equal, and the reader consumes exactly what was written, whatever comes after. A container announces as many elements as it writes. On any input a reader does not panic and accepts only the items of a valid value.", "quantifier": "every value, every history of a container, every input, every text that follows, every lawful order and every component type that round trips", "why_tests_cant": "the announced length and the position of every field matter for all values and for everything that follows in the stream", "anchors": ["src/blankid.rs: Deserialize for BlankIdBuf", "src/literal/mod.rs, src/literal/type/mod.rs, src/term/mod.rs, src/term/local/mod.rs: derived Serialize, Deserialize", "src/triple.rs, src/quad.rs, src/pattern/resource_or_variable.rs: derived Serialize, Deserialize", "src/dataset/impl/*.rs, src/dataset/graph/impl/*.rs: Serialize, Deserialize"]}
{"id": "C70", "title": "The isomorphism test is an equivalence", "statement": "are_isomorphic is reflexive, symmetric and transitive: a dataset is isomorphic to itself, the answer does not depend on which dataset comes first, and datasets found isomorphic are isomorphic to the same datasets. The answer depends neither on the order in which the datasets enumerate their quads nor on the names of their blank nodes. The same holds of are_isomorphic_with for every interpretation in which no two resources have an IRI or a literal in common.", "quantifier": "every three datasets, every order of enumeration, every renaming of blank nodes, every comparison of IRIs and language tags by normal forms, every such interpretation", "why_tests_cant": "the laws relate all pairs and triples of datasets and all renamings; the search visits candidates in an order that depends on the names", "anchors": ["src/dataset/isomorphism.rs: are_isomorphic, are_isomorphic_with, find_bijection_with, find_from_candidates"]}
{"id": "C71", "title": "Containers and serializers or sources that fail", "statement": "A container given to any serializer makes these calls, in this order: serialize_seq with the number of elements, serialize_element for each element in increasing order, end. The calls stop at the first error, and this error is returned; success is returned only if every element was accepted and end succeeded. A container read from any source of elements calls next_element until the first end or error and not once more: at the end it holds exactly the elements given, at an error this error is returned, and nothing is returned if the source never ends. Nothing panics.", "quantifier": "every container history, every serializer and every source as a state machine that may fail at any call, every number of calls", "why_tests_cant": "the failing call, the error and the state of the serializer or of the source are arbitrary, and sources may be endless", "anchors": ["src/dataset/impl/btree_dataset.rs: Serialize, Deserialize", "src/dataset/impl/indexed_btree_dataset.rs: Serialize, Deserialize", "src/dataset/graph/impl/btree_graph.rs: Serialize, Deserialize", "src/dataset/graph/impl/indexed_btree_graph.rs: Serialize, Deserialize"]}
{"id": "C72", "title": "Panics of Clone in consuming iterators and in pattern setters", "statement": "If cloning a resource panics during a call of next on a container's into_iter and the iteration goes on afterwards, exactly the element of that call is lost: the other elements are still returned, in order and once each, and no call panics by itself. A setter of a canonical triple pattern clones only its argument, as many times as the new pattern and the returned value need; if none of these clones panics the result is that of the setter, otherwise the process is aborted, so a half-written pattern is never seen.", "quantifier": "every container history, every number of clones made in each call before one panics, every number of calls; every pattern and every resource", "why_tests_cant": "the panic may come at any clone of any call, after any history, and an abort ends the test", "anchors": ["src/dataset/impl/btree_dataset.rs: IntoTriples::next", "src/dataset/impl/indexed_btree_dataset.rs: IntoTriples::next", "src/dataset/graph/impl/btree_graph.rs: IntoTriples::next", "src/dataset/graph/impl/indexed_btree_graph.rs: IntoTriples::next", "src/pattern/triple/canonical.rs: set_subject, set_predicate, set_object"]}
{"id": "C73", "title": "Counting methods count what is there", "statement": "quads_count() (triples_count() of a graph, and quads_count() of a graph used as a dataset) returns the number of quads present and equals len(); resource_count() returns the number of distinct resources occurring in them, which is the number of items of resources(). None of them panics.", "quantifier": "every history of each of the four containers, every resource type with a lawful order", "why_tests_cant": "counts are computed from three different structures (slabs, index trees, iterators) that drift apart only after particular histories", "anchors": ["src/dataset/mod.rs: quads_count, resource_count, blanket implementations for graphs", "src/dataset/graph/mod.rs: triples_count, graph_resource_count", "src/dataset/impl/indexed_btree_dataset.rs: resource_count", "src/dataset/graph/impl/indexed_btree_graph.rs: graph_resource_count", "src/utils.rs: TripleToQuadIterator"]}
{"id": "C74", "title": "Patterns and statements as keys", "statement": "Canonical patterns, the public types they are made of, and ResourceOrVar can be keys of the standard ordered and hashed collections whenever the resources can: cmp is a total order, == and partial_cmp agree with it, equal keys feed the same to a hasher and different keys do not. Canonical patterns are ordered by what they say of the subject, then the predicate, the object and the graph: nothing, same as an earlier component, given; resources come before variables. Two canonical patterns are the same key exactly when they match the same statements. Equal triples and quads feed the same to a hasher, also when equal components are not identical.", "quantifier": "every resource type, comparison, hash function and pair of patterns or statements", "why_tests_cant": "the order is spread over twenty-six enumerations whose declarations must agree on the order of their variants; a test compares a few pairs", "anchors": ["src/pattern/triple/canonical.rs: derived PartialEq, PartialOrd, Ord and Hash", "src/pattern/quad/canonical.rs: derived PartialEq, PartialOrd, Ord and Hash", "src/pattern/resource_or_variable.rs: ResourceOrVar", "src/triple.rs, src/quad.rs: derived Hash"]}
{"id": "C75", "title": "Debug output", "statement": "{:?} and {:#?} of a term, a statement, a pattern or a container write the constructors of the value as derive(Debug) lays them out; a string is between quotation marks with quotes, backslashes and control characters escaped, and the borrowed forms differ from the owned ones only in the name of the structure. A container shows its elements in increasing order, so two containers show the same text exactly when they have the same elements. If the texts of resources can be read back, so can those of everything built from them, plain or pretty, and the plain text has no other characters than those of the resources and printable ASCII: no end of line. A writer that fails gets a prefix of the text, and the failure is reported.", "quantifier": "every resource type with its own Debug, every writer, every table of special characters, every value and every history of a container", "why_tests_cant": "a test compares the text of a few values; that no two values share a text and that it does not depend on the history are about all of them", "anchors": ["src/term/mod.rs, src/term/ref.rs, src/term/local/mod.rs, src/term/local/ref.rs, src/id/ref.rs, src/literal/mod.rs, src/literal/ref.rs, src/literal/cow.rs, src/literal/type/mod.rs: derive(Debug)", "src/blankid.rs: impl Debug for BlankId, BlankIdBuf", "src/triple.rs, src/quad.rs: derive(Debug)", "src/pattern/triple/canonical.rs, src/pattern/quad/canonical.rs, src/pattern/resource_or_variable.rs: derive(Debug)", "src/dataset/impl/btree_dataset.rs, src/dataset/impl/indexed_btree_dataset.rs, src/dataset/graph/impl/btree_graph.rs, src/dataset/graph/impl/indexed_btree_graph.rs: impl Debug"]}
{"id": "C76", "title": "Errors say what was refused", "statement": "A string that is no blank node identifier is given back unchanged by the constructors (with its prefix, when it was given as a suffix). Deserialization accepts exactly the strings that are blank node identifiers; it refuses any other string with a message that quotes it, so that two refused strings have different messages, and refuses anything else with a message that names what was found. The text of an error of quad export tells which component failed and why, and so do the Debug texts of both error types.", "quantifier": "every string, every value a deserializer may present, every error type with its own Display and Debug, every writer", "why_tests_cant": "a test sees the messages of a few errors; that the message identifies the refused input is about all pairs of them", "anchors": ["src/blankid.rs: BlankId::new, BlankIdBuf::new, BlankIdBuf::from_suffix, FromStr, Deserialize, InvalidBlankId", "src/quad.rs: QuadExportFailed"]}
{"id": "C77", "title": "Pattern maps survive panics of Hash and Eq", "statement": "An insertion into a pattern map that is interrupted by a panic of the user's Hash or Eq leaves no trace: get answers as before, and all later calls return and do what they would have done without it. An interrupted union_with leaves the map with part of the pairs of its argument, taken key by key, and otherwise its own pairs.", "quantifier": "every type of resources and values with a decidable equality, every history of completed and interrupted insertions, every point of interruption", "why_tests_cant": "the point of the panic and the history before it are arbitrary, and the trace it leaves is an entry that no answer shows", "anchors": ["src/pattern/triple/map.rs: TriplePatternMap::insert, get", "src/pattern/triple/map.rs: insert, get, union_with of GivenSubjectMap, AnySubjectMap, GivenSubjectAnyPredicateMap, GivenSubjectGivenPredicateMap, AnySubjectAnyPredicateMap, AnySubjectGivenPredicateMap"]}
{"id": "C78", "title": "Debug shows all of a pattern map", "statement": "The Debug text of a pattern map, plain or pretty, lists every pair (pattern, value) that it holds, each exactly once and in the place of its pattern, in the order in which its tables happen to be iterated, and nothing else; after union_with, the pairs that union_with keeps. Two maps that show the same text hold the same pairs, so they answer every triple alike. The plain text contains no other characters than those of the values, those of the resources and printable ASCII.", "quantifier": "every history of insertions, every order of iteration of the hash tables, every text of values and of resources (that can be read, for the second part), every writer, plain and pretty", "why_tests_cant": "the order of iteration is random and a test sees a few maps; that no two different maps show the same text is a statement about all pairs of maps", "anchors": ["src/pattern/triple/map.rs: #[derive(Debug)] of TriplePatternMap, GivenSubjectMap, GivenSubjectAnyPredicateMap, GivenSubjectGivenPredicateMap, AnySubjectMap, AnySubjectAnyPredicateMap, AnySubjectGivenPredicateMap"]}
{"id": "C79", "title": "Insertions and unions of pattern maps in any order", "statement": "A pattern map built by any tree of insertions and unions (a union of unions, an insertion after a union, ...) answers a triple with exactly the values of the pairs it keeps: those inserted, except that each union_with drops from the receiver the pairs stored under a key (the given predicate or, without one, the given object) that the other map uses. insert returns true exactly when the pair is not kept, also after it was dropped. If the maps united never use a common key nothing is lost. As far as get can tell, union_with is associative and idempotent and an empty map changes nothing. Debug lists exactly the pairs kept.", "quantifier": "every tree of insertions and unions, for the six maps with union_with, every triple, value and pattern, every type of resources and values with a lawful equality", "why_tests_cant": "what a union loses depends on all earlier unions; the trees are unbounded", "anchors": ["src/pattern/triple/map.rs: insert, union_with, get of GivenSubjectMap, GivenSubjectAnyPredicateMap, GivenSubjectGivenPredicateMap, AnySubjectMap, AnySubjectAnyPredicateMap, AnySubjectGivenPredicateMap"]}
{"id": "C80", "title": "Pattern maps after any insertions, unions and panics, in any order of iteration", "statement": "A pattern map built by any tree of insertions and unions, of which any may be interrupted by a panic of Hash or Eq at any look-up, and whose hash tables may be iterated in any order, answers a triple with exactly the values of the pairs it holds: an interrupted insertion adds no pair but may leave its key behind; an interrupted union has taken as many entries as look-ups succeeded (values without a key one by one, keys with all their values, the fields in their order) and dropped from the receiver only what was under the keys taken. insert tells whether the pair is held, and is interrupted exactly when it may make fewer look-ups than the pattern gives resources, plus one. Hence every value answered was inserted by an insertion that returned, and if no argument of a union has used a key of the receiver nothing is lost but what was in the argument of an interrupted union.", "quantifier": "every tree of insertions and unions, every point of interruption of each of them, every order of iteration of each table at each step, for the six maps with union_with", "why_tests_cant": "the order of iteration is random and the points of interruption and trees are unbounded", "anchors": ["src/pattern/triple/map.rs: insert, union_with, get of GivenSubjectMap, GivenSubjectAnyPredicateMap, GivenSubjectGivenPredicateMap, AnySubjectMap, AnySubjectAnyPredicateMap, AnySubjectGivenPredicateMap"]}
{"id": "C81", "title": "Pattern maps when equality is coarser than identity", "statement": "If Eq and Hash of the resources or of the values call distinguishable ones equal (for example language tags up to case), a pattern map behaves as the map of their classes: a pattern matches a triple if the classes match, insert returns true iff no value of the class is held for a pattern of the class, and no class is answered twice for one class of patterns. The value answered is itself one that was inserted: the first of its class since the receiver was made; a union takes the other map's values under the keys the other map uses, and keeps the receiver's where there is no key. Indeed the maps use resources and values only by comparing them: other resources and values that compare alike give the same answers, even if the comparison is no equivalence, through every insertion, union and interruption.", "quantifier": "every equality given by classes of values and of resources (for the last sentence every boolean comparison), every tree of insertions and unions, interrupted or not, every triple", "why_tests_cant": "the equality, the classes and the histories are arbitrary; tests compare values by the same coarse equality and so cannot see which one is answered", "anchors": ["src/pattern/triple/map.rs: TriplePatternMap::insert, get; insert, union_with, get of the six inner maps"]}
{"id": "C82", "title": "The vocabulary constants mean what they are called", "statement": "Each constant IRI the crate exports is the W3C namespace named by its prefix (RDF_, RDFS_, XSD_) followed by the local name that the rest of its name spells; no two constants share a name or an IRI; together they are exactly the terms of RDF Schema 1.1 with rdf:nil, rdf:JSON and xsd:string, letter for letter. Each is written in N-Triples as itself between angle brackets and reads back. For any lexical value, a literal typed by a constant is written with that datatype, except XSD_STRING, which is left out, reads back as the same literal, and two such literals have the same text only if they have the same value and constant.", "quantifier": "every constant, every lexical value, every text that follows; every reflexive equality of IRIs that tells the constants apart", "why_tests_cant": "the lexical values and the texts that follow are unbounded; the crate has no test of its constants", "anchors": ["src/schema.rs: RDF_*, RDFS_*", "src/lib.rs: XSD_STRING", "src/literal/type/mod.rs: LiteralType::is_xsd_string"]}
{"id": "C83", "title": "An indexed dataset survives any history of interrupted operations", "statement": "A program that catches every panic can go on using an indexed dataset: after any sequence of insert, remove, extend, contains, len, iter, remove_graph and extractions (any number of calls of next), each of them cut short by a panic of the resources' comparison or Clone at any point, or panicking by itself, the dataset is still a set of quads together with at most one lost quad per interrupted operation. An operation that completes returns what the set says (len counts the losses too) and changes it accordingly; an interrupted one changes it partly; whatever remove_graph and extractions take is taken out of the set, or of the losses if it is not in the set, once per quad returned; iter gives the set in order, and queries answer without panic from the set and the losses only. Extractions go through the answer of the query and never panic by themselves; no operation panics by itself before the first interruption, and as long as none is interrupted everything is as without panics. After an interruption remove_graph may panic by itself or take quads of another graph, and an extraction may take quads that do not match, or return the same quad twice. An operation during which the user's code does not panic completes, whatever happened before, except that remove_graph may panic by itself.", "quantifier": "every indexed dataset reached by a history, every sequence of operations, every point of interruption in each of them (and in each call of next), every lawful order on resources", "why_tests_cant": "each operation can be interrupted at any of the comparisons and clones it makes, and every later operation starts from what the earlier ones left; a test sees one such sequence", "anchors": ["src/dataset/impl/indexed_btree_dataset.rs: insert, remove, remove_by_index, remove_graph, extract_pattern_matching, ExtractPatternMatching::next, iter, len", "src/quad.rs: cloned"]}
{"id": "C84", "title": "New resources when the generator or the interpretation panics", "statement": "A program that catches every panic can go on using an interpretation paired with a generator (WithGenerator, WithLocalGenerator): in any sequence of insertions and calls of new_resource, in which the generator and the interpretation may panic at any call, the interpretation is asked to insert exactly the terms given by the program and those returned by the generator, in order and once each, nothing where the generator panics; the generator is called once per new resource, whatever the insertions do, so that an identifier whose insertion panicked is skipped and never used again. Each resource returned is what its term denotes from then on. With the generator of blank node identifiers no new resource is made twice; with overflow checks it returns the identifiers numbered from the offset to usize::MAX - 1 and then panics at every call. LocalGeneratorInterpretation can be used again after its generator panicked; a generator that calls the interpretation that holds it gets a panic, and nothing else happens.", "quantifier": "every sequence of insertions and new_resource calls, every generator and interpretation and every choice of the calls that panic, every depth and number of re-entrant calls", "why_tests_cant": "any call can panic and every later call starts from the state the panic left; tests use generators that do not panic", "anchors": ["src/interpretation/impl/with_generator.rs: WithGenerator::new_resource, WithLocalGenerator::new_resource", "src/term/generator/interpretation.rs: LocalGeneratorInterpretation::new_resource", "src/term/generator/blank.rs: Blank::next_blank_id"]}
{"id": "C85", "title": "Destructors of resources that panic", "statement": "A program that catches every panic can go on using a BTreeDataset, BTreeGraph, IndexedBTreeDataset or IndexedBTreeGraph whose resources panic when they are dropped (or compared): after any history of insertions, extensions, removals and reads, and the conversion to the indexed container, no operation panics by itself and every complete one returns what it returns on a set. A destructor that panics never undoes an operation: an insertion drops the values it does not store after everything else, so it is complete; a removal changes the set at one of its calls, before which nothing has changed and from which on the element is gone; resources not yet released stay listed and are used again. If nothing panics, each value given to the container is stored or dropped exactly once. Exception: if the destructor of a graph name panics during the removal of the last quad of that graph, named_graphs panics from then on.", "quantifier": "every history of insert, extend, remove, contains, len, is_empty, iter and into_iter, every choice of the call of the user's code that panics in each operation, every lawful order on resources, every lawful behaviour of the B-tree on equal items", "why_tests_cant": "any call of the destructor or of the comparison can panic, in any operation of any history, and later operations start from the state the panic left; tests use resources whose destructor does nothing", "anchors": ["src/dataset/impl/btree_dataset.rs: BTreeDataset::insert, remove", "src/dataset/graph/impl/btree_graph.rs: BTreeGraph::insert, remove", "src/dataset/impl/indexed_btree_dataset.rs: IndexedBTreeDataset::insert, remove", "src/dataset/graph/impl/indexed_btree_graph.rs: IndexedBTreeGraph::insert, remove"]}
{"id": "C86", "title": "Indexed datasets after any operations interrupted by destructors", "statement": "A program that catches every panic can go on using an IndexedBTreeDataset whose resources panic when they are compared, cloned or dropped, with all its operations: insert, extend, remove, contains, len, iter, into_iter, remove_graph and extraction by a pattern. After any history the dataset is a set of quads and some losses: no more losses than interrupted operations, iter gives the set, len counts the losses too, and queries answer without panic from the set and the losses. An interrupted insertion or extension leaves a set that it could have reached; an interrupted removal, remove_graph or call of an extraction has taken some of its quads or none, and nothing else. An extraction goes through the answer that the query would give. An operation panics by itself only after an interrupted one. If nothing panics, remove_graph and extractions drop each resource no longer used exactly once, and of the values they clone those not handed to the caller. Exceptions: remove_graph interrupted by a destructor loses for the caller the graph it took, an extraction the quad it took; and after the destructor of a resource panicked in the removal of a quad of the default graph, remove_graph of the default graph may panic by itself or take a quad of a named graph. An operation during which the user's code does not panic completes, whatever happened before, except that remove_graph may panic by itself.", "quantifier": "every history of operations, every choice of the call of the comparison, of Clone or of the destructor that panics in each operation and in each call of an extraction, every lawful order on resources, every lawful behaviour of the B-tree on equal items", "why_tests_cant": "any call of the user's code can panic, in any operation of any history, and later operations start from the state the panic left; tests use resources whose destructor does nothing", "anchors": ["src/dataset/impl/indexed_btree_dataset.rs: IndexedBTreeDataset::insert, remove, remove_graph, extract_pattern_matching", "src/dataset/graph/impl/btree_graph.rs: BTreeGraph::insert"]}
{"id": "C87", "title": "Renaming the blank nodes of a dataset with a generator", "statement": "A program that goes through a BTreeDataset of local terms, maps each quad with Quad::map, giving each blank node an identifier from a Blank generator the first time it is met, and inserts the results in a new dataset, obtains a dataset isomorphic to the first, of the same size, that are_isomorphic recognises. Its blank nodes are the identifiers generated, one per blank node, in the order in which iteration meets them. The program panics only if overflows are checked and the generator has fewer identifiers left than there are blank nodes. The result depends on the quads only, not on how the dataset was built. Two datasets renamed one after the other with the same generator share no blank node, so that adding one to the other mixes up no blank nodes. Without overflow checks this holds up to usize::MAX + 1 identifiers.", "quantifier": "every dataset built by any sequence of operations, every prefix and offset of the generator, every order of IRIs and language tags, with or without overflow checks", "why_tests_cant": "blank nodes may occur in any component of any number of quads, with names that are also names the generator gives; a test merges a few chosen datasets", "anchors": ["src/quad.rs: Quad::map", "src/term/generator/blank.rs: Blank::next_blank_id", "src/dataset/impl/btree_dataset.rs: BTreeDataset::iter, insert, extend", "src/dataset/isomorphism.rs: are_isomorphic"]}
{"id": "C88", "title": "Loading quads with an interpretation and reading them back", "statement": "A program that maps quads of local terms with Quad::map and insert_local_term of an interpretation, and inserts the results in a BTreeDataset of resources, never panics if insertions are faithful (an inserted term denotes the resource returned, other terms denote what they did): the dataset gets exactly the quads that the given quads denote, and what terms denoted before is unchanged. If different terms denote different resources, no two quads become one. Reading the dataset back with local_terms_of, if the terms of a resource are those that denote it, succeeds exactly if each resource has a term, and gives quads that denote the quads of the dataset, all of them; after loading into an empty dataset, quads that denote what the quads loaded do, and the very quads loaded if different terms denote different resources.", "quantifier": "every list of quads, every dataset to load into, every faithful interpretation and its state, every lawful order on resources and on terms", "why_tests_cant": "the resource of a term depends on the whole history of insertions of a user-defined interpretation; a test uses one interpretation and a few quads", "anchors": ["src/quad.rs: Quad::map", "src/interpretation/mod.rs: LocalInterpretationMut::insert_local_term, ReverseLocalInterpretation::local_terms_of, LocalTermsOf::next", "src/dataset/impl/btree_dataset.rs: BTreeDataset::insert, iter"]}
{"id": "C89", "title": "Solving several triple patterns together on an indexed graph", "statement": "A program that solves a list of triple patterns on an IndexedBTreeGraph one after the other, matching each pattern after filling in the variables bound so far, never panics. Every binding it returns is a solution (whatever values it gives the variables, each pattern becomes a triple of the graph), binds exactly the variables of the patterns, and is returned once. It returns all solutions if no insertion repeated a resource that was new to the graph and, besides, all slots of the graph are filled or the subject of each pattern is a resource or a variable of an earlier pattern. Otherwise, after a removal, it may miss solutions, and return them if the patterns are given in another order.", "quantifier": "every history of operations on the graph, every list of patterns, every lawful order on resources, every comparison of variables, every size hint of the vectors", "why_tests_cant": "what is returned depends on the history of insertions and removals and on the order of the patterns; a test has one history and a few patterns", "anchors": ["src/dataset/graph/impl/indexed_btree_graph.rs: triple_pattern_matching, insert, remove", "src/pattern/triple/canonical.rs: CanonicalTriplePattern::from", "src/pattern/resource_or_variable.rs: ResourceOrVar"]}
{"id": "C90", "title": "The isomorphism test ends in reasonable time and space", "statement": "The number of steps (calls of the recursive search) that are_isomorphic and find_bijection take is bounded by a polynomial in the number of quads, and the depth of nested calls, hence the stack, by a constant.", "quantifier": "every pair of datasets; for the bounds also every interpretation and every lawful order on resources", "why_tests_cant": "a test that returns says nothing about other sizes; datasets for which the search takes n! steps look like any other, and are found only by reasoning about all of them", "anchors": ["src/dataset/isomorphism.rs: are_isomorphic, find_bijection_with, BTreeBijection::find_from_candidates"]}
{"id": "C91", "title": "A query on an indexed container takes time in proportion to what it asks for", "statement": "The work of enumerating all matches of a pattern on an indexed dataset or graph (elements looked at, index entries passed over) is at most proportional to the number of elements that have a component the pattern gives, whichever given component one takes.", "quantifier": "every history of an indexed dataset or graph, every canonical pattern, every lawful order on resources, any spare capacity; containers of any size", "why_tests_cant": "a test measures one container and one pattern; that no pattern walks through the whole container, at any size and after any history, is a statement about all of them, and the patterns that do walk return the right answers", "anchors": ["src/dataset/impl/indexed_btree_dataset.rs: pattern_matching, PatternMatching::next, SubjectConstraints, PredicateConstraints, ObjectConstraints, GraphConstraints", "src/dataset/graph/impl/indexed_btree_graph.rs: pattern_matching, PatternMatching::next"]}
{"id": "C92", "title": "Telling whether a graph entails another, by pattern queries", "statement": "A program that makes triple patterns from the triples of a BTreeGraph of local terms, its blank nodes becoming variables, and solves them on an IndexedBTreeGraph, never panics. If it finds a solution, every interpretation (in the sense of the model theory of RDF) that makes the triples of the indexed graph true makes those of the other true. If it finds none, the entailment does not hold, provided that no insertion in the indexed graph repeated a term that was new and that no slot is vacant or no subject of the other graph is a blank node; and, whatever the history, if it solves the patterns on a copy of a graph none of whose triples has a term twice. Otherwise it may miss an entailment: of a graph by itself if a triple has a term twice, or after a removal.", "quantifier": "every history of the two graphs, every interpretation over any domain, every lawful order on local terms, every size hint of the vectors", "why_tests_cant": "entailment speaks of all interpretations, and the answer depends on the history of the indexed graph; a test has a few graphs with the expected answer", "anchors": ["src/dataset/graph/impl/indexed_btree_graph.rs: triple_pattern_matching, insert, remove, iter", "src/dataset/graph/impl/btree_graph.rs: BTreeGraph::iter", "src/triple.rs: Triple::map", "src/pattern/triple/canonical.rs: CanonicalTriplePattern::from"]}
{"id": "C93", "title": "What renamed, merged and isomorphic datasets state", "statement": "Read as RDF, where blank nodes stand for things that exist, a dataset states the same after its blank nodes got new names from a Blank generator. The merge of two datasets, made by renaming both with the same generator and extending one with the other, is true in an interpretation exactly if both datasets are; making it panics only if overflows are checked and the generator has fewer identifiers left than there are blank nodes. Quads added as they are state at least what they stated; they state no more if there is no common blank node, and may if there is. Isomorphic datasets state the same. are_isomorphic also accepts other datasets (C47): some of them state something else.", "quantifier": "every two datasets built by any sequence of operations, every interpretation over any domain, every prefix and offset of the generator, every order of IRIs and language tags, with or without overflow checks", "why_tests_cant": "that two datasets state the same speaks of all interpretations; blank nodes may occur in any component of any number of quads, with names that are also names the generator gives", "anchors": ["src/term/generator/blank.rs: Blank::next_blank_id", "src/quad.rs: Quad::map", "src/dataset/impl/btree_dataset.rs: BTreeDataset::iter, insert, extend, into_iter", "src/dataset/isomorphism.rs: are_isomorphic"]}
{"id": "C94", "title": "Undoing a batch of insertions", "statement": "If a program inserts quads that are new to an IndexedBTreeDataset and then removes them, the last one first, every call returns true and the dataset behaves as if it had never been touched: whatever is done with it later (insertions, removals, tests, extractions, removal of graphs) returns the same, every pattern and multi-pattern query finds the same quads in the same order, and the same resources are reported; only a remove_graph that removes nothing may return an empty graph in place of None or the other way round. The same holds for an IndexedBTreeGraph. It does not hold if the quads are removed in the order of their insertion, nor for subjects(), predicates() and objects(), which may lose entries, nor for a removal undone by an insertion: afterwards another quad may not be found.", "quantifier": "every history of operations of an indexed dataset or graph (including the conversion from a BTree container, removal of graphs and extractions), every batch of distinct absent elements, every sequence of later operations, every resource type with a total order", "why_tests_cant": "the internal places, accounts and free places must be those of the untouched container for every later operation; a test compares a few operations after a few histories", "anchors": ["src/dataset/impl/indexed_btree_dataset.rs: IndexedBTreeDataset, insert, remove, remove_graph, extract_pattern_matching, pattern_matching, multi_pattern_matching, subjects, predicates, objects, resources", "src/dataset/graph/impl/indexed_btree_graph.rs: IndexedBTreeGraph, insert, remove, PatternMatching"]}
{"id": "C95", "title": "Queries on containers collected from a sequence, and on copies", "statement": "An IndexedBTreeDataset collected from a sequence of different quads answers every pattern query with exactly the matching quads, in the order of the sequence, provided that a resource that a quad has twice is in an earlier quad of the sequence. If a quad has a resource twice that is in no earlier quad, some pattern that it matches does not find it. A copy of a dataset, made by collecting its iterator, has the same quads, and answers every pattern query exactly and in the order of iteration under the same condition, whatever was done to the dataset before. The same holds for an IndexedBTreeGraph.", "quantifier": "every sequence of distinct quads or triples of any length, every history of the container copied, every canonical pattern, every resource type with a total order, every size hint of the vectors", "why_tests_cant": "whether a query on the copy misses something depends on where each resource first occurs in the sequence; a test has a few sequences and patterns", "anchors": ["src/dataset/impl/indexed_btree_dataset.rs: IndexedBTreeDataset, iter, from_iter, insert, pattern_matching", "src/dataset/graph/impl/indexed_btree_graph.rs: IndexedBTreeGraph, iter, from_iter, insert, PatternMatching"]}
{"id": "C96", "title": "Replacing blank nodes by generated IRIs, and the way back", "statement": "A program that maps every blank node of a BTreeDataset to an IRI of a UUID generator, the same for all occurrences of the blank node, never panics. Its result has no blank node, differs from the dataset only in the blank nodes, and states at least what the dataset states: every world in which it is true makes the dataset true. If the IRIs are different and none of them is in the dataset, no quad is lost, mapping the IRIs back gives the dataset again, and every world that makes the dataset true makes the result true after changing what the new IRIs stand for only. The IRIs of Uuid::V4 are different if and only if the random bits used are. Exception: Uuid::V3 and Uuid::V5 give one IRI to all the blank nodes, so that quads can be lost and the result can state more than the dataset whatever the IRI stands for.", "quantifier": "every dataset reachable by any history, every UUID generator and hash function, every sequence of random bytes, every interpretation of the terms, every total order on IRIs and language tags", "why_tests_cant": "what a dataset states is a matter of all interpretations, and losing quads depends on how blank nodes are shared in the dataset; a test checks a few datasets and never all worlds", "anchors": ["src/quad.rs: Quad::map", "src/term/generator/uuid.rs: Uuid, next_uuid, next", "src/dataset/impl/btree_dataset.rs: BTreeDataset, iter, insert", "src/term/mod.rs: Term"]}
{"id": "C97", "title": "The difference of two containers and its application", "statement": "The difference of two containers of one kind, computed with iter and contains, consists of what the first has and the second has not, and conversely, each in the order of iteration. Removing the former from the first container and inserting the latter gives a container with exactly the elements of the second; every one of these operations reports a change. Applied a second time, none of them does. Applying the difference backwards gives the elements of the first again. Any other list of removals followed by insertions that leads from the first to the second contains the difference. This holds for BTreeDataset, BTreeGraph, IndexedBTreeDataset and IndexedBTreeGraph. Exception: a patched IndexedBTreeDataset, though equal to the second, need not answer pattern queries as the second does.", "quantifier": "every pair of containers reachable by any histories, every resource type with a total order, every list of removals and insertions", "why_tests_cant": "the claim relates any two histories and any other patch; a test tries a few pairs and cannot show that no smaller patch exists", "anchors": ["src/dataset/impl/btree_dataset.rs: BTreeDataset, iter, contains, insert, remove", "src/dataset/graph/impl/btree_graph.rs: BTreeGraph, iter, contains, insert, remove", "src/dataset/impl/indexed_btree_dataset.rs: IndexedBTreeDataset, iter, contains, insert, remove", "src/dataset/graph/impl/indexed_btree_graph.rs: IndexedBTreeGraph, iter, contains, insert, remove"]}
{"id": "C98", "title": "Editing a dataset by way of a copy without blank nodes", "statement": "A program replaces the blank nodes of a BTreeDataset by generated IRIs, rewrites a list of removals and a list of insertions in the same way, applies them to the copy and restores the blank nodes. If the generated IRIs are different and occur neither in the dataset nor in the two lists, this always succeeds, reports as many changes as applying the lists to the dataset itself, and gives the same quads: those of the dataset that are not in the removals, and the insertions. The lists may repeat quads and mention blank nodes that the dataset does not have. Exception: an insertion that mentions a generated IRI comes back with the blank node instead.", "quantifier": "every dataset reachable by any history, every pair of lists of quads, every generator and random bits giving different IRIs that are not in use, every total order on IRIs and language tags", "why_tests_cant": "the agreement has to hold for every dataset, every edit and every outcome of the generator; a test fixes them", "anchors": ["src/dataset/impl/btree_dataset.rs: BTreeDataset, iter, insert, remove", "src/term/generator/uuid.rs: Uuid", "src/quad.rs: Quad, map", "src/term/local/mod.rs: LocalTerm"]}
{"id": "C99", "title": "Bringing together two versions of a container", "statement": "Given a base and two versions of it, a program computes the difference between the base and the second version and applies it to the first. This always succeeds, and there are no conflicts: the result has the elements that both versions have, and those that at least one has and the base has not; so every removal and every insertion of either version is kept. The number of changes reported is the number of elements in which the first version and the result differ. Applying the first version's changes to the second gives the same elements, and doing it a second time changes nothing. With any number of versions, what the base has is left if no version has removed it, and what the base has not is there if some version has added it, whatever the order of the versions and however often each is taken. This holds for BTreeDataset, BTreeGraph, IndexedBTreeDataset and IndexedBTreeGraph. Exception: two indexed datasets brought together in this way have the same quads, but need not give the same answers to pattern queries.", "quantifier": "every base and every list of versions of one kind, reachable by any histories, and every resource type with a total order", "why_tests_cant": "the claim relates any three histories; a test tries a few, and the two directions have to agree on all", "anchors": ["src/dataset/impl/btree_dataset.rs: BTreeDataset, iter, contains, insert, remove", "src/dataset/graph/impl/btree_graph.rs: BTreeGraph, iter, contains, insert, remove", "src/dataset/impl/indexed_btree_dataset.rs: IndexedBTreeDataset, iter, contains, insert, remove", "src/dataset/graph/impl/indexed_btree_graph.rs: IndexedBTreeGraph, iter, contains, insert, remove"]}
{"id": "C100", "title": "Removing all that mentions a resource", "statement": "A program looks for a resource with one pattern query for each position and removes what it finds. On a copy of an IndexedBTreeDataset or IndexedBTreeGraph made with iter and collect, whatever was done to the original and whether or not elements repeat resources, it removes all the elements that mention the resource and no others, and the number reported is the number removed. On the container itself, for every history, it returns, removes no element that does not mention the resource, and reports the number removed. Exception: on the container itself elements that mention the resource can be left, because after a removal the queries miss them.", "quantifier": "every indexed dataset and graph reachable by any history, every resource, every resource type with a total order", "why_tests_cant": "whether an element is missed depends on the whole history and on which resources the elements repeat; a test fixes both", "anchors": ["src/dataset/impl/indexed_btree_dataset.rs: IndexedBTreeDataset, pattern_matching, remove, iter, FromIterator", "src/dataset/graph/impl/indexed_btree_graph.rs: IndexedBTreeGraph, pattern_matching, remove, iter, FromIterator", "src/pattern/quad/canonical.rs: CanonicalQuadPattern", "src/pattern/triple/canonical.rs: CanonicalTriplePattern"]}
