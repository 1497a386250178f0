# Formal model of rdf-types 0.22.4 in Rocq (Coq 8.16.1)

Source: `/repo/src` (read only, never built).  Model and proofs: `/verif/rocq/theories` (logical name `Verif`).
Properties: `/verif/properties.jsonl`.  Status per property: `/verif/MANIFEST.json`.
Mutation attempts: `/verif/seeded/LOG.jsonl`.

How to read the mutation log.  Each line is one edit of the model in a scratch copy.  Proofs that no longer check are replaced by
`Admitted` there, and `theorems_failed` lists the theorems whose `Print Assumptions` then shows one of these.

* A theorem in `theorems_failed` no longer has its proof.  This does not show that its statement is false of the edited program: a
  proof can break because it follows the old code.  Only a survivor is conclusive, and only survivors were examined one by one.
* Lines with `generated` come from a program that edits the model at random places.  Their `claim_broken` is derived from the
  theorems that failed, not from an analysis of the edit.
* A survivor has a `note`: the edit does not change the behaviour, no property speaks about the difference, or a theorem was
  tightened (`theorems_tightened`).
* Lines whose note begins with "no verdict" (292) could not be checked, mostly because a statement no longer type-checks after the
  edit.  Some of these edits were repeated in another form.
* The sweeps ran on the model as it was at the time, and the first was stopped after 2457 of 2735 edits.

## 1. Layout

* `*Model.v`  - the model: total Gallina functions that follow the Rust code function by function.
  Every definition cites the file and lines it models and says what is simplified.  No proofs.
* `*Spec.v`   - small independent specifications (sets as lists, grammars, pattern semantics,
  dataset isomorphism ...).  They do not use the model.
* `*Proofs.v` - lemmas.
* `P_*.v`     - property theorems only, each closed by `exact` of a lemma, with `Print Assumptions` below,
  and an `Example` showing that a concrete non-trivial case meets the hypotheses.

Naming: a property that the code satisfies is a theorem `cNN_...`.  A property of which only part is proved is
`cNN_..._partial`.  A property the code violates gets `cNN_..._refuted : exists witness, ...`, together with the
strongest positive theorem we have.

## 2. Trusted base

* Coq's kernel (coqc and coqchk 8.16.1) and the VM for `vm_compute` steps.
* `Print Assumptions` of each property theorem (section 6).
* That the model follows the Rust text.  Nothing mechanical ties it to the Rust code.  As a validation, the 220 tests of
  `/repo/tests` (`iso.rs`, `iso-negative.rs`) are run on the model: `RepoTestRun.v` is their test function on the models of
  `BTreeDataset` and of the isomorphism search, and `RepoTestsIso*.v` has one example for each, written by a script from the
  text of the test.  All have the outcome that the Rust test expects.  These are tests, not claims.
* The assumed behaviour of dependencies, which are not in the sandbox:
  * `slab::Slab` - a growable vector of optional values with a LIFO free list (`insert`, `vacant_entry().key()`,
    `get`, indexing that panics on a vacant or out of range key, `remove` that panics on a vacant key, `len`,
    `is_empty`, iteration by increasing key, `collect` from key/value pairs).  `capacity()` is any number at least
    the number of entries: theorems quantify over it.
  * `raw_btree::RawBTree<usize>` - a sequence kept sorted by the comparison closure passed at each call:
    `get`, `insert`, `remove`, `iter`.  Comparisons go through the closure, so they may panic.  Whether `insert`
    of an item that compares equal to a present one replaces it or keeps the old one is a parameter of the model:
    theorems hold for both.  For C63 and C64, where a comparison of the user may panic: an operation of the tree makes
    all its comparisons before it changes the tree, so that an interrupted one leaves the tree as it was.
  * `std::collections::BTreeSet<usize>` - strictly increasing lists of naturals.
  * `HashSet`/`HashMap` (pattern maps) - duplicate free association lists; results are stated up to order.
  * `uuid` - the bits set by `new_v3`, `new_v4` and `new_v5`, the text of a URN; hash functions are parameters.
  * `iref`, `langtag` - IRIs and language tags are strings; validity is a hypothesis where it matters.
* Resource types: any type with a comparison function satisfying the total order laws, whose `Equal` is
  identity.  C55 removes this restriction for the containers: a Rust `Ord` whose `Equal` relates distinguishable
  values behaves as its classes do.

Panics are explicit: functions of the containers return `option`, `None` meaning that the Rust code panics
(vacant slab index, counter underflow).  Integers are unbounded except where a width matters (`from_u8..64`,
the generator's counter).  Allocation failure, `usize` overflow of container sizes, and iteration while mutating
(excluded by the borrow checker) are not modelled.  A panic of the user's comparison is modelled for C63 and C64
(`CrashModel.v`: operations as sequences of changes of the state); panics of `Clone` are
modelled (`remove_graph`, extraction, consuming iterators; pattern setters, where the crate `replace_with` is trusted to abort the process); panics of
`Drop` are modelled for insertions, extensions and removals (`DropModel.v`, C85), and for `remove_graph` and extractions
(`DropAllModel.v`, C86), not for the destructor of a whole container, or values dropped while another panic unwinds.

## 3. What is modelled

| Rust | model | property files |
|---|---|---|
| `blankid.rs`, `term/generator/blank.rs` | `BlankIdModel.v` (grammar: `BlankIdSpec.v`) | `P_BlankId.v` |
| `display.rs`, `Display`/`RdfDisplay` of literals, terms, triples, quads | `DisplayModel.v`, `TextModel.v` (reader: `NTriplesSpec.v`) | `P_Display.v` |
| `Display`/`RdfDisplay` of the four containers | `DisplayContainerModel.v` | `P_Display.v` |
| `literal/`, `term/`, `id/` (values, comparisons, hashes, conversions) | `TermModel.v` | `P_Term.v` |
| `triple.rs`, `quad.rs` | `TripleModel.v`, `TripleConvModel.v` | `P_Triple.v`, `P_Term.v` |
| `slab`, `raw_btree`, `BTreeSet<usize>` (dependencies) | `SlabModel.v` | |
| the resource tables of the containers | `BResourceModel.v` (reference counts), `IResourceModel.v` (index sets) | |
| `dataset/impl/btree_dataset.rs` | `BTreeDatasetModel.v` | `P_BTreeDataset.v` |
| `dataset/graph/impl/btree_graph.rs` | `BTreeGraphModel.v` | `P_BTreeGraph.v` |
| `dataset/impl/indexed_btree_dataset.rs` | `IndexedDatasetModel.v` | `P_IndexedDataset.v` |
| `dataset/graph/impl/indexed_btree_graph.rs` | `IndexedGraphModel.v` | `P_IndexedGraph.v` |
| `dataset/mod.rs`, `dataset/graph/mod.rs`, both `fallible.rs`, `utils.rs` | `TraitModel.v`, `TraitInstModel.v` (instances for the containers) | `P_Trait.v` |
| `pattern/triple/canonical.rs`, `pattern/resource_or_variable.rs` | `TriplePatternModel.v` | `P_Pattern.v` |
| `pattern/quad/canonical.rs` | `QuadPatternModel.v` | `P_Pattern.v` |
| `pattern/triple/map.rs` | `PatternMapModel.v` | `P_PatternMap.v` |
| `dataset/isomorphism.rs` | `IsoModel.v` | `P_Iso.v`, `P_IsoEquiv.v` |
| the same, with the number of calls and their nesting | `IsoCostModel.v` | `P_IsoCost.v` |
| pattern queries of the indexed containers, with the work they take | `QueryCostModel.v` | `P_QueryCost.v` |
| client program: simple entailment by pattern queries | `EntailModel.v` | `P_Entail.v` |
| client program: merge of two datasets | `MergeModel.v` | `P_Meaning.v` |
| client program: copy of an indexed container | `CopyModel.v` | `P_Copy.v` |
| client programs: blank nodes to IRIs and back | `SkolemModel.v` (meaning: `MeaningSpec.v`) | `P_Skolem.v` |
| client programs: difference and patch | `PatchModel.v` | `P_Patch.v` |
| client programs: edit of a copy without blank nodes | `EditModel.v` | `P_Edit.v` |
| client programs: two versions brought together | `PullModel.v` | `P_Pull.v` |
| client programs: removal of what mentions a resource | `ForgetModel.v` | `P_Forget.v` |
| `serde` implementations (derived and manual) | `SerdeModel.v` | `P_Serde.v` |
| `serde` implementations in compact formats | `BinModel.v`, `BinSpec.v` | `P_Bin.v` |
| `serde` implementations of containers, any serializer or source that may fail | `StreamModel.v`, `StreamSpec.v` | `P_Stream.v` |
| iterators over the contents of containers, item by item; `Clone` panics in `into_iter` and in pattern setters | `ConsumeModel.v`, `ConsumeSpec.v` | `P_Consume.v` |
| `quads_count` and the other counting methods, a graph as a dataset | `CountModel.v`, `CountSpec.v` | `P_Count.v` |
| derived `PartialEq`, `PartialOrd`, `Ord`, `Hash` of patterns; `Hash` of triples and quads | `KeyModel.v`, `KeySpec.v` | `P_Key.v` |
| `Debug` of terms, statements, patterns, containers | `DebugModel.v`, `DebugSpec.v` | `P_Debug.v` |
| trees of insertions and unions of pattern maps | `PatternGrowthModel.v`, `PatternGrowthSpec.v` | `P_PatternGrowth.v` |
| the same with interruptions and orders of iteration | `PatternTrialModel.v`, `PatternTrialSpec.v` | `P_PatternTrial.v` |
| the same when equality is not identity | `PatternMapModel.v`, `PatternTrialModel.v`, `PatternClassSpec.v` | `P_PatternClass.v` |
| `schema.rs`: vocabulary constants | `SchemaModel.v`, `SchemaSpec.v` | `P_Schema.v` |
| `Debug` of pattern maps | `PatternDebugModel.v`, `PatternDebugSpec.v` | `P_PatternDebug.v` |
| Errors of blank node identifiers and of quad export | `ErrorModel.v`, `ErrorSpec.v` | `P_Error.v` |
| Pattern maps, panics of `Hash` and `Eq` | `PatternCrashModel.v`, `PatternCrashSpec.v` | `P_PatternCrash.v` |
| `macro.rs` | `MacroModel.v` | `P_Macro.v` |
| all `impl Iterator` with a `next` of their own (in the files above and below) | `IterModel.v` | `P_Iter.v` |
| mapping functions with a state (`triple.rs`, `quad.rs`, `pattern/quad/canonical.rs`) | `MapCallModel.v` | `P_MapCall.v` |
| renaming of blank nodes, a client of `quad.rs`, `term/generator/blank.rs` and `btree_dataset.rs` | `RelabelModel.v` | `P_Relabel.v` |
| loading and reading back with an interpretation, a client of `quad.rs`, `interpretation/mod.rs` and `btree_dataset.rs` | `LoadModel.v` | `P_Load.v` |
| solving several patterns, a client of `indexed_btree_graph.rs` and `pattern/triple/canonical.rs` | `JoinModel.v` | `P_Join.v` |
| exact answers of the queries of indexed containers | (same models) `ScanSpec.v` | `P_Scan.v` |
| the resources reported by the four containers, for all histories | (same models) `LedgerSpec.v` | `P_Ledger.v` |
| exact answers of the queries of indexed containers, for all histories | (same models) `SightSpec.v` | `P_Sight.v` |
| exact listings, counts and removed graphs of indexed containers, for all histories | (same models) `ShelfSpec.v` | `P_Shelf.v` |
| a reference machine for the indexed containers | (same models) `ReferenceSpec.v` | `P_Reference.v` |
| `term/generator/uuid.rs` | `UuidModel.v` (reader: `UuidSpec.v`) | `P_Uuid.v` |
| the containers when a comparison panics | `CrashModel.v`, `ICrashModel.v`, `ExtractCrashModel.v`, `SurviveModel.v`, `CrashSpec.v`; when a destructor panics: `DropModel.v`, `DropAllModel.v`, `DropSpec.v` | `P_Crash.v`, `P_ICrash.v`, `P_ExtractCrash.v`, `P_Survive.v`, `P_Drop.v`, `P_DropAll.v` |
| `Display`, `RdfDisplay` and `RdfDisplayWithContext` with writers that fail | `WriteModel.v`, `WriteSpec.v` | `P_Write.v` |
| what containers allocate | `HeapSpec.v` | `P_Heap.v` |
| the four containers with other resources or orders | (same models) `MapSpec.v` | `P_Map.v` |
| `interpretation/`, `term/generator/` (traits, interpretation) | `InterpretationModel.v`, `GenCrashModel.v`, `GenCrashSpec.v` | `P_Interpretation.v`, `P_GenCrash.v` |

`Machine.v` defines histories (lists of operations run from a start state, with outputs), used on both sides of
the refinement theorems.  `SetSpec.v` and `ContainerSpec.v` are the naive sets and their histories, `IndexedSpec.v`
the specification of the queries on indexed containers, `PatternSpec.v` the meaning of patterns, `PatternMapSpec.v`
of pattern maps, `IsoSpec.v` of isomorphism, `InterpretationSpec.v` of interpretations, `TermSpec.v` the order and
conversion laws, `TraitSpec.v` the answers expected from the provided methods, `IterSpec.v` successive calls of
`next`, `MapSpec.v` histories and results with other resources, `ScanSpec.v` the places
of the elements of an indexed container and the walk of a query along them, `MapCallSpec.v` calls of a function with a state,
`LedgerSpec.v` the account of a resource, `SightSpec.v` the walk over elements
labelled by these accounts, `ShelfSpec.v` the places of the resources and their marks,
`DisplaySpec.v` what a reader takes blank nodes and padded strings for, `ReferenceSpec.v` a machine made of the places of the quads and of the shelf, `CrashSpec.v` what an interrupted
operation leaves of a set and what it loses, `ICrashSpec.v` queries confined to a list of elements, `WriteSpec.v` writers and what it is to write a text to one,
`HeapSpec.v` the peak of a history and what a container allocates,
`ExtractCrashSpec.v` what interrupted calls of an iterator may return and take, `SurviveSpec.v` the
histories of a set that may lose elements and give them back, `DebugSpec.v` trees of constructors, their plain and indented texts and what it is to read them, `ErrorSpec.v` the messages, `PatternDebugSpec.v` the trees that list the pairs of a map, `PatternGrowthSpec.v` the pairs kept by a tree of
unions, `PatternTrialSpec.v` the pairs and keys left by one of which parts were interrupted,
`PatternClassSpec.v` the representatives held when equality is not identity, `DropSpec.v` what an operation cut short by a destructor leaves, `RelabelSpec.v` the blank nodes in the order one meets them,
`JoinSpec.v` the solutions of several patterns, `IsoCostSpec.v` blank nodes that look alike, `QueryCostSpec.v` the number of elements that share a component given,
`MeaningSpec.v` interpretations of RDF and truth of triples and quads, `RollbackSpec.v` a batch inserted and
removed, `CopySpec.v` sequences that introduce their resources, `SchemaSpec.v` how a
constant's name spells its IRI and the terms the recommendations define, `PatternCrashSpec.v` the insertions that were not interrupted.

Not modelled: hashing beyond "what is fed to the hasher",
the view structs (`DatasetView`, `GraphView`: fields only), lifetimes and borrows.

## 4. Plan per property

* C01, C02, C03 - characters are code points (`N`), strings are lists.  `check` becomes a recursive function;
  the grammar is an independent inductive/boolean spec written from the doc comment.  Soundness by induction.  C02 is
  expected to fail on inner dots (`_:a.b`): refutation plus completeness for dot free labels.  Decimal printing
  is defined by recursion and proved injective and digit-only.
* C04-C06 - generator as a state machine; invariants over the number of calls; decimal printing injective.
  C05 and C06 are expected to fail for some prefixes: refutations plus the exact condition on prefixes.
* C07-C11 - printers as functions to strings; an independent N-Triples reader (spec) and proofs that reading the printed
  text gives back the value and the rest of the input.  The blank node case of `LocalTerm` and the IRI escape
  are expected to be refuted.
* C12-C16 - value types with comparison functions; order laws, conversions by case analysis/induction.
  C14 (Borrow) is expected to be refuted.
* C17-C22 - `BTreeDataset` with slab, sorted index and reference counts.  Representation invariant, preserved by every
  operation; abstraction to the sorted list of quads; trace refinement: for every list of operations the outputs
  equal those of a naive set specification.  Equality/order/hash from the abstraction being canonical.
  C21 is expected to fail when a quad repeats a resource that is not yet in the dataset: refutation, soundness always, and exactness for
  each resource that was never repeated while new.
* C23-C25 - same for `BTreeGraph`.
* C26-C32, C49 - indexed dataset: invariant relating the per-resource index sets to the quads; set refinement for all
  histories; pattern matching iterator (leapfrog over sorted index lists) as a fuelled loop, proved
  sound for all states, complete without holes in the slab (or with a given subject) for every quad none of whose
  checked resources has a duplicate entry; refutations for the rest (holes, stale subjects, stale named graphs, panic).
* C33-C35 - same for `IndexedBTreeGraph`.
* C36 - default methods over an abstract container with exact pattern matching.
* C37-C42 - pattern types and all constructors/accessors/setters; semantics `matches`; assignments of variables.
* C43, C44 - pattern map; history theorem for insert/get; `union_with` expected to be refuted.
* C45-C47 - isomorphism search; completeness and well-formedness by induction on the search; soundness is expected
  to be refuted.
* C48 - interpretations as records of functions/state machines.
* C53 - the values of a self-describing format as a tree; derived implementations transcribed as serde generates them.
* C55 - every function of the container models commutes with a map of resources that preserves comparison results; the
  set theorems then transfer along a key function.  An invariant of the slab gives the origin of resources.
* C56 - the slab as a row of places with a stack of vacant ones, kept in step with the history; the iterator is a walk
  along the places that only looks at what each component demands.
* C54 - a macro takes a list of tokens to `NoCompile`, `Panics` or a value; the notation is a printer from items to tokens.
  Of the Rust compiler it knows three things: the conversions to `LocalTerm` and `String`, the arity of `new`, and moves.
* C57 - the iterators as machines whose state is known also after a call that returns `None`; they agree with the
  lists of the other models, and a state that returned `None` is a fixed point.  `named_graphs`, the one listing that
  can panic, is also followed past its panics (`PollProofs.v`).
* C58 - functions with a state as state transformers; the result of mapping is compared with feeding the list of components.
* C59 - an account of one resource (`LedgerSpec.v`: is it reported, which elements are filed under which number), kept from
  the changes alone; the slots of the containers simulate it (`LedgerProofs.v`, `BLedgerProofs.v`, `ILedgerProofs.v`).
* C60 - the simulation also tells which occurrence of a repeated resource gets the visible slot; so the account determines
  for each component whether its slot is visible, and the walk of C56 is repeated over elements labelled with this.
  `GraphSightProofs.v` does the same for the removal of a named graph.
* C61 - all resources at once: a shelf with places (as in C56), the elements with the places of their components, where a
  resource is shown, and the marks of subjects, predicates, objects and named graphs; the slots, trees and sets of the
  containers refine it (`ShelfProofs.v`, `IShelfProofs.v`), also through the conversion from a BTree container.  The graph
  is treated as a dataset whose quads have no name.
* C62 - a machine made of the row of C56 and the shelf of C61, which also computes what the operations return; two walks
  that agree on the elements find the same (`ReferenceProofs.v`), so the queries of C60 are those over the shelf, and by
  induction on the history the outputs are those of the machine.
* C63 - operations as actions with a budget of comparisons; rules for "ends with ..., or is interrupted with ..., and does
  not fail" (`CrashProofs.v`); an invariant weaker than that of C17, in which the index of the quads counts and counters of
  resources are at least the number of their uses (`BCrashProofs.v`); graphs by a simulation (`BGCrashProofs.v`); agreement with
  the functions of the other models when the budget is large enough (`CrashAgree.v`).  Losses are listed: each is an element that
  an interrupted operation was to insert (`CrashHistoryProofs.v`).  Operations that do not change the set leave the container
  identical, interrupted or not (`CrashIdle.v`).
* C64 - the same rules; an invariant in which the marks of a resource are at least its uses by indexed quads
  (`ICrashProofs.v`); an entry that is not in the index is a loss, so what cursors over stale marks find is
  an element or a loss, at most once (`ICrashReads.v`); graphs by the simulation,
  conversion of interrupted containers (`ICrashConvert.v`), `remove_graph` (`ICrashHistory.v`).
* C65 - "gives these pieces to any writer until it refuses one" is closed under `?` and loops; the pieces make up the texts of C07 to C11.
* C66 - insertions fill vacant slots first, so slots never exceed the entries there were at once; each resource entry is used by a
  component of a present element (the invariants), so entries never exceed the components.
* C67 - the search of the iterator is idempotent, and finds the removed quad's slot vacant; the removal changes no other slot and no value.
* C68 - the text is read back group by group; facts about bytes by computation over the 256 bytes.
* C69 - layouts as relations between items and values; a reader decodes a layout exactly, so readers compose and need no bound.
* C70 - the test is exactly half isomorphism (C47), which is an equivalence: bijections are inverted and composed.
* C71 - induction on the elements for serializers; on the number of calls of the source for readers, so that endless sources are covered.
* C72 - induction on the calls, for any state whose elements can be read; cases on the pattern for the setters.
* C73 - `Iterator::count` as a fuelled loop over `next`; the bounds on `resource_count` compare lists without duplicates by inclusion.
* C74 - each enumeration is mapped to the list of what it says of each component; the derived comparisons are
  those of the lists, level by level, and the laws are carried back.
* C75 - the model is a writer program (builders, indenting adapter); it is shown to write the text of a tree of
  constructors. Reading back: the text of a value together with any text that starts with a comma, a closing
  bracket or a space determines the value and that text; this is carried from the parts to the whole.
* C78 - a map is related to the relation (pattern, value) it holds; the relation is preserved by insertion, union
  and reordering of the tables, two maps of the same relation are reorderings of each other, and the tree of a map
  determines it. These laws are shown for sets and tables and carried through the seven structures.
* C79 - induction on the tree, on top of the laws of C43 and C44 (extended by the keys of a union) and of C78.
* C80 - induction on the tree, on top of the laws of C77, extended by the number of entries an
  interrupted union has taken, their order, and orders of iteration.
* C81 - every operation commutes with replacing resources and values by others that compare alike;
  this reduces resources to their classes, and the laws of C43 are proved again for classes of values.
* C82 - the finite facts about the constants are computed; those about literals typed by them follow
  from the printer and reader of C08 for every value.
* C83 - the invariant of C64 is kept by the removal of any quad of the slab, indexed or lost (when a lost copy of an indexed
  quad is removed, the indexed copy takes its place among the losses); the search reads no slot before its position.
* C84 - by induction on the calls a history is the insertion of the terms of the calls; re-entrant calls panic because the cell is
  borrowed, whatever the depth.
* C85 - the operations of C63 and C64 followed or interleaved with destructor calls; the invariants of C63 and C64 are kept at every call; a
  count of resources (stored + dropped = given) by induction on the history.
* C86 - the proof of C83 again, over the operations of C85; the relation `survives` of C83 takes what an interrupted operation may leave as
  a parameter.  The counts of `remove_graph` and extractions continue those of C85.  `RecoverProofs.v`: C83 and C86 after an interruption.
* C87 - the closure given to `Quad::map` is followed over the components in order (C58): the names given so far are the blank nodes met so
  far, each once, and the first outputs of the generator.
* C88 - as C87, with what terms denote in place of the names given.
* C89 - by induction on the patterns: the solutions that extend a binding, from what one matching returns.
* C90 - the search with a counter of calls and of their nesting, which has the same answers; bounds by induction on
  the blank nodes left.  Expected to be refuted: if the search fails, every assignment of blank nodes that look alike is tried.
* C91 - the iterators with counters of the rounds and of the index entries dropped, which have the same answers; one
  lemma for any measure that each round decreases, and a measure for each constraint.  Expected to be refuted: the constraints
  are consulted in a fixed order, and an index is walked entry by entry.
* C92 - solutions of the patterns are maps of blank nodes to terms; a map gives the truth of one graph from that of the other,
  and the interpretation whose things are the terms gives a map from an entailment.  The rest is C89.
* C93 - an isomorphism carries the choice of things for blank nodes over, both ways; without common blank nodes two choices
  make one.
* C94 - the account of C60 and the places of C56 determine all answers; the accounts and places after the batch are like those
  before it (same report, same elements, last number replaced by a fresh one), and likeness is kept by every operation.
* C95 - the list of changes is the sequence itself, so C56 applies; in the other direction the account of the repeated resource has
  a marked element, and C60 tells which of its components is not found.
* C96 - invariant of the closure: the names are the blank nodes met so far, in order, each with the IRI of its call; the map of names
  is inverted when its IRIs are distinct and new, which gives the way back, and the change of the world for the meaning.
* C97 - proved once for any container whose operations refine those of a set, then instantiated with the four refinements (C17, C23,
  C26, C33); the least patch by looking at what a patch that leaves an element out does to it.
* C98 - the copy has the images of the quads, under a map that is injective on quads without the new IRIs; insertions and removals
  keep this and report the same change on both sides; restoring is the inverse of the map on such quads.
* C99 - generic like C97, whose lemma gives the difference; the changes are counted by looking at which of them are effective on a
  list without repetition, and the count is compared with the difference between the version and the result.
* C100 - in a container that was only filled, the account of a resource (C60) says that some position of each element that has it is
  found, also when the element brings it in twice; soundness of the queries (C28, C34) gives the rest.
* C76 - the message of a refused string is a fixed beginning, the quoted text and a fixed end, and C75 shows that the
  quoted text can be read back.
* C77 - laws of an insertion and of a union that may be interrupted, for sets and tables, carried through sums of
  patterns to the seven maps as for C43 and C44. An interrupted union is the union with a part of its argument.

## 5. Findings

Each is confirmed by a `_refuted` theorem, whose witness is a concrete value or history of calls.

1. **Containers, repeated new resource** (C21, C25, C28, C31, C34, C35, C73): `insert` looks up all the components of a quad before it
   creates the missing ones, so inserting `(a p a)` with `a` new creates two entries for `a`.  Afterwards
   `contains_resource` may be false for a resource in use, a same-as pattern misses the quad, resources are reported twice, and `resource_count` is
   too small (not indexed) or too large (indexed, C73).
   The damage is confined to the repeated resources: the theorems ask that one resource (`known_log ... (eq r)`),
   or the resources a pattern checks in one quad (`cq_checked`), were never repeated while new.
2. **Indexed containers, vacant slots** (C28, C32, C34, C49): the pattern iterator without a given subject walks the slab
   from 0 and stops at the first vacant slot, so after a removal it misses the quads stored behind it.  C56 says
   exactly which quads are found: a walk that is skipping to a given predicate, object or graph jumps over vacant slots.
3. **Indexed containers, removal** (C29, C35): removing one quad marks its subject, predicate and object as unused
   even if other quads use them; `subjects()` and the others then omit them.
4. **Indexed dataset, named graphs** (C29, C30): a graph name whose last quad is removed stays in the list of
   named graphs while the resource is used elsewhere; `named_graphs()` panics (vacant slab key) after four operations.
   If the slot is then taken by another resource, that resource is listed as a named graph.
5. **Isomorphism, ground quads** (C47): quads without blank nodes are counted but never compared.
6. **Isomorphism, named resources** (C47): while the bijection is tested two different named resources match, so
   datasets that differ in the named parts of quads with several blank nodes are declared isomorphic.
7. **Pattern setters** (C41): `set_predicate` on `?x ?y ?x` forgets that object and subject are equal.
8. **Pattern setters** (C41): `set_object` treats `?x p ?x` and `?x ?y ?x` differently and may return the wrong old value.
9. **Pattern maps** (C44): `union_with` extends nested hash maps and loses the values of the first map under shared keys.
10. **Blank ids** (C02, C05, C06): dots inside labels are rejected although the documented grammar allows them; the
    prefix of a generator is not checked; generators with different prefixes may produce the same identifier.
11. **IRI escapes** (C09): a forbidden character is written `\u0x20` instead of `\u0020`.
12. **Blank nodes in text** (C10, C11): the `RdfDisplay` of a `LocalTerm` blank node is a quoted string.
13. **Borrow** (C14): `Literal: Borrow<str>` ignores the type, against the contract of `Borrow`.
14. **Patterns from triples** (C42): `from_triple` ranges over all graphs, `from_triple_pattern` over the default graph only.
15. **Fresh resources** (C48): `new_resource` may return an identifier the program already uses.
16. **Format flags** (C52): width and precision given to a string or IRI apply to each of its characters.
17. **Pattern macro** (C54): `grdf_quad_pattern!` compiles with no constant: IRIs refer to `$crate::static_iref`, which the
    crate does not export, and all constants are `LocalTerm`s where the documented type wants `Term`s.
18. **Panicking comparisons** (C63): a comparison that panics at the end of an insertion leaves a quad in the slab that is not
    in the index: `len` counts it for ever, an emptied container is not empty and not equal to an empty one, and containers with
    different quads may be equal (the equality compares lengths, then zips).  Resources whose removal was interrupted stay.
19. **Panicking comparisons in indexed containers** (C64): an interrupted insertion leaves marks behind, so queries return quads that
    do not match (of another subject), or not contained, or end early; after an interrupted removal `remove_graph` panics; an
    interrupted `remove_graph` drops the quads it has removed; after the conversion of an interrupted `BTreeDataset` a query may panic.
20. **UUID generators** (C68): `Uuid::V3` and `Uuid::V5` hash the same name at every call, so they return the same IRI for ever, where the
    trait asks for a fresh term; blank nodes replaced by their IRIs all become one (C96).
21. **Compact formats** (C69): `Term` and `LocalTerm` are `#[serde(untagged)]`: they are written by any format, but read only by
    self-describing ones, so a dataset of terms saved with bincode or postcard cannot be loaded.
22. **Interrupted insertion into a pattern map** (C77): when `Hash` or `Eq` of the value panics, an empty entry stays behind; `union_with`
    with this map as argument then drops what the other map has under the same key.
23. **Removals after an interrupted removal** (C83): the index stays listed for its graph, and its slot is given to the next quad inserted:
    `remove_graph(None)` then removes a quad of a named graph and returns its triple as one of the default graph, and an extraction
    removes quads that do not match its pattern.  After an interrupted insertion that is made again an extraction returns the quad twice.
24. **A graph name whose destructor panics** (C85): the removal of the last quad of a named graph drops the name before it leaves the list
    of named graphs; if its destructor panics, `named_graphs` panics from then on.
25. **Destructors and `remove_graph`** (C86): a destructor that panics in the removal of a quad of the default graph leaves the index of
    that quad in the list of the default graph; `remove_graph(None)` then panics by itself, or takes a quad of a named graph that got the
    same index.  A destructor that panics in `remove_graph` or in an extraction loses for the caller what was already taken.
26. **The isomorphism test can take forever** (C90): blank nodes with the same description are tried in all orders before the
    search gives up.  With `n` blank nodes of one quad each, `_:x ex:p ex:p`, and two more quads (`_:b ex:p _:c`, `_:c ex:p _:b` in one
    dataset, `_:b ex:p _:b`, `_:c ex:p _:c` in the other) `are_isomorphic` makes more than `n!` calls before it answers no.  The search is recursive, one
    call for each blank node, so that large datasets may also exhaust the stack.
27. **Indexed queries may walk a whole index, or the whole graph** (C91): the entries of the predicate's index are passed over one by
    one (no `range`), so `s p ?o` takes time in proportion to the triples of `p` even if `s` has one triple; and the object is
    consulted only after the predicate has accepted, so `?x ?x o` looks at every triple of the graph.
28. **Insertions can be undone only backwards** (C94): after removing new quads in the order of their insertion, a quad inserted
    later is in the dataset but a query without a given subject stops before it; and even backwards, `subjects`, `predicates` and
    `objects` lose entries of quads that are still there.
29. **Removing what a query finds can leave what it should remove** (C100): after a removal, a program that deletes all elements
    mentioning a resource by pattern queries on an indexed container may delete none of them; on a fresh copy it deletes all.

Observed, without a theorem: `BlankId` and `BlankIdBuf` are made with `transmute` although they are not `repr(transparent)`; `Id` derives no comparison although `IdRef` does; `CowLocalTerm` and `CowId` have no
`into_owned`; the UUID generator does not implement the current `Generator` trait (`next` instead of `next_term`), so that its features do not
compile.

## 6. Assumptions per theorem

`Print Assumptions` stands below every theorem of the `P_*.v` files.  For each of them it prints
"Closed under the global context": no axiom is used, not even of the standard library.  (The list of axioms in the loaded environment
shows the opaque constants of the standard library's `Coq.ssr.ssrunder`, which is loaded transitively; no theorem
depends on them.)

Hypotheses that appear in theorem statements and are therefore assumptions about callers or other crates:

* resource types: `cmp` is a total order whose `Eq` is identity (C17-C36, C49-C51; not needed in C55), or `eqb` decides identity (C37-C44);
* C12: the comparisons of IRIs and language tags are lawful (total orders up to their own equality);
* C08, C10, C11 (reading back): IRIs contain only characters allowed by IRIREF and language tags are well formed;
* C45: no two resources share a term; the corollaries for local terms with `()` take equality of IRIs and tags to be identity,
  or (`_normal` theorems) equality of normal forms, as for language tags compared without case;
* C36: the pattern iterator of the container yields exactly the matching quads.

Each theorem is followed by an `Example` that exhibits a concrete case meeting its hypotheses.
