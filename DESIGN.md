# DESIGN

Formal model, in Rocq 8.16.1, of UNSW-database/rust_graph_lib (source in /repo, read as text only).

## Approach

* The model is plain executable Gallina, one definition per Rust function, with a file:line citation on each.
* `Base.v`: result type with an explicit `Panic` outcome, the id types (`u8/u16/u32/usize/()`) with
  truncating `new`, `max_value`, overflow-checked `increment`.
* `Spec.v`: the independent specification: abstract labelled graphs (finite maps of nodes and edges),
  reachability, connectivity. It does not mention any model helper.
* Hash-map iteration order is never fixed: any function that iterates over a HashMap takes the
  order as an arbitrary permutation of the keys; theorems quantify over it.
* Random generators are arbitrary oracles; file system is a finite map from names to bytes.
* `Properties_*.v`: only final theorems (closed by `exact`), each followed by `Print Assumptions` and by an
  `Example` showing that a concrete non-trivial case satisfies its hypotheses.
* When the code violates the property: a `_refuted` theorem gives a concrete reachable counterexample and a
  `_partial` theorem the strongest statement that does hold.

## Plan per property

* **C01** SetMap is a bijection between items and 0..len-1. Map.v models SetMap as the insertion-ordered list of an IndexSet; proved by invariant NoDup over operation histories.
* **C02** Label indices are stable: add_item is idempotent and never moves an item. Same model; lemma on add/pop for any reachable map.
* **C03** SetMap and VecMap are observationally equivalent. Bisimulation between the two map models over histories.
* **C04** Map conversions preserve indices. Conversions modelled as list copies / re-insertion; true for duplicate-free data, refuted (witness) for VecMap data with duplicates.
* **C05** SetMap equality implies equal hash input and equal index assignment. derive(PartialEq) on IndexSet is set equality; refuted with a witness, plus what does hold (same set of items).
* **C06** A directed GraphMap behaves as an abstract labelled digraph. GraphMap.v (executable model of every mutation and query) refines Spec.v's abstract graph; induction on histories with a representation invariant.
* **C07** An undirected GraphMap behaves as an abstract labelled undirected graph. Same refinement theorem at dir=false.
* **C08** No mutation of a GraphMap panics. Refuted by witness (remove_node on a self-loop); the exact condition is C09.
* **C09** remove_node panics exactly on self-loops. Refinement theorem's panic clause: model panics iff specification history panics.
* **C10** edge_count equals the number of edges. Refuted by witness; partial theorem for histories without re-adds.
* **C11** edge_count drift is exactly the number of re-added edges. Specification state carries the reported count; refinement proves it and an invariant bounds it below by the true number.
* **C12** node_indices enumerates the nodes exactly once. node_indices takes the hash order as an arbitrary permutation; theorem for every permutation.
* **C13** edge_indices enumerates the edges exactly once. As C12, with NoDup and membership characterisation of edge_indices/edges.
* **C14** in_neighbors is the exact inverse of neighbors. Representation invariant links neighbors and in_neighbors; sortedness from the BTree model.
* **C15** max_seen_id is the maximum id ever inserted. History invariant on g_max.
* **C16** Labels round-trip through the label-id encoding. True under 'labels fit the id type' (part of refinement), refuted without it.
* **C17** Mutation return values are exact. Refinement theorem compares the observable result of every call with the specification's result.
* **C18** remove_node removes the node and its incident edges and nothing else. Corollary of refinement + abstract remove_node characterisation.
* **C19** Label edits through get_edge_mut are seen from both endpoints. Refuted by witness; what happens is characterised.
* **C20** GraphMap == is an equivalence that means same graph. Refuted by witness (asymmetry).
* **C21** GraphMap == is exactly label-preserving inclusion. Exact characterisation over representing views.
* **C22** equal() decides labelled-graph equality across implementations. equal modelled over the trait-object view; iff theorem for views representing abstract graphs with exact counts.
* **C23** Equal boxed graphs hash equally. Hash feeds modelled as sequences; proved for views representing equal abstract graphs.
* **C24** Cloning a boxed graph yields an equal graph. clone = graph_union with empty; corollary of C50.
* **C25** from_edges builds exactly the given edge set. Fold over add_edge, refinement.
* **C26** reorder_id is a label-preserving isomorphism onto 0..n-1. Reorder.v models reorder_id for arbitrary iteration orders; isomorphism proof.
* **C27** find_new_node_id and get_original_node_id are inverse. SetMap bijection applied to the id map built by reorder.
* **C28** into_static preserves the graph. Holds for dense ids and non-sentinel labels (partial), refuted otherwise.
* **C29** into_static preserves adjacency and edge labels even with id gaps. CSR construction loop invariant.
* **C30** EdgeVec lookup is correct on every well-formed CSR. Rust's slice binary search modelled and proved; CSR well-formedness.
* **C31** The static edge iterator yields each edge exactly once. State-machine iterator; fuelled run equals the lexicographic list; wrap refuted.
* **C32** Static edges() carries the right labels. Directed proved; undirected refuted by witness.
* **C33** Static constructors build what their arrays describe, with the right counts. Static.v; SpecCons.v says what arrays describe. Partial for the counts: without self-loops; refuted with.
* **C34** Removing labels from a static graph only removes labels. Direct frame theorem over all queries.
* **C35** dump then map is the identity on typed arrays. Little-endian encode/decode and chunked write loop; induction.
* **C36** dump_mmap then StaticGraphMmap::new gives the same graph. File-system map model; dump then open; view equality.
* **C37** dump_mmap overwrites any earlier dump. Refuted by stale-file witness; partial: holds when the new dump has at least the file kinds of the old.
* **C38** A crash during dump_mmap is detected on reopen. Crash points = prefixes of the file-operation list; refuted by witness, exact characterisation partial.
* **C39** has_edge never panics. True for GraphMap and StaticGraph (well-formed), refuted for StaticGraphMmap.
* **C40** Bfs visits every node exactly once. BFS state machine over any view representing an abstract graph; invariant + measure.
* **C41** Bfs visits in breadth-first order. Distance-layer invariant on the queue.
* **C42** Dfs visits every node exactly once, reachable nodes first. As C40 for the stack machine.
* **C43** Dfs yields a depth-first order. Refuted by witness.
* **C44** Bfs and Dfs only traverse nodes reachable from the start. Refuted by witness; the exact visited order prefix is C41/C42.
* **C45** ConnComp::is_connected is undirected connectivity. Union-find model with path compression; forest invariant and equivalence closure.
* **C46** ConnComp::get_count is the number of components. Counting invariant: count = number of roots.
* **C47** ConnComp::get_connected_nodes returns exactly the component. Filter over the parent map for every iteration order.
* **C48** ConnComp::get_root terminates and identifies components. Fuel-free termination by rank argument; panic on unknown nodes refutes the None clause.
* **C49** ConnSubgraph partitions the graph into its connected components. Refuted for isolated nodes; proved for graphs without isolated nodes.
* **C50** graph_union is the labelled union. Folds of add_node/add_edge over views.
* **C51** graph_minus is the subgraph induced by the remaining nodes. Partial: when no removed node has a self-loop; refuted otherwise.
* **C52** complete_graph is complete. Generators with the RNG as an arbitrary oracle.
* **C53** random_gnm_graph has exactly m distinct edges. Reservoir sampling model with oracle.
* **C54** random_gnp_graph is a simple graph on n nodes. Oracle of Bernoulli outcomes with p compared as rationals.
* **C55** CSV write then read restores the graph. Record-level CSV model with an abstract text codec; refuted for empty strings.
* **C56** CSV rows that fail to parse are skipped without affecting the others. Fold over record list with parse failures skipped.
* **C57** export then import restores maps and graphs. bincode codec model, byte lists, round-trip by structural composition.
* **C58** LDBC import gives one node per entity. LDBC loader model over record sequences; collision refuted, true for numeric ids.
* **C59** LDBC import reports the number of distinct edges. Refuted by witness (duplicated relation), characterisation of what is counted.
* **C60** Label counters count the nodes and edges that carry a label. Fold over the nodes (edges) in the view; count stated with filter/length on the abstract graph.
* **C61** A file cut short is never read as a value. The codecs of C57 decode no proper prefix of an encoding (detects_cut), by structural composition.
* **C62** Dumps under different prefixes do not interfere. File names of a prefix as strings; two names can only meet when one prefix extends the other by _OUT or _IN, by case analysis on suffixes.
* **C63** CSV read builds exactly the graph its rows describe. read is rewritten to a history of add_node/add_edge calls (fold over records), then the refinement of C06/C07 and an induction over the calls give the graph.
* **C64** CSV columns are matched by header name. visit_map over header/field pairs is invariant under permutations of the pairs, by induction on the permutation.
* **C65** CSV separators are one byte or one of three names. Case analysis on the string.
* **C66** LDBC import reads exactly the files named after its types and relations. Regex matcher as a recursive function, proved equal to an existential over the parts of the name; the scheme by computation over its list.
* **C67** Renumber, freeze, save and map keeps the graph. Composition of the refinement, reorder_id, into_static, bincode and dump_mmap theorems; Pipeline.v shows that every history meets the typing hypotheses of the later stages.
* **C68** Every CSV row is read as its header says or skipped. SpecCsvRows.v gives the meaning of a number and of a row without the model's parser; induction over the header relates visit_map to it and over the digits parse to decimal notation.
* **C69** csv_to_static writes the graph of its rows, renumbered if asked. The program is the composition of read_from_csv, reorder_id, into_static and export; C54, C67, C68 and the export theorems compose. The -l part is refuted.
* **C70** static_to_csv loses nothing. Composition of import after export (C36), the writer and the reader (C53).
* **C71** remove_labels, static_to_mmap and stats do what they are named for. Composition of import, remove_labels or dump_mmap, export; the fold of max over the nodes by induction.
* **C72** vary_density adds random edges up to the average degree. Invariant of the loops: the graph is an API history extended by new edges. Termination from fairness by counting the missing pairs (pigeonhole); non-termination by counting links. The later degrees are refuted.
* **C73** vary_labels gives about a quarter of the nodes one of four new labels. Induction over the label array; the label map is the old one with 11..14 registered. Right only with eleven other labels; refuted otherwise.
* **C74** ldbc_to_graphmap saves the imported graph. Composition of the LDBC theorem C58 with export and import.
* **C75** An undetected crash shows only parts of the dumped graph. The files left by a crash are a prefix of the file list, the last one possibly cut; opening a cut array shows a prefix of it; a prefix of the edges answers as before or panics.
* **C76** A dump over an earlier dump shows the new graph with its missing parts taken from the old one. Lookup of every file after two dumps; opening gives the overlay of both graphs, whose observations are computed.
* **C77** From a given start Bfs and Dfs visit the nodes in an order fixed by the graph. The orders of C41 and C43 fix the next node out of the nodes visited before, so a traversal is unique; the refutation shows one GraphMap under two hash orders.
* **C78** A Dfs can be set up by hand, reset at any point and asked again after its end. Induction over the calls of next with the to-do list and the marked nodes as invariant; the state after reset() is the one of with_capacity.
* **C79** Laws of graph_union. Union and difference as functions on abstract graphs (C50, C51); the laws are those of finite-map union and of induced subgraphs, which are unique. equal() on the result: false, because shared edges are counted twice.
* **C80** Laws of graph_minus. As C79.
* **C81** Counters of label ids. The two default methods collect the label ids of nodes() and edges(); a count over an enumeration without repetitions is the size of a filtered finite map. Refuted for undirected static graphs with edge labels, whose edges() attaches wrong labels.
* **C82** The label lists cover the labels in use. Consequence of the representation relation: labels are read through the label maps. Pigeonhole for the sizes; a history with a label removed again for the converse.
* **C83** Generators asked for more nodes than there are ids wrap around. C52-C54 without the size hypothesis: loop invariants over the numbers modulo the number of ids; pigeonhole for the doubled edges.
* **C84** A NodeMap is a map from neighbours to labels and a set of in-neighbours. Model of the calls on one NodeMap; a specification that reads the state off the reversed history; induction over the history.
* **C85** Writes through get_node_mut keep the graph consistent. C84 lifted to graphs; invariant that nodes are stored under their id, over mixed histories. The last part is false: a history that writes one end of an edge.
* **C86** More labels than the label id type has values: which label is shown. Spec: shown, a_shown, out_shown in SpecLabelWrap.v. The simulation of GraphMapSim.v is instantiated with the relation `lid = number mod |L|` (LabelWrap.v); C86_which says which labels are shown right.
* **C87** What into_static builds from any graph. Theorem about reachable GraphMaps and their static arrays; a record `frozen` (SpecStaticAll.v) gives each answer of the static graph as a function of the original's answers, without the density and label-count conditions of C28/C29.
* **C88** Calls on different nodes commute, insertions may come in any order. Each call acts pointwise on the abstract graph, so calls with disjoint names commute there; carried over to GraphMap by the simulation of C06/C07, with C11 for edge_count and C15 for max_seen_id.
* **C89** Adding and removing again restores the graph. Computation on the abstract graph (delete after insert), carried over by the simulation.
* **C90** A frozen or mapped graph equals the original exactly when nothing was lost. Equality is decided by counts, node lookups and edge lookups; the answers of the frozen graph are fixed by C87 and those of the mapped one by C36, so the comparison reduces to gaps and dropped label ids.
* **C91** Bfs, Dfs and ConnComp agree on what is connected. Compose the reachable-first theorems of C41/C42 with the component theorems of C45/C47; on undirected graphs reachability is symmetric.
* **C92** Hash input determines the graph. The fed sequence is a self-delimiting encoding (lengths before vectors, tags before options) of sorted ids, labels, sorted pairs and labels; decode it. A label is fed as one value.
* **C93** The parent map of a ConnComp and what happens while it is borrowed. A variant of the queries in which the write panics (RefCell borrowed); invariants of C45.
* **C94** Running ConnSubgraph by hand. Model empty() and the runs as separate calls (ConnSubRun.v). Specify the part of a graph that belongs to a set of nodes (SpecConnSub.v) and prove by induction over the runs that every subgraph is the part, along one component of the first graph, of the union of the graphs run so far.
* **C95** A typed map of any file shows its items; which slices stay inside it. MmapSpan.v models the addresses given to from_raw_parts (with and without overflow checks); SpecSpan.v says when a slice is inside a file and what the items of a file are; existence and uniqueness of the items by induction on the file.
* **C96** Handles show the node or edge asked for and panic only when there is none. Handles.v models the enums and their accessors; proved from the invariant of reachable graphs (the id of a node is its key) and the removal lemmas of C06/C07.
* **C97** Which calls behave differently in a build without overflow checks. The arithmetic that can overflow is written with a switch for overflow checks; with the switch on the definitions equal the ones of the other files. Invariants show that subtraction never underflows in reachable states; the release loop of into_static is shown to be still running after any number of rounds.
* **C98** CSV files byte for byte. CsvText.v writes down the csv crate's quoting rules and its reader automaton as the repository configures them; the automaton is run over written text by induction on fields, records and tables, and C55 is lifted to text.
* **C99** Edits of a static graph through its mutable accessors. StaticEdit.v models the accessors as edits of the record's parts; frame theorems over all queries, induction on the sequence of edits.
* **C100** The order in which an LDBC directory is listed does not matter. Permuting the files permutes the facts within each type of record, so the last relation between two entities keeps its label and the entities stay the same; the renaming is built from the two lists of entities. An entity with two labels is the counterexample.
* **C101** LDBC directories as text files. The csv text layer (CsvText.v) in front of the record-level import (C58): the automaton reads back the lines. An unclosed quote is a counterexample to the last part.
* **C102** The order of CSV rows and files does not matter. A read is the sequence of add calls of its records (C63); insertions that agree on labels commute (C88). Rows are permuted under the header; without a header the first row fixes the field count, which is the counterexample for readers that are not flexible.
* **C103** CSV text files, the converter and both converters in a row. csv_to_static_text (ExamplesPipe.v) parses the text with CsvText.v and calls the model of the program; the general theorem is C69 over text; for written graphs the records are those of the graph (CsvTextGraph.v), a graph built from its own records is the graph itself (section copy), and the two programs compose through history_export.
* **C104** The label lists are the labels ever given, in order of first use. Every call changes the two label maps only by registering the label it gives (LabelHist.v step_maps); induction on the history; first_uses is characterised on its own.
* **C105** Names of implementations and the id types. Names.v models from_str with to_lowercase on ASCII letters; the letters in the names are checked exhaustively against all 256 bytes, strings by induction. The id functions of Base.v by modular arithmetic.
* **C106** What import makes of a file with any content. Decoders of Serde.v; `yields` (only legal values come out) by induction on the codecs, `exact` (only encodings are accepted) for numbers, options, pairs, vectors and strings; the UTF-8 check (Utf8.v) accepts exactly the encodings of scalar values (SpecUtf8.v); counterexamples for directedness and for inconsistent static graphs.
* **C107** The random generators are fair. Probability is counted: a chance is the number of outcomes of the draws. Model: Gen.v (rand's sample_iter is reservoir sampling). SpecGenLaw.v says what an outcome is and which edges a graph joins. Reservoir.v proves by induction on the stream that every subset is the result of (M-m)! outcomes (if the last element is in the set, it replaced one element outside it: a sum over the n choices; otherwise its draw missed). GenLaw.v follows the loops of the generators exactly: which draw is used for what. FloatLt.v: comparison of canonical floats is comparison of the rational numbers. The independence and uniformity of single draws is the rand crate's contract, which is trusted.
* **C108** A CSV export cut short. CsvCrash.v: the states a crash can leave (any beginning of the node text; any beginning of the edge text once the node records were handed over, as both writers buffer). CsvCut.v runs the reader automaton of CsvText.v over a beginning of a written text by induction on characters, fields and records; the record with a wrong number of fields is rejected unless the reader is flexible. Three counterexamples (_refuted) say what is false.
* **C109** What a caught panic of remove_node leaves. GraphMapPanic.v models remove_node with the graph as it is when the call is over, returned or not; C109_agrees ties it to the model used elsewhere. The loops stop at the node itself, and the BTreeMap orders neighbours by id, so exactly the smaller ones were updated (induction on the loop). C109_exact states every query on the result; C109_consistent_iff needs the invariant of reachable graphs.
* **C110** A mapped graph while files change. MmapLive.v models the opened graph as names, types and lengths of its maps, the counts and the label maps; what it shows is a function of the current file system and the page size. C110_at_open ties it to the model used elsewhere. Frame: it depends on the array files of the prefix only. Rewriting: bytes of the new array, cut or padded with zeros, decode to the new items, cut or padded (induction on the array).
* **C111** Writing when the disk is full or fails. IoFail.v models BufWriter, the four writing functions and their reported results over an arbitrary sequence of outcomes. IoProps.v: what a writer was given is its file followed by its buffer, by induction on the writes; each step that fails leaves a crash state of the operations of Mmap.v, so C38, C61 and C75 apply; refuted on a full disk for every value that fits the buffer.
* **C112** Dumps on machines of any byte order and word size. Platform.v models writing and mapping of arrays over a byte order and a word size; C112_x86_64 ties it to Mmap.v. One lemma computes what opening gives for any way in which an array written on one machine is read on the other; it is used for the same machine (identity), the other byte order (bytes of every number reversed) and the smaller usize (every offset read as two).
* **C113** A ConnComp kept while edges come and go. Model: ConnComp.v, GraphMap.v. The invariant of C45-C48 says that two nodes have one root exactly when the processed edges join them; ConnGrowProps.v shows that this, the number of components and the known nodes depend on the links only, computes the links after a history of GraphMap calls by induction (through the simulation of C06 and C07), and reads the change of the count off the code of process_new_edge.
* **C114** Node ids are names. Model: GraphMap.v, Reorder.v, Traverse.v, ConnComp.v, ViewOps.v. IsoProps.v transports node and edge lists, paths and links along a renaming and combines this with what C40-C48 and C60 say about each view; IsoHist.v shows by induction on the history that the specification commutes with an injective renaming and goes through the refinements C06 and C07.
* **C115** The edge counter is a machine word. Model: Counters.v, the calls of GraphMap.v that touch num_of_edges with arithmetic of W values, checked or wrapping. CountersProps.v: a call on the machine and the same call with an unbounded counter keep the counters congruent modulo W and everything else equal; with checks, equal as long as the unbounded count stays below W. That decrements never go below zero comes from the refinement of C10/C11. The hypothesis of unbounded counters in the other theorems about GraphMap is discharged by C115_enough.
* **C116** The counts a graph reports fit together. Model: Api.v views, ConnComp.v. TallyProps.v: the pairs (node, neighbour) are a duplicate-free list of the ordered edges, which for an undirected graph is the edge list followed by the swapped edges that are not loops; the inequality between nodes, components and edges is an invariant of process_new_edge (through the exact change of the count proved for C113).
* **C117** A graph is the union of its connected subgraphs. Model: GraphOps.v. RejoinProps.v: the parts are induced by disjoint sets of nodes that no edge leaves (C49); the union of two such parts is the part induced by both sets and edge_count() is exact because no edge is in both; induction on the list of parts with C50, and C51 and the uniqueness of induced subgraphs for the difference.
* **C118** An undirected graph is the directed graph with every edge in both directions. Model: GraphMap.v, Traverse.v, ConnComp.v. SymProps.v: a simulation between the specification states of the two graphs (same nodes, same edge_at in both argument orders, same label lists and maximum) is kept by every call, carried over to GraphMap by the refinement theorem (C01); Bfs and Dfs by the uniqueness of the order (C77), ConnComp by C45.
* **C119** The id and label types are an internal matter. Model: GraphMap.v, IntoStatic.v, Csv.v, Ldbc.v. WidthProps.v: every call grows the label lists, so if the final lists fit both types every label id on the way is the same number; a general lemma on folds (rfold_follows) carries this through the reader loops (WidthProps.v, WidthLdbc.v); cells parse to the same number under both maxima.
* **C120** What a graph shows decides what it will do. Specification: look_alike (SpecAlike.v) mentions the four queries only. AlikeProps.v: two graphs that look alike represent the same abstract graph; the specification's step reads nothing else, so runs stay aligned; the counters by the drift lemma of C94; the algorithms from their theorems against the abstract graph.
* **C121** Finding components takes O(k log n) steps in all. Model: ConnCost.v counts the rounds of root_loop (ConnComp.v). ConnCostProps.v: the potential is the sum over the nodes of log2 of the number of nodes below; halving a path lowers it, or the number of nodes below at least doubles on the way up; linking two roots raises it by at most log2 n.
* **C122** A directory stores many dumped graphs. Histories and the spec `pieced` (last graph with the latest optional parts) in SpecStore.v. Invariant: the eight files of the prefix hold the bytes of the pieced parts; kept by each dump and each change elsewhere (induction on the history); opening then follows from the round trip of one dump of the pieced graph.
* **C123** A whole Bfs or Dfs is linear in nodes and edges, except for missing ids. TravCost.v counts the rounds of the loops beside the model of Traverse.v; invariant over the run: bits of unused ids stay set, so each scan tests exactly the unused ids below what it finds.
* **C124** An LDBC directory can be frozen and mapped. Composes the invariant of the LDBC import (node ids are 0..n-1, labels come from the directory) with the static and mapped stages of Pipeline.v.
* **C125** LDBC import numbers entities in the order of first mention. The invariant of the import names the list of entities met so far; induction shows it is sorted by first mention and that two such lists without repetition are equal.

## Trusted base

* Coq 8.16.1's kernel and the checker `coqchk`. std++ is used as a library; it contributes no axioms here.
* `Print Assumptions` stands under every theorem in `Properties_*.v`; each one prints
  *Closed under the global context*: no axiom is used, neither of the standard library nor of another one.
  (The whole-library listing of `coqchk -o` names `Coq.ssr.ssrunder.Under_rel.*`, declared by the standard
  library's ssreflect plugin that std++ loads; no theorem depends on them.)
* No `Admitted`, no `Axiom`, `Parameter` or section-less `Variable`, no functors or module types, no kernel check switched off.
* That the model says what the Rust code does. This is by reading: each definition cites the lines it models. As a check,
  the repository's own test suite is translated and run on the model (`RepoTests*.v`); all its assertions hold.
* The specification files `Spec*.v` (except `SpecFacts.v`, which holds lemmas) and `Api.v` (the calls and observations).

## What is modelled

| Rust | Rocq | left out |
|---|---|---|
| generic/dtype.rs (ids), graph_impl/mod.rs (names) | Base.v, Names.v | 32-bit usize; lower case of non-ASCII letters |
| generic/{graph,iter,map,node,edge}.rs | Api.v (the trait methods as a record of observations), ViewOps.v (default methods, `equal`, hashes) | enum wrappers are folded into the values they carry, except in Handles.v, which models them |
| map/{set_map,vec_map}.rs | Map.v | hashing inside IndexSet |
| graph_impl/graph_map/{node,edge,graph}.rs | GraphMap.v, ViewOps.v, Static.v (into_static), Reorder.v; Release.v (id arithmetic without overflow checks), Counters.v (the edge counter as a machine word), GraphMapPanic.v (after a caught panic) | Debug output; `nodes_mut`/`edges_mut` only as the label changes they allow |
| graph_impl/static_graph/*.rs | Static.v, ViewOps.v, StaticEdit.v (mutable accessors) | logging, shrink_to_fit |
| graph_impl/static_graph/mmap/*.rs, io/mmap.rs | Mmap.v, MmapSpan.v (typed slices), MmapLive.v (an open graph over time; shared mappings and pages as POSIX describes them), Bytes.v | alignment, big-endian machines, reads that overlap a write, I/O errors other than a missing file |
| io/serde.rs and the derived serialisers | Serde.v, Bytes.v, Utf8.v (String::from_utf8, stated from the documentation) | bincode's text of errors, I/O errors other than a missing file |
| io/csv/*.rs | Csv.v (records), CsvText.v (text), CsvCrash.v (interrupted writing) | the csv crate is not in the repository: its quoting rules and reader automaton are stated in CsvText.v from its documentation; byte order marks; ids are decimal numbers, while csv from 1.1 on (Cargo.toml allows any 1.x) also reads 0x followed by hexadecimal digits, so a theorem that says a cell is not an id does not speak of such cells |
| io/ldbc/*.rs | Ldbc.v (records), LdbcText.v (text) | as for CSV; non-ASCII file names; GC of Arc |
| algorithm/{bfs,dfs}.rs | Traverse.v | |
| algorithm/conn_comp.rs | ConnComp.v, ConnHeld.v (while the parent map is borrowed) | |
| algorithm/{conn_subgraphs,graph_union,graph_minus}.rs | GraphOps.v, ConnSubRun.v (ConnSubgraph run by hand) | |
| graph_gen/*.rs | Gen.v | the distribution of the draws themselves: the rand crate is trusted to make every outcome of a draw equally likely, independently of the others (C107 counts outcomes on this basis) |
| examples/*.rs | Examples.v, Paths.v (Path::join and components().last() of the standard library, from its documentation), ExamplesText.v, ExamplesPipe.v (with text files) | command lines as records of options, output to the terminal, progress bars and clocks left out; output directories exist; two paths that differ as strings name different files (no aliases) |
| tests/*.rs, examples in documentation comments | RepoTests*.v: every test with assertions is translated statement by statement and passes on the model (a check of the model, not a proof of a property) | test_iter_mut; the two generator tests run with smaller sizes |

Everywhere: panics are explicit (`Panic`); out-of-memory and stack overflow are not modelled; `usize` counters are unbounded (for the edge counter of a GraphMap, Counters.v and C115 show exactly when this matters)
except where a file format or a cast makes the bound observable (then it is a hypothesis or the truncation is modelled);
loops that Rust bounds by data are given fuel, and the theorems show that the fuel suffices (`NoFuel` is concluded only about loops that really do not end, and then for every fuel: C72_never_ends_refuted and C97).
The order in which a HashMap is iterated is an arbitrary permutation.

## Tests of the theorems

`seeded/LOG.jsonl` lists edits of the model that a realistic bug would make, with the theorems that stopped proving.
An edit that left everything provable led to a tightened or new theorem (field `tightened`).
