{"id": "C01", "title": "SetMap is a bijection between items and 0..len-1", "statement": "After any sequence of add_item / pop_item / clear calls on a SetMap (starting from new(), from_vec or collect), get_item(i) is Some exactly for i < len(), find_index(x) = Some(i) iff get_item(i) = Some(x), contains(x) iff find_index(x) is Some, and items() yields the items in index order without repetition.", "quantifier": "all item types with decidable equality, all operation histories, all indices and items", "why_tests_cant": "the state space of histories and items is infinite; tests check a handful of literals", "anchors": ["src/map/set_map.rs:get_item", "src/map/set_map.rs:find_index", "src/map/set_map.rs:contains", "src/map/set_map.rs:items", "src/map/set_map.rs:add_item", "src/map/set_map.rs:pop_item", "src/map/set_map.rs:from_vec"]}
{"id": "C02", "title": "Label indices are stable: add_item is idempotent and never moves an item", "statement": "add_item(x) returns the index already held by x if x is present (leaving the map unchanged), otherwise returns the old len() and appends; in both cases every previously present item keeps its index. pop_item removes exactly the item with the largest index.", "quantifier": "all maps reachable by any history, all items; both SetMap and VecMap", "why_tests_cant": "stability must hold across every future operation, not just the ones exercised", "anchors": ["src/map/set_map.rs:add_item", "src/map/vec_map.rs:add_item", "src/map/set_map.rs:pop_item", "src/map/vec_map.rs:pop_item"]}
{"id": "C03", "title": "SetMap and VecMap are observationally equivalent", "statement": "Running the same history of add_item / pop_item / clear from empty on a SetMap and on a VecMap gives the same return value for every call and the same answer to every get_item, find_index, contains, len and items query.", "quantifier": "all histories, all queries", "why_tests_cant": "equivalence of two implementations quantifies over every history", "anchors": ["src/map/set_map.rs:SetMap", "src/map/vec_map.rs:VecMap"]}
{"id": "C04", "title": "Map conversions preserve indices", "statement": "VecMap::from(set_map) and SetMap::from(vec_map) keep every item at its index, so converting back and forth is the identity; building from a Vec gives find_index/get_item that are mutually inverse.", "quantifier": "all maps and all vectors", "why_tests_cant": "duplicates in the input vector are the interesting case; the input space is infinite", "anchors": ["src/map/vec_map.rs:with_data", "src/map/vec_map.rs:from", "src/map/set_map.rs:from_vec", "src/map/set_map.rs:from"]}
{"id": "C05", "title": "SetMap equality implies equal hash input and equal index assignment", "statement": "If two SetMaps compare equal with == then they feed the same sequence to the hasher (the Hash/Eq contract) and agree on get_item.", "quantifier": "all pairs of SetMaps", "why_tests_cant": "a contract over all pairs of values", "anchors": ["src/map/set_map.rs:Hash", "src/map/set_map.rs:PartialEq (derived on IndexSet)"]}
{"id": "C06", "title": "A directed GraphMap behaves as an abstract labelled digraph", "statement": "For every history of add_node, add_edge, remove_node, remove_edge, update_node_label, update_edge_label, add_node_label, add_edge_label, get_node_mut/get_edge_mut label assignments and refine_edge_count on a directed graph that does not panic, has_node, has_edge, get_node_label, get_edge_label, node_count, neighbors and in_neighbors answer exactly as the finite labelled digraph obtained by applying the same operations to sets of nodes and edges (provided the number of distinct labels fits the label id type).", "quantifier": "all histories, all node/edge label types, all id values, all queries", "why_tests_cant": "refinement quantifies over unbounded operation histories", "anchors": ["src/graph_impl/graph_map/graph.rs:add_node", "src/graph_impl/graph_map/graph.rs:add_edge", "src/graph_impl/graph_map/graph.rs:remove_node", "src/graph_impl/graph_map/graph.rs:remove_edge", "src/graph_impl/graph_map/graph.rs:has_edge", "src/generic/graph.rs:get_node_label", "src/generic/graph.rs:get_edge_label", "src/graph_impl/graph_map/node.rs:NodeMap"]}
{"id": "C07", "title": "An undirected GraphMap behaves as an abstract labelled undirected graph", "statement": "Same as the directed case with unordered edges: after every history has_edge(s,t) = has_edge(t,s), get_edge_label(s,t) = get_edge_label(t,s), and both equal the abstract undirected graph's answer.", "quantifier": "all histories (without raw label-id assignment through get_edge_mut/edges_mut), all queries", "why_tests_cant": "the symmetric copies must stay synchronised under every history", "anchors": ["src/graph_impl/graph_map/graph.rs:add_edge", "src/graph_impl/graph_map/graph.rs:remove_edge", "src/graph_impl/graph_map/graph.rs:remove_node", "src/graph_impl/graph_map/node.rs:add_edge"]}
{"id": "C08", "title": "No mutation of a GraphMap panics", "statement": "No sequence of graph mutations ever panics.", "quantifier": "all histories, directed and undirected", "why_tests_cant": "panic freedom quantifies over all reachable states; self-loop removal is easily missed", "anchors": ["src/graph_impl/graph_map/graph.rs:remove_node", "src/graph_impl/graph_map/graph.rs:add_edge", "src/graph_impl/graph_map/graph.rs:remove_edge"]}
{"id": "C09", "title": "remove_node panics exactly on self-loops", "statement": "A history panics if and only if it calls remove_node(id) on an existing node that has a self-loop at that moment; in particular the edge counter never underflows and no other call panics.", "quantifier": "all histories, directed and undirected, all label types", "why_tests_cant": "an exact panic condition quantifies over all reachable states", "anchors": ["src/graph_impl/graph_map/graph.rs:remove_node"]}
{"id": "C10", "title": "edge_count equals the number of edges", "statement": "edge_count() equals the number of distinct edges yielded by edge_indices().", "quantifier": "all histories", "why_tests_cant": "needs an invariant over all histories; duplicate insertions are the failing case", "anchors": ["src/graph_impl/graph_map/graph.rs:edge_count", "src/graph_impl/graph_map/graph.rs:add_edge", "src/graph_impl/graph_map/graph.rs:update_edge_label", "src/graph_impl/graph_map/graph.rs:refine_edge_count"]}
{"id": "C11", "title": "edge_count drift is exactly the number of re-added edges", "statement": "edge_count() is never below the true number of edges; it is exact for histories that never re-add or relabel an existing edge; it exceeds the true number by the number of re-adds not yet cleared; refine_edge_count() always restores exactness and changes nothing else.", "quantifier": "all histories", "why_tests_cant": "exact drift needs induction over histories", "anchors": ["src/graph_impl/graph_map/graph.rs:refine_edge_count", "src/graph_impl/graph_map/graph.rs:add_edge", "src/graph_impl/graph_map/graph.rs:remove_node"]}
{"id": "C12", "title": "node_indices enumerates the nodes exactly once", "statement": "node_indices() yields every node for which has_node is true exactly once and nothing else, and node_count() is its length; nodes() yields get_node of each, whatever the hash iteration order.", "quantifier": "all histories and all hash-map iteration orders", "why_tests_cant": "hash iteration order is unspecified; tests see one order", "anchors": ["src/graph_impl/graph_map/graph.rs:node_indices", "src/graph_impl/graph_map/graph.rs:nodes", "src/graph_impl/graph_map/graph.rs:node_count"]}
{"id": "C13", "title": "edge_indices enumerates the edges exactly once", "statement": "edge_indices() yields every directed edge exactly once (directed), or every undirected edge exactly once as (s,t) with s <= t (undirected); edges() yields get_edge of each, whatever the hash iteration order.", "quantifier": "all histories and all hash-map iteration orders", "why_tests_cant": "unbounded histories and unspecified iteration order", "anchors": ["src/graph_impl/graph_map/graph.rs:edge_indices", "src/graph_impl/graph_map/graph.rs:edges", "src/graph_impl/graph_map/node.rs:non_less_neighbors_iter"]}
{"id": "C14", "title": "in_neighbors is the exact inverse of neighbors", "statement": "On a directed graph, s is in in_neighbors(t) iff t is in neighbors(s); both lists are strictly increasing; degree and in_degree are their lengths; the sum of degrees equals the sum of in-degrees.", "quantifier": "all histories, all nodes", "why_tests_cant": "the two adjacency structures must stay synchronised under all histories", "anchors": ["src/graph_impl/graph_map/graph.rs:in_neighbors", "src/graph_impl/graph_map/graph.rs:neighbors", "src/graph_impl/graph_map/graph.rs:degree", "src/graph_impl/graph_map/graph.rs:in_degree", "src/graph_impl/graph_map/node.rs:add_in_edge"]}
{"id": "C15", "title": "max_seen_id is the maximum id ever inserted", "statement": "max_seen_id() is None iff no node was ever added, otherwise the maximum over all ids ever passed to add_node/add_edge (removal does not lower it); every current node id is at most max_seen_id().", "quantifier": "all histories", "why_tests_cant": "a history property", "anchors": ["src/graph_impl/graph_map/graph.rs:max_seen_id", "src/graph_impl/graph_map/graph.rs:add_node"]}
{"id": "C16", "title": "Labels round-trip through the label-id encoding", "statement": "After add_node(id, Some(l)) / add_edge(s,t,Some(l)), get_node_label(id) / get_edge_label(s,t) return Some(l), until that node or edge is next modified.", "quantifier": "all histories, all label types and all label-id widths", "why_tests_cant": "the label id is truncated by L::new, so the failure needs more labels than the id type can hold", "anchors": ["src/graph_impl/graph_map/graph.rs:add_node", "src/graph_impl/graph_map/graph.rs:add_edge", "src/generic/dtype.rs:IdType::new", "src/generic/graph.rs:get_node_label"]}
{"id": "C17", "title": "Mutation return values are exact", "statement": "add_node returns true iff the node was absent; add_edge returns true iff the edge was absent; update_*_label returns true iff the target exists; remove_node and remove_edge return None iff the target is absent and otherwise its id(s) and label; get_node_mut/get_edge_mut are None iff the target is absent.", "quantifier": "all reachable states and arguments", "why_tests_cant": "quantifies over all reachable states", "anchors": ["src/graph_impl/graph_map/graph.rs:add_node", "src/graph_impl/graph_map/graph.rs:add_edge", "src/graph_impl/graph_map/graph.rs:remove_node", "src/graph_impl/graph_map/graph.rs:remove_edge", "src/graph_impl/graph_map/graph.rs:update_node_label", "src/graph_impl/graph_map/graph.rs:update_edge_label"]}
{"id": "C18", "title": "remove_node removes the node and its incident edges and nothing else", "statement": "After a successful remove_node(id): the node and every edge touching id are gone, all other nodes, edges and labels are unchanged and edge_count drops by the number of removed edges.", "quantifier": "all reachable states without a self-loop at id", "why_tests_cant": "frame property over all states", "anchors": ["src/graph_impl/graph_map/graph.rs:remove_node"]}
{"id": "C19", "title": "Label edits through get_edge_mut are seen from both endpoints", "statement": "On an undirected graph, get_edge_mut(s,t).set_label_id(l) (or edges_mut) changes the label seen by get_edge(s,t) and by get_edge(t,s).", "quantifier": "all undirected graphs", "why_tests_cant": "a symmetry property over all states", "anchors": ["src/graph_impl/graph_map/graph.rs:get_edge_mut", "src/graph_impl/graph_map/graph.rs:edges_mut", "src/graph_impl/graph_map/node.rs:get_neighbor_mut"]}
{"id": "C20", "title": "GraphMap == is an equivalence that means same graph", "statement": "g == h iff both have the same nodes, edges and labels; == is symmetric and consistent with Hash.", "quantifier": "all pairs of graphs of the same type", "why_tests_cant": "relational property over all pairs", "anchors": ["src/graph_impl/graph_map/graph.rs:PartialEq::eq", "src/graph_impl/graph_map/graph.rs:Hash::hash"]}
{"id": "C21", "title": "GraphMap == is exactly label-preserving inclusion", "statement": "g == h holds iff every node of g is a node of h with the same label and every edge of g is an edge of h with the same label (unless the counts are bitwise complements of each other, in which case it is false).", "quantifier": "all pairs of graphs, all iteration orders", "why_tests_cant": "relational property over all pairs", "anchors": ["src/graph_impl/graph_map/graph.rs:PartialEq::eq", "src/graph_impl/static_graph/graph.rs:PartialEq::eq"]}
{"id": "C22", "title": "equal() decides labelled-graph equality across implementations", "statement": "equal(g,h) holds iff g and h have the same directedness, nodes, edges and labels, for any mix of implementations and label-id types whose edge_count is exact; it is then an equivalence relation.", "quantifier": "all pairs of graphs behind the GeneralGraph trait", "why_tests_cant": "relational property over all pairs and implementations", "anchors": ["src/generic/graph.rs:equal"]}
{"id": "C23", "title": "Equal boxed graphs hash equally", "statement": "If two boxed GeneralGraphs are == (equal()) then they feed the same sequence to the hasher, independent of hash-map iteration order.", "quantifier": "all pairs of graphs with exact edge counts, all iteration orders", "why_tests_cant": "contract over all pairs", "anchors": ["src/generic/graph.rs:Hash", "src/generic/graph.rs:equal"]}
{"id": "C24", "title": "Cloning a boxed graph yields an equal graph", "statement": "Box<GeneralGraph>::clone() has the same directedness, nodes, edges and labels as the original, and edge_count equal to the number of edges.", "quantifier": "all graphs behind the trait", "why_tests_cant": "quantifies over all graphs", "anchors": ["src/generic/graph.rs:Clone", "src/algorithm/graph_union.rs:graph_union"]}
{"id": "C25", "title": "from_edges builds exactly the given edge set", "statement": "from_edges(es) has exactly the endpoints as nodes (unlabelled) and exactly the listed pairs as edges (unlabelled), independent of order and multiplicity of the list.", "quantifier": "all edge lists", "why_tests_cant": "infinite input space", "anchors": ["src/graph_impl/graph_map/graph.rs:from_edges"]}
{"id": "C26", "title": "reorder_id is a label-preserving isomorphism onto 0..n-1", "statement": "reorder_id(true,_,_) renames nodes by a bijection onto 0..n-1 that is monotone in total degree; has_edge, get_node_label and get_edge_label are preserved along it, for every combination of the three flags and every hash iteration order and tie-breaking of label frequencies.", "quantifier": "all reachable graphs, all flag combinations, all iteration orders", "why_tests_cant": "iteration order and ties are unspecified; all graphs", "anchors": ["src/graph_impl/graph_map/graph.rs:reorder_id", "src/graph_impl/graph_map/graph.rs:reorder_id_with", "src/graph_impl/graph_map/graph.rs:reorder_label_map"]}
{"id": "C27", "title": "find_new_node_id and get_original_node_id are inverse", "statement": "On a ReorderResult, get_original_node_id(find_new_node_id(x)) = x for every original node x and find_new_node_id(get_original_node_id(y)) = y for every y < n; with node reordering off both are the identity.", "quantifier": "all reorder results", "why_tests_cant": "all graphs", "anchors": ["src/graph_impl/graph_map/graph.rs:ReorderResult"]}
{"id": "C28", "title": "into_static preserves the graph", "statement": "into_static() yields a StaticGraph with the same nodes, edges and labels (all GraphTrait queries agree) as the GraphMap.", "quantifier": "all GraphMaps", "why_tests_cant": "node-id gaps, empty graphs, maximal ids and label ids are corner cases over all graphs", "anchors": ["src/graph_impl/graph_map/graph.rs:into_static", "src/graph_impl/static_graph/graph.rs:has_node", "src/graph_impl/static_graph/graph.rs:node_indices"]}
{"id": "C29", "title": "into_static preserves adjacency and edge labels even with id gaps", "statement": "For every non-empty GraphMap whose maximal id is below the id type's maximum, into_static does not panic, and has_edge, neighbors, in_neighbors, degree and get_edge_label agree with the GraphMap for all nodes (label ids below the sentinel).", "quantifier": "all reachable GraphMaps, directed and undirected", "why_tests_cant": "all graphs", "anchors": ["src/graph_impl/graph_map/graph.rs:into_static", "src/graph_impl/static_graph/edge_vec.rs:find_edge_index"]}
{"id": "C30", "title": "EdgeVec lookup is correct on every well-formed CSR", "statement": "On offsets/edges with monotone offsets and sorted duplicate-free slices, has_edge(s,t) iff t occurs in neighbors(s); find_edge_index returns the unique position of that edge, and lookups out of range return false/None instead of panicking.", "quantifier": "all well-formed CSR arrays, all queries", "why_tests_cant": "binary search correctness over all arrays", "anchors": ["src/graph_impl/static_graph/edge_vec.rs:find_edge_index", "src/graph_impl/static_graph/edge_vec.rs:neighbors", "src/graph_impl/static_graph/edge_vec.rs:degree", "src/graph_impl/static_graph/edge_vec.rs:has_edge"]}
{"id": "C31", "title": "The static edge iterator yields each edge exactly once", "statement": "StaticEdgeIndexIter terminates and yields, in lexicographic order, every edge of the CSR once (directed) or every edge (s,t) with s <= t once (undirected).", "quantifier": "all well-formed CSR arrays whose node count fits the id type", "why_tests_cant": "resumable iterator state machine over all arrays; wrap-around at the id width", "anchors": ["src/graph_impl/static_graph/static_edge_iter.rs:next"]}
{"id": "C32", "title": "Static edges() carries the right labels", "statement": "StaticGraph::edges() yields for every edge the label reported by get_edge.", "quantifier": "all static graphs with edge labels", "why_tests_cant": "label alignment over all graphs; undirected graphs misalign", "anchors": ["src/graph_impl/static_graph/graph.rs:edges", "src/graph_impl/static_graph/mmap/graph_mmap.rs:edges"]}
{"id": "C33", "title": "Static constructors build what their arrays describe, with the right counts", "statement": "StaticGraph::new, with_labels and from_raw build the graph that their arrays and label maps describe: the same nodes, edges and labels, node_count and edge_count equal to the numbers of nodes and distinct edges if none are given. They panic exactly if the array of offsets is empty or a directed graph is given no in-edges.", "quantifier": "all CSR arrays, label vectors and label maps", "why_tests_cant": "self-loops break the halving", "anchors": ["src/graph_impl/static_graph/graph.rs:new", "src/graph_impl/static_graph/graph.rs:with_labels", "src/graph_impl/static_graph/graph.rs:from_raw"]}
{"id": "C34", "title": "Removing labels from a static graph only removes labels", "statement": "remove_labels / remove_node_labels / remove_edge_labels make the corresponding label queries return None and leave all structural queries unchanged.", "quantifier": "all static graphs", "why_tests_cant": "frame property", "anchors": ["src/graph_impl/static_graph/graph.rs:remove_labels", "src/graph_impl/static_graph/edge_vec.rs:remove_labels"]}
{"id": "C35", "title": "dump then map is the identity on typed arrays", "statement": "Dumping a slice with dump() and mapping the file with TypedMemoryMap yields the same slice, for every element type and length > 0, whatever the chunking of the writes.", "quantifier": "all slices of u8/u16/u32/usize", "why_tests_cant": "byte-level round trip over all arrays", "anchors": ["src/io/mmap.rs:dump", "src/io/mmap.rs:TypedMemoryMap"]}
{"id": "C36", "title": "dump_mmap then StaticGraphMmap::new gives the same graph", "statement": "For every static graph with at least one edge dumped to a fresh prefix, the mapped graph answers every query as the static graph does.", "quantifier": "all static graphs, all prior file-system states that contain none of the prefix's files", "why_tests_cant": "round trip over all graphs and file-system states", "anchors": ["src/graph_impl/static_graph/graph.rs:dump_mmap", "src/graph_impl/static_graph/mmap/graph_mmap.rs:new", "src/graph_impl/static_graph/mmap/edge_vec_mmap.rs:new"]}
{"id": "C37", "title": "dump_mmap overwrites any earlier dump", "statement": "Dumping to a prefix that already holds another dump and reopening yields the newly dumped graph.", "quantifier": "all pairs of graphs dumped to one prefix", "why_tests_cant": "history property of the file system", "anchors": ["src/graph_impl/static_graph/graph.rs:dump_mmap", "src/graph_impl/static_graph/mmap/graph_mmap.rs:new"]}
{"id": "C38", "title": "A crash during dump_mmap is detected on reopen", "statement": "If the process stops between two file writes of dump_mmap on a fresh prefix, StaticGraphMmap::new does not return a graph different from the one dumped.", "quantifier": "all crash points", "why_tests_cant": "crash points", "anchors": ["src/graph_impl/static_graph/graph.rs:dump_mmap", "src/graph_impl/static_graph/mmap/graph_mmap.rs:new"]}
{"id": "C39", "title": "has_edge never panics", "statement": "has_edge(s,t) returns false for nodes that are not in the graph, on every implementation.", "quantifier": "all graphs and arguments", "why_tests_cant": "all implementations and arguments", "anchors": ["src/graph_impl/graph_map/graph.rs:has_edge", "src/graph_impl/static_graph/graph.rs:has_edge", "src/graph_impl/static_graph/mmap/graph_mmap.rs:has_edge"]}
{"id": "C40", "title": "Bfs visits every node exactly once", "statement": "Iterating Bfs over any graph from any existing start terminates without panic and yields every node exactly once, the start first.", "quantifier": "all graphs behind the trait with consistent max_seen_id, all starts, all iteration orders", "why_tests_cant": "termination and completeness over all graphs", "anchors": ["src/algorithm/bfs.rs:Bfs"]}
{"id": "C41", "title": "Bfs visits in breadth-first order", "statement": "The nodes reachable from the start are yielded first, in non-decreasing shortest-path distance from it; no unreachable node is yielded before all reachable ones.", "quantifier": "all graphs, all starts", "why_tests_cant": "shortest-path property over all graphs", "anchors": ["src/algorithm/bfs.rs:next"]}
{"id": "C42", "title": "Dfs visits every node exactly once, reachable nodes first", "statement": "Iterating Dfs terminates without panic, yields every node exactly once, the start first, and all nodes reachable from the start before any other.", "quantifier": "all graphs, all starts", "why_tests_cant": "termination and completeness over all graphs", "anchors": ["src/algorithm/dfs.rs:Dfs"]}
{"id": "C43", "title": "Dfs yields a depth-first order", "statement": "The order produced by Dfs is a depth-first search order: the parent through which a node is visited is the most recently visited node with an unvisited neighbour.", "quantifier": "all graphs, all starts", "why_tests_cant": "order property over all graphs", "anchors": ["src/algorithm/dfs.rs:next"]}
{"id": "C44", "title": "Bfs and Dfs only traverse nodes reachable from the start", "statement": "As documented, the traversal starts at a given node and only traverses nodes reachable from it.", "quantifier": "all graphs, all starts", "why_tests_cant": "all graphs", "anchors": ["src/algorithm/bfs.rs:Bfs", "src/algorithm/dfs.rs:Dfs"]}
{"id": "C45", "title": "ConnComp::is_connected is undirected connectivity", "statement": "After processing any sequence of edges (interleaved with any queries, which compress paths), is_connected(a,b) holds iff a and b both occur in some processed edge and are joined by a path of processed edges ignoring direction.", "quantifier": "all edge sequences, all interleavings of queries", "why_tests_cant": "union-find correctness over all histories", "anchors": ["src/algorithm/conn_comp.rs:process_new_edge", "src/algorithm/conn_comp.rs:get_root", "src/algorithm/conn_comp.rs:is_connected"]}
{"id": "C46", "title": "ConnComp::get_count is the number of components", "statement": "get_count() equals the number of connected components among the nodes that occur in a processed edge.", "quantifier": "all edge sequences, all interleavings of queries", "why_tests_cant": "counting invariant over all histories", "anchors": ["src/algorithm/conn_comp.rs:get_count"]}
{"id": "C47", "title": "ConnComp::get_connected_nodes returns exactly the component", "statement": "get_connected_nodes(n) is None iff n occurs in no processed edge, otherwise it lists every node connected to n exactly once.", "quantifier": "all edge sequences, iteration orders", "why_tests_cant": "all histories", "anchors": ["src/algorithm/conn_comp.rs:get_connected_nodes"]}
{"id": "C48", "title": "ConnComp::get_root terminates and identifies components", "statement": "get_root(n) terminates for every n, two nodes have the same root iff connected, the root is itself in the component and get_root(root) = root; for a node that was never seen it returns None.", "quantifier": "all reachable states", "why_tests_cant": "termination of a pointer-chasing loop over all states", "anchors": ["src/algorithm/conn_comp.rs:get_root"]}
{"id": "C49", "title": "ConnSubgraph partitions the graph into its connected components", "statement": "ConnSubgraph::new(g).into_result() returns one subgraph per connected component; every node and edge with its label occurs in exactly one, and each subgraph is connected.", "quantifier": "all graphs behind the trait", "why_tests_cant": "all graphs; isolated nodes are the failing case", "anchors": ["src/algorithm/conn_subgraphs.rs:ConnSubgraph"]}
{"id": "C50", "title": "graph_union is the labelled union", "statement": "graph_union(g0,g1) has exactly the nodes and edges of g0 or g1; labels come from g1 where g1 has the node/edge, else from g0.", "quantifier": "all pairs of graphs of equal directedness, all iteration orders", "why_tests_cant": "all pairs", "anchors": ["src/algorithm/graph_union.rs:graph_union"]}
{"id": "C51", "title": "graph_minus is the subgraph induced by the remaining nodes", "statement": "graph_minus(g0,g1) does not panic and is the subgraph of g0 induced by the nodes that are not in g1, with g0's labels.", "quantifier": "all pairs of graphs, all iteration orders", "why_tests_cant": "all pairs; self-loops are the failing case", "anchors": ["src/algorithm/graph_minus.rs:graph_minus"]}
{"id": "C52", "title": "complete_graph is complete", "statement": "complete_graph(n) has nodes 0..n-1, every ordered (directed) or unordered (undirected) pair of distinct nodes as an edge, no self-loops, and edge_count n(n-1) resp. n(n-1)/2, with every label drawn from the given lists, for every outcome of the random generator.", "quantifier": "all n that fit the id type, all label lists, all random outcomes", "why_tests_cant": "random outcomes and n are unbounded", "anchors": ["src/graph_gen/general.rs:complete_graph", "src/graph_gen/helper.rs:complete_edge_pairs"]}
{"id": "C53", "title": "random_gnm_graph has exactly m distinct edges", "statement": "random_gnm_graph(n,m) panics iff m exceeds the number of possible edges; otherwise it has n nodes, exactly m distinct edges without self-loops and edge_count m.", "quantifier": "all n that fit the id type, all m, all random outcomes", "why_tests_cant": "all random outcomes", "anchors": ["src/graph_gen/random.rs:random_gnm_graph"]}
{"id": "C54", "title": "random_gnp_graph is a simple graph on n nodes", "statement": "random_gnp_graph(n,p) panics iff p is outside [0,1]; otherwise it has nodes 0..n-1 and a simple edge set; p=1 gives the complete graph and p=0 no edges.", "quantifier": "all n that fit the id type, all p, all random outcomes", "why_tests_cant": "all random outcomes", "anchors": ["src/graph_gen/random.rs:random_gnp_graph"]}
{"id": "C55", "title": "CSV write then read restores the graph", "statement": "Writing a graph with write_to_csv and reading it into an empty graph of the same directedness with headers restores nodes, edges and labels.", "quantifier": "all graphs, all label types whose text form is non-empty and parses back", "why_tests_cant": "all graphs and labels; the empty-string label is the failing case", "anchors": ["src/io/csv/writer.rs:write", "src/io/csv/reader.rs:read", "src/io/csv/record.rs:NodeRecord"]}
{"id": "C56", "title": "CSV rows that fail to parse are skipped without affecting the others", "statement": "Reading a file gives the same graph as reading the file with all unparseable rows deleted, and never fails because of a row.", "quantifier": "all record files", "why_tests_cant": "all files", "anchors": ["src/io/csv/reader.rs:read", "src/io/csv/record.rs:visit_seq", "src/io/csv/record.rs:visit_map"]}
{"id": "C57", "title": "export then import restores maps and graphs", "statement": "Deserializer::import of a file written by Serializer::export returns the same SetMap, GraphMap or StaticGraph (all fields), whatever the hash iteration order at export.", "quantifier": "all values, all iteration orders", "why_tests_cant": "byte-level round trip over all values", "anchors": ["src/io/serde.rs:export", "src/io/serde.rs:import", "src/graph_impl/graph_map/graph.rs:TypedGraphMap", "src/graph_impl/static_graph/graph.rs:TypedStaticGraph"]}
{"id": "C58", "title": "LDBC import gives one node per entity", "statement": "After reading any sequence of node and relation records, two records refer to the same graph node iff they name the same entity (type and id); relations become edges between the nodes of their entities.", "quantifier": "all record sequences", "why_tests_cant": "all inputs; name/id concatenation may collide", "anchors": ["src/io/ldbc/node.rs:add_node", "src/io/ldbc/relation.rs:add_edge"]}
{"id": "C59", "title": "LDBC import reports the number of distinct edges", "statement": "After Scheme::from_path, edge_count() equals the number of distinct edges.", "quantifier": "all directories", "why_tests_cant": "the scheme lists some relations twice", "anchors": ["src/io/ldbc/scheme.rs:init", "src/io/ldbc/scheme.rs:from_path"]}
{"id": "C60", "title": "Label counters count the nodes and edges that carry a label", "statement": "get_node_label_counter (get_edge_label_counter) maps every label to the number of nodes (edges) that have it, and does not count unlabelled ones.", "quantifier": "all graphs behind the trait, all labels, all iteration orders", "why_tests_cant": "all graphs and iteration orders", "anchors": ["src/generic/graph.rs:get_node_label_counter", "src/generic/graph.rs:get_edge_label_counter"]}
{"id": "C61", "title": "A file cut short is never read as a value", "statement": "If a file holds only a proper prefix of what export wrote (a crash while writing), or does not exist, import returns an error instead of a value; export changes no other file.", "quantifier": "all values, all cut points, all file-system states", "why_tests_cant": "all crash points of the write", "anchors": ["src/io/serde.rs:export", "src/io/serde.rs:import"]}
{"id": "C62", "title": "Dumps under different prefixes do not interfere", "statement": "Dumping a graph to one prefix does not change what opening any other prefix returns.", "quantifier": "all pairs of prefixes, all graphs and types, all file-system states", "why_tests_cant": "all names; file names are built by concatenation", "anchors": ["src/graph_impl/static_graph/mmap/graph_mmap.rs:new", "src/graph_impl/static_graph/graph.rs:dump_mmap", "src/graph_impl/static_graph/mmap/edge_vec_mmap.rs:new"]}
{"id": "C63", "title": "CSV read builds exactly the graph its rows describe", "statement": "CSVReader::read makes one add_node call per row node_iter yields and then one add_edge call per row edge_iter yields, in file order; reading into an empty graph never fails or panics while the files exist and the labels fit, and the nodes are those of the node rows and the ends of the edge rows, the edges those of the edge rows, and the last row for a node or an edge decides its label.", "quantifier": "all readers, files and label types", "why_tests_cant": "all files, including repeated ids and edges without node rows", "anchors": ["src/io/csv/reader.rs:read", "src/io/csv/reader.rs:node_iter", "src/io/csv/reader.rs:edge_iter", "src/io/csv/record.rs:add_to_graph"]}
{"id": "C64", "title": "CSV columns are matched by header name", "statement": "With headers, rearranging the columns of a file (header and rows alike) does not change what is read; a file with a column of any other name yields no rows.", "quantifier": "all files, all column permutations", "why_tests_cant": "all permutations and contents", "anchors": ["src/io/csv/record.rs:visit_map"]}
{"id": "C65", "title": "CSV separators are one byte or one of three names", "statement": "with_separator accepts exactly the names comma, space and tab and one-byte strings, with the byte they name, and panics on everything else.", "quantifier": "all strings", "why_tests_cant": "all strings", "anchors": ["src/io/csv/reader.rs:with_separator", "src/io/csv/writer.rs:with_separator"]}
{"id": "C66", "title": "LDBC import reads exactly the files named after its types and relations", "statement": "A file is read for a node type iff its name begins with the type's pattern followed by digits or underscores, any character, csv and anything; for a relation the same anywhere in the name. Every relation of the built-in scheme is read from the files start_edge_target_ and from the first two columns.", "quantifier": "all file names, all relations of the scheme", "why_tests_cant": "all strings", "anchors": ["src/io/ldbc/node.rs:is_match", "src/io/ldbc/relation.rs:is_match", "src/io/ldbc/scheme.rs:init"]}
{"id": "C67", "title": "Renumber, freeze, save and map keeps the graph", "statement": "For every non-empty graph built through the API, reorder_id(true, _, _) followed by take_graph and into_static gives a static graph that is the built graph with its nodes renamed one to one onto 0..n-1; the returned result translates ids in both directions; exporting and importing the static graph restores it, and if there is an edge, dump_mmap and opening the files gives the same graph again.", "quantifier": "all API histories, hash orders, both directions, all id and label types in which the number of nodes and labels stays below the maximum", "why_tests_cant": "every composition of the stages on every history", "anchors": ["src/graph_impl/graph_map/graph.rs:reorder_id", "src/graph_impl/graph_map/graph.rs:take_graph", "src/graph_impl/graph_map/graph.rs:into_static", "src/graph_impl/static_graph/graph.rs:dump_mmap", "src/graph_impl/static_graph/mmap/graph_mmap.rs:new"]}
{"id": "C68", "title": "Every CSV row is read as its header says or skipped", "statement": "node_iter and edge_iter yield, in file order, one record for every row that has a meaning and nothing else. Below a header of known, distinct column names a row means a record iff it has as many fields as the header (or the reader is flexible) and every id column holds a decimal number (optional +, at least one digit) that fits the id type; the label is the text below the label column, none if it is empty, absent or no label. Without header the columns have fixed places and the first row sets the length. A missing file is an error, an empty one has no rows.", "quantifier": "all files, headers, id and label types, readers", "why_tests_cant": "all texts of all rows", "anchors": ["src/io/csv/reader.rs:node_iter", "src/io/csv/reader.rs:edge_iter", "src/io/csv/reader.rs:read", "src/io/csv/record.rs:visit_map", "src/io/csv/record.rs:visit_seq"]}
{"id": "C69", "title": "csv_to_static writes the graph of its rows, renumbered if asked", "statement": "csv_to_static reads the node and edge files and writes a static graph that imports as the graph of the rows (one edge_count per edge row), with -i renamed one to one onto 0..n-1; no other file changes. A missing file, no rows or a bad separator end in a panic and nothing is written. The option -l orders the labels by frequency.", "quantifier": "all command lines, files, hash orders", "why_tests_cant": "all files and orders", "anchors": ["examples/csv_to_static.rs:main", "src/io/csv/mod.rs:read_from_csv"]}
{"id": "C70", "title": "static_to_csv loses nothing", "statement": "For every graph built through the API and exported, static_to_csv writes nodes.csv and edges.csv in the output directory, changes no other file, and reading them gives the same graph.", "quantifier": "all API histories with non-empty label texts, hash orders, directories", "why_tests_cant": "all histories", "anchors": ["examples/static_to_csv.rs:main", "src/io/csv/mod.rs:write_to_csv"]}
{"id": "C71", "title": "remove_labels, static_to_mmap and stats do what they are named for", "statement": "remove_labels writes a file that imports as the same graph without any label; static_to_mmap leaves files that open as a mapped graph with the same answers; stats finds the largest degree of a graph with a node and panics on an empty one; a missing or damaged input is a panic.", "quantifier": "all static graphs with u32 labels, file systems, paths", "why_tests_cant": "all graphs", "anchors": ["examples/remove_labels.rs:main", "examples/static_to_mmap.rs:main", "examples/stats.rs:main"]}
{"id": "C72", "title": "vary_density adds random edges up to the average degree", "statement": "For every degree d on the command line vary_density writes a file whose name holds node count, edge count and d and whose graph has the nodes, labels and edges of the input and new unlabelled edges between different nodes so that there are d*n/2 edges; it ends whenever there is room for the edges and the generator is fair.", "quantifier": "all API histories, degree lists, generators, hash orders", "why_tests_cant": "all random choices and unbounded runs", "anchors": ["examples/vary_density.rs:main"]}
{"id": "C73", "title": "vary_labels gives about a quarter of the nodes one of four new labels", "statement": "vary_labels draws a number below 15 for every node; nodes that draw above 10 get the number as label, the others keep their label; edge labels are removed and nothing else changes.", "quantifier": "all static graphs with labels, generators", "why_tests_cant": "all graphs and random choices", "anchors": ["examples/vary_labels.rs:main"]}
{"id": "C74", "title": "ldbc_to_graphmap saves the imported graph", "statement": "ldbc_to_graphmap writes one file, named after the directory and the numbers of nodes and relations, that imports as exactly the graph of the LDBC files; if the files cannot be read nothing is written.", "quantifier": "all LDBC directories whose ids begin with a digit, hash orders", "why_tests_cant": "all inputs", "anchors": ["examples/ldbc_to_graphmap.rs:main", "src/io/ldbc/mod.rs:read_ldbc_from_path"]}
{"id": "C75", "title": "An undetected crash shows only parts of the dumped graph", "statement": "If dump_mmap at an unused prefix stops at any point and the files left behind can be opened, then either the mapped graph answers every query like the dumped one, or the auxiliary file is missing and the mapped graph shows a part of the dumped graph: the same nodes, no edge, in-edge, neighbour or label that the dumped graph does not have, and a panic or a missing label where data was cut off.", "quantifier": "all mappable static graphs, prefixes, file systems, crash points (also inside a write)", "why_tests_cant": "every crash point of every dump", "anchors": ["src/graph_impl/static_graph/graph.rs:dump_mmap", "src/graph_impl/static_graph/mmap/graph_mmap.rs:StaticGraphMmap::new", "src/io/mmap.rs:dump"]}
{"id": "C76", "title": "A dump over an earlier dump shows the new graph with its missing parts taken from the old one", "statement": "After two dumps to one prefix the mapped graph has the nodes, counts, neighbours, edges and label names of the second graph; what the second graph lacks (in-edges, node labels, edge labels) is taken from the first, so that it is directed if either graph is.", "quantifier": "all pairs of mappable static graphs, prefixes, file systems", "why_tests_cant": "all histories of two dumps", "anchors": ["src/graph_impl/static_graph/graph.rs:dump_mmap", "src/graph_impl/static_graph/edge_vec.rs:dump_mmap", "src/graph_impl/static_graph/mmap/graph_mmap.rs:StaticGraphMmap::new"]}
{"id": "C77", "title": "From a given start Bfs and Dfs visit the nodes in an order fixed by the graph", "statement": "Two graphs that answer the queries alike - whatever their implementation, the calls that built them and the hash order - are traversed from the same start node in the same order, by Bfs and by Dfs; in particular a graph and the static graph made of it. Without a start node the order may depend on the hash order.", "quantifier": "all pairs of graphs behind the traits with the same nodes and edges, start nodes, hash orders", "why_tests_cant": "every pair of implementations and histories", "anchors": ["src/algorithm/bfs.rs:Bfs::next", "src/algorithm/dfs.rs:Dfs::next"]}
{"id": "C78", "title": "A Dfs can be set up by hand, reset at any point and asked again after its end", "statement": "A Dfs made by from_parts visits exactly the nodes of the vector and the nodes marked in the map, each once; with_capacity, and reset() after any number of calls of next(), give a Dfs that runs as if started at the smallest node id; after next() of a Bfs or Dfs has returned None it returns None for ever.", "quantifier": "all graphs, vectors, maps, points at which reset is called", "why_tests_cant": "all states", "anchors": ["src/algorithm/dfs.rs:Dfs::from_parts", "src/algorithm/dfs.rs:Dfs::with_capacity", "src/algorithm/dfs.rs:Dfs::reset", "src/algorithm/bfs.rs:Bfs::next"]}
{"id": "C79", "title": "Laws of graph_union", "statement": "For graphs of one kind graph_union is idempotent, has the empty graph as unit, is associative and, where the graphs agree on labels, commutative; added to an undirected graph, a directed graph contributes every edge in both directions. The result is equal() to the argument in the first case.", "quantifier": "all graphs behind the traits whose labels fit the label id type, hash orders", "why_tests_cant": "all graphs", "anchors": ["src/algorithm/graph_union.rs:graph_union", "src/generic/graph.rs:equal"]}
{"id": "C80", "title": "Laws of graph_minus", "statement": "g - g is empty, g - 0 is g, (g - h) - k is g - (h + k) and (g + h) - h is g - h, all with exact edge counts, if removed nodes have no self-loops.", "quantifier": "all graphs behind the traits whose labels fit the label id type, hash orders", "why_tests_cant": "all graphs", "anchors": ["src/algorithm/graph_minus.rs:graph_minus", "src/algorithm/graph_union.rs:graph_union"]}
{"id": "C81", "title": "Counters of label ids", "statement": "get_node_label_id_counter maps every label id to the number of nodes that carry the label of that id, get_edge_label_id_counter to the number of edges; this is what the counters of labels say too.", "quantifier": "all graphs behind the traits, label ids", "why_tests_cant": "all graphs", "anchors": ["src/generic/graph.rs:get_node_label_id_counter", "src/generic/graph.rs:get_edge_label_id_counter"]}
{"id": "C82", "title": "The label lists cover the labels in use", "statement": "Every label on a node is among node_labels() and every label on an edge among edge_labels(); num_of_*_labels is at least the number of distinct labels in use and has_*_labels() = false means that none is. The converse fails: labels no longer in use stay listed.", "quantifier": "all graphs behind the traits", "why_tests_cant": "all histories", "anchors": ["src/generic/graph.rs:GraphLabelTrait", "src/graph_impl/graph_map/graph.rs:TypedGraphMap", "src/graph_impl/static_graph/graph.rs:TypedStaticGraph"]}
{"id": "C83", "title": "Generators asked for more nodes than there are ids wrap around", "statement": "complete_graph, random_gnm_graph and random_gnp_graph never fail because n exceeds the id type: the nodes are the ids of 0..n-1 modulo the number of ids, every generated pair of numbers becomes an edge between their ids, and edge_count() is the number of generated pairs. With too many nodes a complete graph therefore has self-loops and an edge_count() above its number of edges.", "quantifier": "all numbers of nodes and edges, probabilities, label lists, id types, random draws, hash orders", "why_tests_cant": "all sizes, including those beyond the id type; all random outcomes", "anchors": ["src/graph_gen/general.rs:complete_graph", "src/graph_gen/random.rs:random_gnm_graph", "src/graph_gen/random.rs:random_gnp_graph", "src/generic/dtype.rs:IdType::new"]}
{"id": "C84", "title": "A NodeMap is a map from neighbours to labels and a set of in-neighbours", "statement": "After any sequence of calls on a NodeMap (add_edge, remove_edge, add_in_edge, remove_in_edge, set_label_id, and label writes through get_neighbor_mut, neighbors_iter_mut and non_less_neighbors_iter_mut) every query - has_neighbor, get_neighbor, neighbors, degree, in_neighbors, in_degree, non_less_neighbors and the *_full iterators - and every return value is what the last calls about that neighbour say; neighbour lists are strictly increasing.", "quantifier": "all node ids, labels, call sequences", "why_tests_cant": "all histories", "anchors": ["src/graph_impl/graph_map/node.rs:NodeMap", "src/graph_impl/graph_map/node.rs:NodeMapTrait", "src/graph_impl/graph_map/node.rs:MutNodeMapTrait"]}
{"id": "C85", "title": "Writes through get_node_mut keep the graph consistent", "statement": "Calls on a node obtained with get_node_mut().unwrap_nodemap_ref() change what the graph shows of that node as the calls say and leave the other nodes, the counts and the labels alone; writing both ends of an edge amounts to add_edge; in any case the graph stays a graph: edges seen from both ends, end points that exist, an exact edge_count() and no panics.", "quantifier": "all histories of API calls mixed with node writes", "why_tests_cant": "all histories", "anchors": ["src/graph_impl/graph_map/graph.rs:get_node_mut", "src/generic/node.rs:unwrap_nodemap_ref", "src/graph_impl/graph_map/node.rs:MutNodeMapTrait"]}
{"id": "C86", "title": "More labels than the label id type has values: which label is shown", "statement": "A GraphMap numbers its labels in order of first use but stores the number in the label id type L. For every history of calls, with any number of labels, all answers and the whole graph are those of the labelled-graph specification in which a label numbered i is shown as the label numbered i mod |L|. So the first |L| labels are shown right and every later label is silently shown as one of those; structure, counts and the label lists are not affected.", "quantifier": "every history of API calls (label ids written directly must be values of L), both directions, every L, every number of labels and every HashMap order", "why_tests_cant": "tests use few labels; the number of labels and the moment at which the type overflows are unbounded", "anchors": ["src/graph_impl/graph_map/graph.rs: TypedGraphMap::add_node_label, add_edge_label, get_node_label, get_edge_label", "src/generic/dtype.rs: IdType::new", "src/map/set_map.rs: SetMap::add_item"]}
{"id": "C87", "title": "What into_static builds from any graph", "statement": "For every graph with at least one node whose ids are all below the largest value of the id type, into_static succeeds and every answer of the static graph is fixed by the original: counts and label lists are kept; the nodes become 0 .. count-1 and each is shown with the label of the original node of that id (none if there was none); has_edge, get_edge, neighbors, degree, in_neighbors and in_degree answer as before under the old ids; a gap in the ids has no neighbours and an id above all ids panics; labels are kept except the one whose index is the largest value of the label id type, which is lost. The conversion panics exactly for graphs without nodes and graphs that use the largest id.", "quantifier": "all graphs built by any sequence of calls (gaps, self-loops, any number of labels, label ids written directly), all id types, all queries", "why_tests_cant": "needs an account of every graph shape at once, including gaps and more labels than label ids, not one of the shapes a test picks", "anchors": ["src/graph_impl/graph_map/graph.rs: into_static", "src/graph_impl/static_graph/graph.rs: TypedStaticGraph", "src/graph_impl/static_graph/edge_vec.rs: EdgeVec"]}
{"id": "C88", "title": "Calls on different nodes commute, insertions may come in any order", "statement": "Two series of calls that add, remove or relabel nodes and edges and that name different nodes can be exchanged: every call returns what it returned before, one order panics exactly if the other does, and the resulting graphs cannot be told apart by any query (edge_count and max_seen_id included; the label lists hold the same labels). Calls of add_node and add_edge that agree on labels can be put in any order, also when they share nodes or repeat each other.", "quantifier": "all earlier histories, all pairs of series of calls, all permutations of insertions, all hash orders", "why_tests_cant": "there are factorially many orders and the internal label ids and tables differ between them", "anchors": ["src/graph_impl/graph_map/graph.rs: add_node, add_edge, remove_node, remove_edge, update_node_label, update_edge_label"]}
{"id": "C89", "title": "Adding and removing again restores the graph", "statement": "Adding an edge that was not there between existing nodes and removing it, adding a new node and removing it, and removing an edge and adding it back with its label all give back a graph that answers every query as before, with the same edge_count; the removal returns exactly what was added. Only the label list, and max_seen_id for a node, remember the step.", "quantifier": "all histories before, all nodes, edges and labels, all hash orders", "why_tests_cant": "the restored graph must agree on every query after every history", "anchors": ["src/graph_impl/graph_map/graph.rs: add_node, add_edge, remove_node, remove_edge"]}
{"id": "C90", "title": "A frozen or mapped graph equals the original exactly when nothing was lost", "statement": "Comparing a graph with what into_static makes of it, or with what dump_mmap saves and StaticGraphMmap opens, never panics, gives the same answer in both directions, and is true exactly when the node ids are 0..n-1 and no node or listed edge shows the label with the largest label id; equal graphs have equal hashes. While the labels do not use up the label id type, only gaps in the ids matter. The mapped graph of any graph with an edge answers like the frozen one, gaps or not, except that edge queries from ids above all nodes panic.", "quantifier": "all histories, gaps, directions, label counts, id types, hash orders, file prefixes and label encodings", "why_tests_cant": "a comparison result covers every node, edge and label at once, and the boundary is at the largest label id", "anchors": ["src/generic/graph.rs: equal", "src/graph_impl/graph_map/graph.rs: into_static", "src/graph_impl/static_graph/graph.rs: dump_mmap", "src/graph_impl/static_graph/mmap/graph_mmap.rs: new"]}
{"id": "C91", "title": "Bfs, Dfs and ConnComp agree on what is connected", "statement": "On every undirected graph, from any node with an edge, the first nodes that Bfs yields and the first nodes that Dfs yields are exactly those get_connected_nodes lists, as many as it lists, and exactly those is_connected accepts, whatever the order of the hash map. On every graph, directed or not, is_connected accepts all nodes that can be reached from a node.", "quantifier": "all undirected graphs (all histories of a GraphMap), all start nodes with an edge, all hash orders", "why_tests_cant": "three independent algorithms are compared on all graphs", "anchors": ["src/algorithm/bfs.rs: next", "src/algorithm/dfs.rs: next", "src/algorithm/conn_comp.rs: get_connected_nodes, is_connected"]}
{"id": "C92", "title": "Hash input determines the graph", "statement": "Hashing two graphs of one type feeds the same sequence of values to the hasher exactly when the graphs have the same nodes, edges and labels, whatever their histories, implementations, label numbering and iteration orders; for boxed graphs also the same direction. So hash collisions come from the hasher alone.", "quantifier": "all pairs of graphs behind the traits, all iteration orders", "why_tests_cant": "all pairs of graphs", "anchors": ["src/generic/graph.rs: hash", "src/graph_impl/graph_map/graph.rs: hash", "src/graph_impl/static_graph/graph.rs: hash"]}
{"id": "C93", "title": "The parent map of a ConnComp and what happens while it is borrowed", "statement": "After any series of calls, get_parent returns nothing exactly for nodes never seen and otherwise a node of the same component; every component has exactly one node that is its own parent, get_root finds it and get_count counts these nodes. While the result of parent() is still held, get_root, is_connected and get_connected_nodes never give a wrong answer: they answer as usual or panic, and they panic exactly when a node they look up is not its own parent (is_connected of two nodes of one component always panics unless they are the same root; get_connected_nodes answers only for single nodes).", "quantifier": "all histories of calls, all nodes, all hash orders", "why_tests_cant": "which nodes are roots depends on the whole history, and the queries write through a shared reference", "anchors": ["src/algorithm/conn_comp.rs: parent, get_parent, get_root, is_connected, get_connected_nodes, mut_parent"]}
{"id": "C94", "title": "Running ConnSubgraph by hand", "statement": "A ConnSubgraph made by empty(g0) may be run over g0 or over other graphs, any number of times. Each run adds the graph it is given, cut along the connected components of g0: root_to_subgraph finds, for the root ConnComp gives to a node, the subgraph of its component; an edge goes with its start and takes its other end along. Running over the same graph again changes nothing but edge_count(), which adds up. A node that is on no edge of g0 makes the run panic.", "quantifier": "all graphs g0, all lists of graphs of one directedness, all iteration orders", "why_tests_cant": "all graphs and all sequences of runs", "anchors": ["src/algorithm/conn_subgraphs.rs: empty, run_subgraph_enumeration, root_to_subgraph, into_result"]}
{"id": "C95", "title": "A typed map of any file shows its items; which slices stay inside it", "statement": "A TypedMemoryMap can be made from every non-empty file at every integer type, whatever bytes the file holds; new and with_mmap give the same map; it panics exactly for a missing file, an empty file and the type (). [..] lies within the file and shows exactly the items that fit in it, the bytes left over being ignored. [..j] lies within the file exactly when j is at most the number of items: beyond that it reads memory outside the file and nothing stops it. [i..] shows the items from the i-th on; beyond the end it panics in a build with overflow checks and reads outside the file in a build without.", "quantifier": "all files (any bytes, any length), all integer types, all slice bounds, builds with and without overflow checks", "why_tests_cant": "The slices are made by unsafe code without a bounds check: a test that reads out of bounds may pass by luck, and file lengths and bounds are unbounded.", "anchors": ["src/io/mmap.rs: TypedMemoryMap::new, with_mmap, Index<RangeFull>, Index<RangeFrom>, Index<RangeTo>"]}
{"id": "C96", "title": "Handles show the node or edge asked for and panic only when there is none", "statement": "The handle get_node(id) gives is_some exactly when has_node(id); it then shows id, the node's label id and (unwrapped) its neighbours, and nodes() yields exactly these handles. On a None handle get_id and the unwraps panic, get_label_id gives None on the handle of get_node but panics on the handles of get_node_mut and remove_node. get_edge(s,t) and get_edge_mut(s,t) are is_some exactly when has_edge(s,t) and show the ends in the order asked for, also in undirected graphs. remove_node and remove_edge return the node (with its label and neighbours) or edge as it was before. unwrap_nodemap works on GraphMap handles only, unwrap_staticnode on static ones only, and MutEdgeType::unwrap_edge panics always.", "quantifier": "all reachable GraphMaps (directed or not), all well-formed static graphs, all ids", "why_tests_cant": "It must hold for every id in every graph a history of calls can produce; in particular that the id stored in a node is the one it is found under.", "anchors": ["src/generic/node.rs: NodeType, MutNodeType, OwnedNodeType", "src/generic/edge.rs: EdgeType, MutEdgeType, OwnedEdgeType", "src/graph_impl/graph_map/graph.rs: get_node, get_node_mut, get_edge, get_edge_mut, remove_node, remove_edge, nodes", "src/graph_impl/static_graph/graph.rs: get_node"]}
{"id": "C97", "title": "Which calls behave differently in a build without overflow checks", "statement": "A GraphMap and a ConnComp give the same answers (and the same panics) to every history of calls in a debug and in a release build. into_static agrees in both while the largest id of the id type is unused; once it is used, a debug build panics and a release build never returns. max_seen_id of a static graph without nodes panics in a debug build and answers Some(largest id) in a release build. An LDBC import that has given out the largest id panics on the next new entity in a debug build; a release build puts this and every later new entity on node 0 and the node count stops growing.", "quantifier": "every history of GraphMap and ConnComp calls, every graph and id type, every static graph, every sequence of LDBC rows, both settings of overflow checks", "why_tests_cant": "tests run in one build profile; the wrap-around happens only at the largest id, and 'never returns' cannot be observed by a test", "anchors": ["src/generic/dtype.rs: IdType::increment", "src/graph_impl/graph_map/graph.rs: remove_node, remove_edge, into_static", "src/graph_impl/static_graph/graph.rs: max_seen_id", "src/algorithm/conn_comp.rs: process", "src/io/ldbc/scheme.rs"]}
{"id": "C98", "title": "CSV files byte for byte", "statement": "Records written by the CSV writer are read back field by field whatever the fields contain (separators, quotes, line ends, nothing). A graph written with a separator and read with the same one is the same graph for every accepted separator except the line feed, where nothing is read back. A file without quotes is read line by line, split at the separators, untrimmed, with LF, CR and CR LF as line ends, empty lines skipped and the last line end optional. A quote that is never closed takes all later lines into its field.", "quantifier": "every list of records, every graph, every label text, every separator, every text made of lines", "why_tests_cant": "the inputs are arbitrary strings; tests try a few labels and one or two separators", "anchors": ["src/io/csv/reader.rs: CSVReader::{with_separator, read}", "src/io/csv/writer.rs: CSVWriter::{with_separator, write}", "src/io/ldbc/scheme.rs: delimiter"]}
{"id": "C99", "title": "Edits of a static graph through its mutable accessors", "statement": "Any sequence of edits of the label maps, the node label vector and the edge label vectors leaves every query that does not mention labels unchanged. Adding a label to a map changes no label shown and appears only where a label id was one past the end of the map; popping the last label takes it from exactly the nodes or edges that show it; writing one label id changes that node only. Clearing the edge vector leaves nodes, labels and both counts (the edge count too) and makes every edge query panic.", "quantifier": "every static graph, every sequence of edits, every label", "why_tests_cant": "the graph and the sequence of edits are arbitrary, and the claim is that nothing else changes", "anchors": ["src/graph_impl/static_graph/graph.rs: get_edge_vec_mut, get_in_edge_vec_mut, get_labels_mut, get_node_label_map_mut, get_edge_label_map_mut", "src/graph_impl/static_graph/edge_vec.rs: remove_labels, clear"]}
{"id": "C100", "title": "The order in which an LDBC directory is listed does not matter", "statement": "Reading the same LDBC directory gives the same graph up to the numbers of the nodes, whatever order the operating system lists its files in: the same entities, the same edges with the same labels, the same node_count() and edge_count(); the node labels are the same too unless some entity has records with different labels. A directory that cannot be read in one order cannot be read in any.", "quantifier": "all schemes, all directories, all permutations of their files, all hash orders, both directednesses and all id types", "why_tests_cant": "The order of fs::read_dir is chosen by the operating system and file system; a test sees the one order of the machine it runs on.", "anchors": ["src/io/ldbc/scheme.rs: Scheme::from_path", "src/io/ldbc/node.rs: Node::add_node", "src/io/ldbc/relation.rs: Relation::add_edge", "src/io/ldbc/mod.rs: read_ldbc_from_path"]}
{"id": "C101", "title": "LDBC directories as text files", "statement": "read_ldbc_from_path reads text files with | between the fields: if no field needs quotes, the graph is the one that the non-empty lines describe, whatever line ends are used and whether or not the last line has one; quoted fields are read as the csv crate writes them; malformed text does not silently drop relations.", "quantifier": "all directories of text files with plain fields and any mixture of LF, CR and CRLF; all tables written with any usual separator; all texts after an open quote", "why_tests_cant": "Tests read one sample file; line ends, empty lines, quotes and their combinations are unbounded.", "anchors": ["src/io/ldbc/scheme.rs: Scheme::from_path, Scheme::init (delimiter)", "src/io/ldbc/mod.rs: read_ldbc_from_path"]}
{"id": "C102", "title": "The order of CSV rows and files does not matter", "statement": "Reading the same node and edge records with CSVReader gives graphs that answer every query alike, however the records are ordered within the files, spread over several files read one after the other into the same graph, and in whatever order the files are read, as long as records of the same node or edge agree on its label.", "quantifier": "all record sets, all permutations of rows and files, all ways of splitting them over files, all earlier histories of the graph, both directednesses, all id and label types", "why_tests_cant": "There are factorially many orders and splits; tests read one file in one order.", "anchors": ["src/io/csv/reader.rs: CSVReader::read, node_iter, edge_iter", "src/graph_impl/graph_map/graph.rs: add_node, add_edge"]}
{"id": "C103", "title": "CSV text files, the converter and both converters in a row", "statement": "Running csv_to_static on text files uses the separator named by its option (a comma without one) and writes a static graph that shows exactly the graph that the rows of the files describe, renumbered one to one onto 0..n-1 with -i and with unchanged ids otherwise, and touches no other file. In particular a graph of any kind that write_to_csv wrote with any separator but a line feed, and a saved graph that static_to_csv wrote, come back as the same graph (nodes, node labels, edges, edge labels), with edge_count() the number of edges.", "quantifier": "all text files, all argument combinations with headers as written, all separators except LF, all graphs with at least one node, non-empty labels and ids of 32 bits, all operation histories, all hash iteration orders, all initial file systems", "why_tests_cant": "The space of graphs, labels (with quotes, separators and line ends inside), argument combinations and hash orders is unbounded; tests convert a few fixed files and never both ways.", "anchors": ["examples/csv_to_static.rs main", "examples/static_to_csv.rs main", "src/io/csv/reader.rs CSVReader::read", "src/io/csv/writer.rs CSVWriter::write", "src/io/csv/mod.rs read_from_csv, write_to_csv", "src/graph_impl/graph_map/graph.rs TypedGraphMap::reorder_id, into_static"]}
{"id": "C104", "title": "The label lists are the labels ever given, in order of first use", "statement": "After any sequence of calls on a GraphMap, node_labels() yields the labels of the given label map followed by all labels ever passed to add_node, add_node_label or a successful update_node_label, each once, in the order of first use (so labels of removed nodes stay and labels of refused updates are absent); the same holds for edge_labels(). Later calls only append, so the index of a label never changes.", "quantifier": "all histories that do not panic, both kinds of graph, all label types, any number of labels, label ids set by hand included, all initial label maps", "why_tests_cant": "Histories and label sets are unbounded; a test checks the list after a few calls.", "anchors": ["src/graph_impl/graph_map/graph.rs TypedGraphMap::add_node, add_edge, add_node_label, add_edge_label, update_node_label, update_edge_label, remove_node", "src/generic/graph.rs GraphLabelTrait::node_labels, edge_labels", "src/map/set_map.rs SetMap::add_item"]}
{"id": "C105", "title": "Names of implementations and the id types", "statement": "GraphImpl::from_str accepts exactly the names graphmap, staticgraph and staticgraphmmap in any mixture of upper and lower case. A value of an id type converted to usize and back is unchanged; a number converted to an id type is taken modulo the number of its values, so it survives exactly when it is at most max_value; increment adds one and panics exactly at max_value.", "quantifier": "all strings; all id types, all their values, all usize numbers", "why_tests_cant": "Strings and numbers are unbounded; tests check a few.", "anchors": ["src/graph_impl/mod.rs GraphImpl::from_str", "src/generic/dtype.rs IdType::new, id, max_value, max_usize, increment"]}
{"id": "C106", "title": "What import makes of a file with any content", "statement": "Whatever bytes a file has, if Deserialize::import accepts it as a GraphMap, a StaticGraph, a SetMap or a VecMap then the value read is a legal value of that type (ids, labels, counts and lengths in range, no label listed twice in a label map), and exporting and importing it again gives the same value. A file is accepted as a VecMap exactly when it starts with the encoding of one, and as a SetMap exactly when it starts with the encoding of a list of items (repetitions are dropped); bytes after the value are ignored. A string is accepted exactly when its bytes are UTF-8. One would also expect an accepted file to hold a graph of the requested kind. That is false: the file of a directed graph is accepted as an undirected graph, although what is read then is not one, and bytes are accepted as a static graph whose queries panic.", "quantifier": "every file content, id type and label type, and every path", "why_tests_cant": "A test tries the files the library itself wrote, and a few corrupted ones; this is about every byte sequence.", "anchors": ["src/io/serde.rs:export", "src/io/serde.rs:import", "src/map/set_map.rs:SetMap", "src/graph_impl/graph_map/graph.rs:TypedGraphMap", "src/graph_impl/static_graph/graph.rs:TypedStaticGraph"]}
{"id": "C107", "title": "The random generators are fair", "statement": "random_gnm_graph chooses every set of m of the M possible edges for equally many outcomes of its draws: whatever the other draws are, (M-m)! of the M!/m! outcomes of the draws that choose edges give that set, directed or not. random_gnp_graph decides about every possible edge by a draw of its own, which earlier draws determine, and makes the edge exactly when the fraction drawn, read as a number, is below p. The label of node i comes from draw i; the label of every edge comes from a draw used for nothing else; every label is selected by exactly one outcome of a draw below the number of different labels, however often it is listed.", "quantifier": "all numbers of nodes that fit the id type, m, p in [0,1], label lists, directed and undirected, id types and outcomes of draws", "why_tests_cant": "The number of outcomes grows with the factorial of the number of possible edges; a statistical test samples some graphs of one size and can neither tell a small bias from chance nor show that draws are not reused.", "anchors": ["src/graph_gen/random.rs:random_gnm_graph", "src/graph_gen/random.rs:random_gnp_graph", "src/graph_gen/general.rs:complete_graph", "src/graph_gen/general.rs:empty_graph", "src/graph_gen/helper.rs:random_node_label", "src/graph_gen/helper.rs:random_edge_label"]}
{"id": "C108", "title": "A CSV export cut short", "statement": "If the program or machine stops at any point during CSVWriter::write, what is left can be read without a panic. Reading with headers and without the flexible option, each of the two files is as it was before, missing, or gives the first records of the graph and at most one more whose ids are right and whose label is missing or is read from the beginning of the text of its label. An interrupted export to new files therefore gives a graph with only nodes and edges of the exported one. A flexible reader can show nodes and edges that never existed, a label can be cut to another one, no error is reported, and when older files are replaced the nodes of one graph can be read with the edges of another.", "quantifier": "all graphs, label texts, id types, usual separators, crash points and files that were there before", "why_tests_cant": "A crash can leave any beginning of either file; a test would have to stop the writer at every byte of every file.", "anchors": ["src/io/csv/writer.rs:CSVWriter::write", "src/io/csv/reader.rs:CSVReader::read", "src/io/csv/reader.rs:CSVReader::node_iter", "src/io/csv/reader.rs:CSVReader::edge_iter"]}
{"id": "C109", "title": "What a caught panic of remove_node leaves", "statement": "remove_node on a node with a self-loop panics (C09). If the panic is caught, the graph lacks the node; all other nodes, their labels and the edges between them are as before, and so are edge_count, max_seen_id and the label lists. Edges from other nodes to the missing node are still there (in an undirected graph those from larger ids only), and in a directed graph nodes with larger ids still list it among their in-neighbours. The result is a consistent graph exactly when there is no such edge. One might expect a failed call to leave a usable graph; that is false: edges can lead to the missing node, and then remove_edge and remove_node of other nodes panic. Removing the self-loop with remove_edge first avoids all this.", "quantifier": "all graphs that calls can build, directed and undirected, nodes and iteration orders", "why_tests_cant": "A test shows one graph after one panic; which edges survive depends on the order of ids around the node.", "anchors": ["src/graph_impl/graph_map/graph.rs:TypedGraphMap::remove_node", "src/graph_impl/graph_map/node.rs:NodeMap::remove_edge", "src/graph_impl/graph_map/node.rs:NodeMap::remove_in_edge"]}
{"id": "C110", "title": "A mapped graph while files change", "statement": "Opening a dumped graph shows what the files contain at that time. While it is open, operations on other files, in particular a dump (complete or interrupted) under a prefix that is apart, change none of its answers. After a complete dump of another graph under its own prefix the open graph shows the arrays of the new graph in the lengths that the old ones had (zeros where the new file ends earlier), with the counts and label maps of the old graph; if an old array does not lie on the pages of the new file, reading it ends the process. So the neighbours of a node are those in the new graph or the call panics; with arrays of the same lengths, the same counts and label maps the open graph is simply the new one. One might expect that an open graph keeps its answers, or shows the old or the new graph; that is false: every dump under its prefix passes a moment at which reading faults, it can show an edge that neither graph has, and afterwards a label that the node has in neither.", "quantifier": "all pairs of graphs that can be mapped, prefixes, file systems, moments of opening, interruption points and page sizes", "why_tests_cant": "A test would have to rewrite files under a live mapping at chosen moments; the outcome depends on all lengths and on the page size.", "anchors": ["src/io/mmap.rs:TypedMemoryMap", "src/graph_impl/static_graph/mmap/edge_vec_mmap.rs:EdgeVecMmap", "src/graph_impl/static_graph/mmap/graph_mmap.rs:StaticGraphMmap::new", "src/graph_impl/static_graph/graph.rs:TypedStaticGraph::dump_mmap"]}
{"id": "C111", "title": "Writing when the disk is full or fails", "statement": "A call that writes files reports success only if everything is written. With any sequence of full, short and failed system calls: if none fails, export, dump_mmap and CSVWriter::write report success and leave exactly the intended files. If dump reports success its file is complete. If export reports success a later import gives the value or an error, never another value. If dump_mmap reports success every file but the auxiliary one is complete, and opening shows the graph or panics; if it reports an error the files are as a crash could leave them. If CSVWriter::write reports success each file is a beginning of its table that lacks at most one buffer. The full property is false: export and CSVWriter::write leave the last buffer to the writer's destructor, which ignores errors. On a full disk they report success and leave empty files for everything that fits the buffer; reading such CSV files reports success as well.", "quantifier": "all values, graphs, separators, buffer sizes, ways of handing the data to the writer in pieces, and all sequences of outcomes of the system calls (full, short, failed)", "why_tests_cant": "A test would need a disk that fails at a chosen call, for every call and every amount of data taken.", "anchors": ["src/io/mmap.rs:dump", "src/io/serde.rs:Serializer::export", "src/graph_impl/static_graph/edge_vec.rs:EdgeVec::dump_mmap", "src/graph_impl/static_graph/graph.rs:TypedStaticGraph::dump_mmap", "src/io/csv/writer.rs:CSVWriter::write"]}
{"id": "C112", "title": "Dumps on machines of any byte order and word size", "statement": "On every machine, whatever its byte order and the size of its usize, dump_mmap followed by StaticGraphMmap::new on the same machine gives the dumped graph. One might expect that a dump can also be copied to another machine; that is false: on a machine with the other byte order every dump opens without an error, shows the right number of nodes, and panics when the neighbours of any node that has some are asked for; a dump of a 64-bit machine opens without an error on a 32-bit machine, where node 0 shows no neighbours and node 1 shows those of node 0.", "quantifier": "all machines (byte order, size of usize), graphs that can be mapped and whose numbers fit the machine, prefixes and file systems", "why_tests_cant": "Tests run on one machine.", "anchors": ["src/io/mmap.rs:dump", "src/io/mmap.rs:typed_as_byte_slice", "src/io/mmap.rs:TypedMemoryMap", "src/graph_impl/static_graph/graph.rs:TypedStaticGraph::dump_mmap", "src/graph_impl/static_graph/mmap/graph_mmap.rs:StaticGraphMmap::new"]}
{"id": "C113", "title": "A ConnComp kept while edges come and go", "statement": "The answers of a ConnComp depend only on which pairs of nodes it was given as edges since the last reset, not on their order, number or direction or on queries in between. One more edge merges two components, extends one by a node or starts a new one, and get_count changes accordingly. A ConnComp made from a graph and told about every later add_edge answers as a new one made from the grown graph. After removals it may still connect nodes that no longer are, but never separates nodes that are connected. run_detection on several graphs in turn connects what their edges together connect.", "quantifier": "all histories of calls on a ConnComp, all GraphMaps reachable by any calls, all further calls that remove nothing (or add no edge), all lists of graphs of any implementation", "why_tests_cant": "A test fixes one order of edges; the claim is that no order, repetition or interleaving of queries (which compress paths) changes an answer, for histories of any length.", "anchors": ["src/algorithm/conn_comp.rs:ConnComp::process_new_edge", "src/algorithm/conn_comp.rs:ConnComp::run_detection", "src/algorithm/conn_comp.rs:ConnComp::get_count", "src/algorithm/conn_comp.rs:ConnComp::is_connected", "src/graph_impl/graph_map/graph.rs:TypedGraphMap::add_edge"]}
{"id": "C114", "title": "Node ids are names", "statement": "Two graphs, of any implementations, that are the same up to a renaming of their nodes have the same node count, number of edges, degrees (with the neighbours renamed), label counts and connected components, and traversals from corresponding nodes visit corresponding nodes before they start again elsewhere. Making the same GraphMap calls with other ids gives the same return values up to the ids they name, panics in the same cases and leaves the same graph up to the renaming. reorder_id is such a renaming, whatever its flags.", "quantifier": "all pairs of views that represent graphs related by a renaming, all histories of GraphMap calls, all injective renamings, all iteration orders of the hash tables", "why_tests_cant": "A test fixes ids. The undirected graph stores an edge under its smaller end point and several loops compare ids, so that an answer depends on no comparison of ids has to be shown for every assignment of ids.", "anchors": ["src/graph_impl/graph_map/graph.rs:TypedGraphMap", "src/graph_impl/graph_map/graph.rs:TypedGraphMap::reorder_id", "src/algorithm/bfs.rs:Bfs", "src/algorithm/dfs.rs:Dfs", "src/algorithm/conn_comp.rs:ConnComp", "src/generic/graph.rs:GraphLabelTrait"]}
{"id": "C115", "title": "The edge counter is a machine word", "statement": "With a counter of W values, a GraphMap on which fewer than W edge-counting calls (add_edge, update_edge_label) have been made behaves as if the counter were unbounded, in a build with or without overflow checks, and edge_count() never exceeds the number of those calls. With more calls: without overflow checks edge_count() is the count modulo W, and every return value and every other answer is unaffected; with overflow checks the call that would bring the count to W panics, and no other call does. W calls on one and the same edge are enough for that.", "quantifier": "all word sizes above one value, all histories of GraphMap calls, both kinds of build, all label types", "why_tests_cant": "No test makes 2^64 calls; that nothing but edge_count() depends on the counter, and that it can never be decremented below zero, has to hold for every history.", "anchors": ["src/graph_impl/graph_map/graph.rs:TypedGraphMap::add_edge", "src/graph_impl/graph_map/graph.rs:TypedGraphMap::remove_edge", "src/graph_impl/graph_map/graph.rs:TypedGraphMap::remove_node", "src/graph_impl/graph_map/graph.rs:TypedGraphMap::refine_edge_count", "src/graph_impl/graph_map/graph.rs:TypedGraphMap::update_edge_label"]}
{"id": "C116", "title": "The counts a graph reports fit together", "statement": "On any implementation: the degrees of a directed graph add up to its number of edges, and so do the in-degrees; the degrees of an undirected graph add up to twice the number of edges, a self-loop counting once; a graph on n nodes has at most n*n edges, or n(n+1)/2 if undirected. ConnComp reports no more components than there are edges, k nodes that have edges lie in at least k - m components for m edges, and a graph in which all nodes are connected has at least n - 1 edges.", "quantifier": "all views of any implementation that represent a graph, hence all graphs", "why_tests_cant": "Degrees, edge iteration and components are computed by different code from different tables; that their totals agree on every graph is a statement about all graphs.", "anchors": ["src/generic/graph.rs:GraphTrait", "src/generic/graph.rs:GeneralGraph", "src/algorithm/conn_comp.rs:ConnComp", "src/graph_impl/graph_map/graph.rs:TypedGraphMap", "src/graph_impl/static_graph/graph.rs:TypedStaticGraph"]}
{"id": "C117", "title": "A graph is the union of its connected subgraphs", "statement": "Taking a graph without isolated nodes apart with ConnSubgraph and joining the parts with graph_union, in any order, gives the graph back: the same nodes, edges and labels, the right edge_count(), and equal() with the original is true. Taking one part away with graph_minus leaves the graph the other parts make up (without self-loops).", "quantifier": "all graphs of any implementation without isolated nodes, all orders of the parts, all iteration orders of the hash tables", "why_tests_cant": "Three algorithms have to fit together on every graph; a test looks at one graph and one order.", "anchors": ["src/algorithm/conn_subgraphs.rs:ConnSubgraph", "src/algorithm/graph_union.rs:graph_union", "src/algorithm/graph_minus.rs:graph_minus", "src/generic/graph.rs:equal"]}
{"id": "C118", "title": "An undirected graph is the directed graph with every edge in both directions", "statement": "Build an undirected graph by any calls, and a directed graph by the same calls with every add_edge, remove_edge and label update done once for each direction (self-loops once). The calls return the same values, one sequence panics exactly when the other does, and at the end has_node, has_edge, node and edge labels, neighbors, degree, max_seen_id and the label lists agree; in-neighbours equal neighbours; the directed edge list is the undirected one plus the reverse of every edge that is no loop. Bfs and Dfs from the same start yield the same order and ConnComp finds the same components. With ids 0..n-1 the static graphs that into_static makes of the two stand to each other in the same way.", "quantifier": "all histories of calls, all iteration orders of the hash tables; for the algorithms all pairs of graphs behind the traits", "why_tests_cant": "The two Ty parameters select different code in every mutation (neighbor sets of both end points, incoming sets, edge keys); only an argument over all histories relates them.", "anchors": ["src/graph_impl/graph_map/graph.rs:TypedGraphMap", "src/graph_impl/graph_map/graph.rs:into_static", "src/graph_impl/graph_map/node.rs:NodeMap", "src/algorithm/bfs.rs:Bfs", "src/algorithm/dfs.rs:Dfs", "src/algorithm/conn_comp.rs:ConnComp"]}
{"id": "C119", "title": "The id and label types are an internal matter", "statement": "If every id and every label number fits two integer types, using one or the other makes no difference: any calls on a GraphMap return the same values and leave the same graph, into_static gives graphs with the same answers, and CSV files and LDBC tables are read into the same graph. CSV files written with one id type are read back with another. An id too large for the type makes the CSV reader drop the row.", "quantifier": "all histories, all graphs, all CSV files and LDBC directories, all pairs of id and label types", "why_tests_cant": "Programs are instantiated with one type; that widening or narrowing it is harmless is a statement about two instantiations on every input.", "anchors": ["src/generic/dtype.rs:IdType", "src/graph_impl/graph_map/graph.rs:add_node", "src/graph_impl/graph_map/graph.rs:add_edge", "src/graph_impl/graph_map/graph.rs:into_static", "src/io/csv/reader.rs:CSVReader", "src/io/ldbc/mod.rs:read_ldbc_from_path"]}
{"id": "C120", "title": "What a graph shows decides what it will do", "statement": "Two graphs that answer has_node, get_node_label, has_edge and get_edge_label alike cannot be told apart later, whatever calls built them, however their labels are numbered and their hash maps ordered: the same calls on two GraphMaps both panic or return the same values and leave graphs that again answer alike, edge_count moving by the same amount; neighbors() and degrees are the same, Bfs and Dfs visit in the same order, ConnComp, the hash and the label counters agree, into_static, graph_union and graph_minus give graphs that answer alike, and, when the edge counters are exact, equal() returns true precisely for such graphs. Only reorder_id may number them differently.", "quantifier": "all pairs of histories, all later calls, all graphs behind the trait, all hash orders", "why_tests_cant": "It relates two arbitrary pasts to every common future; a test fixes all three.", "anchors": ["src/graph_impl/graph_map/graph.rs:add_node", "src/graph_impl/graph_map/graph.rs:remove_node", "src/graph_impl/graph_map/graph.rs:add_edge", "src/graph_impl/graph_map/graph.rs:into_static", "src/generic/graph.rs:equal", "src/algorithm/bfs.rs:Bfs", "src/algorithm/dfs.rs:Dfs", "src/algorithm/conn_comp.rs:ConnComp"]}
{"id": "C121", "title": "Finding components takes O(k log n) steps in all", "statement": "Any calls on a ConnComp together go round the loop that looks up a root at most r * (log2 n + 1) + k * log2 n times, where n is the number of distinct nodes, k the number of edges processed and r the number of roots looked up; building it from a graph with n nodes and k edges takes at most k * (3 * log2 n + 2) rounds. A single lookup may take n/2 rounds.", "quantifier": "all histories of process_new_edge, get_root, is_connected, get_connected_nodes and reset; all graphs", "why_tests_cant": "The bound is amortised: it is a statement about the sum over arbitrarily long histories of arbitrarily large inputs, while a test measures one of them.", "anchors": ["src/algorithm/conn_comp.rs:ConnComp", "src/algorithm/conn_comp.rs:get_root", "src/algorithm/conn_comp.rs:process_new_edge"]}
{"id": "C122", "title": "A directory stores many dumped graphs", "statement": "After any history of dump_mmap calls under any prefixes, with any other files of the directory changed in between, StaticGraphMmap::new on a prefix gives the last graph dumped under that prefix, with each optional part that this graph lacks (in-edges, node labels, edge labels, in-edge labels) taken from the latest graph dumped under the prefix that had it. When no earlier graph has a part that the last one lacks, it is the last graph itself. A prefix under which nothing was dumped does not open. What a prefix opens as depends only on the graphs dumped under it and their order. A dump with all the parts of an earlier one leaves the same directory as if the earlier one had not happened, and dumps under prefixes that are apart can be swapped.", "quantifier": "All histories of complete dumps (any prefixes, any mappable graphs, any length) mixed with arbitrary creations and writes of other files, all starting directories without files of the prefix, all id and label types and all faithful encodings of labels", "why_tests_cant": "A test dumps one or two graphs; which old part survives depends on the whole history of the prefix", "anchors": ["src/graph_impl/static_graph/graph.rs:dump_mmap", "src/graph_impl/static_graph/mmap/graph_mmap.rs:StaticGraphMmap", "src/graph_impl/static_graph/mmap/edge_vec_mmap.rs:EdgeVecMmap"]}
{"id": "C123", "title": "A whole Bfs or Dfs is linear in nodes and edges, except for missing ids", "statement": "A Bfs or Dfs iterated to its end looks at every neighbour of every node exactly once and never keeps a node waiting twice. Besides that it tests has_node once for every further part it starts, plus, each time, once for every unused id below the node found, and at the end once for every unused id up to max_seen_id. With no unused ids this is linear; with G unused ids and R restarts it lies between R + G and R + (R + 1) G, and the upper bound is met when the unused ids are the smallest. Every node is reachable from the start or from a restart, and no earlier one of these reaches a later one, so on an undirected graph there is exactly one of them in every component.", "quantifier": "every graph implementation that represents a graph, every start, both iterators", "why_tests_cant": "a test measures one graph; the claim counts the work on every graph", "anchors": ["src/algorithm/bfs.rs:next", "src/algorithm/bfs.rs:next_unvisited_node", "src/algorithm/dfs.rs:next", "src/algorithm/dfs.rs:next_unvisited_node"]}
{"id": "C124", "title": "An LDBC directory can be frozen and mapped", "statement": "The graph imported from any well-formed, non-empty LDBC directory freezes: into_static does not panic, and the static graph has exactly the entities and relations of the directory (entities with equal texts type ++ id being one node), with the labels the import gave them, and the same edge count. Saved and loaded it is the same static graph; dumped for memory mapping under a fresh prefix and opened it shows the same graph.", "quantifier": "every directory, scheme, direction and id type with room for the entities and labels, every file system and fresh prefix", "why_tests_cant": "a test imports one directory; the claim covers every directory and every stage after the import", "anchors": ["src/io/ldbc/scheme.rs:from_path", "src/graph_impl/graph_map/graph.rs:into_static", "src/graph_impl/static_graph/mmap/graph_mmap.rs:new"]}
{"id": "C125", "title": "LDBC import numbers entities in the order of first mention", "statement": "In a graph imported from an LDBC directory the ids are 0, 1, 2, ... without gaps, and node i is the i-th entity in the order in which the records mention entities for the first time: first the node records, type by type in the order of the scheme and file by file in the order of the listing, then the relation records, the start before the target. Only one numbering has this property, so the ids are determined by the scheme, the listing and the contents of the files.", "quantifier": "every directory, listing, scheme, direction and id type with room for the entities and labels", "why_tests_cant": "a test imports one directory; the claim fixes the ids of every directory", "anchors": ["src/io/ldbc/scheme.rs:from_path", "src/io/ldbc/node.rs:add_node", "src/io/ldbc/relation.rs:add_edge"]}
