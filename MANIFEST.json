{
 "claims": [
  {
   "property": "C01",
   "status": "proved",
   "theorems": [
    "C01_setmap_bijection",
    "C01_setmap_never_panics"
   ],
   "note": "SetMap as an insertion-ordered duplicate-free list; all histories."
  },
  {
   "property": "C02",
   "status": "proved",
   "theorems": [
    "C02_add_item_stable",
    "C02_pop_item_last"
   ],
   "note": ""
  },
  {
   "property": "C03",
   "status": "proved",
   "theorems": [
    "C03_setmap_vecmap_equivalent"
   ],
   "note": ""
  },
  {
   "property": "C04",
   "status": "partial",
   "theorems": [
    "C04_conversions_preserve_indices_partial",
    "C04_from_vec",
    "C04_conversions_refuted"
   ],
   "note": "False for a VecMap built from a vector with duplicates (C04_conversions_refuted); proved for every SetMap and every VecMap built by add_item."
  },
  {
   "property": "C05",
   "status": "partial",
   "theorems": [
    "C05_setmap_eq_hash_refuted",
    "C05_setmap_eq_same_items",
    "C05_setmap_hash_items",
    "C05_vecmap_eq_hash"
   ],
   "note": "The Eq/Hash contract fails for SetMap (C05_setmap_eq_hash_refuted); what == means and the VecMap contract are proved."
  },
  {
   "property": "C06",
   "status": "proved",
   "theorems": [
    "C06_directed_refinement",
    "C06_directed_structure"
   ],
   "note": "Refinement for every history within the label capacity of L, plus structure of every history whatever the labels."
  },
  {
   "property": "C07",
   "status": "proved",
   "theorems": [
    "C07_undirected_refinement",
    "C07_undirected_structure"
   ],
   "note": "As C06 for undirected graphs, with symmetry of has_edge and get_edge_label; raw label-id writes are covered by the structure theorem only (see C19)."
  },
  {
   "property": "C08",
   "status": "partial",
   "theorems": [
    "C08_no_panic_refuted"
   ],
   "note": "False of the code: remove_node panics on a self-loop. The exact condition is C09."
  },
  {
   "property": "C09",
   "status": "proved",
   "theorems": [
    "C09_panic_iff_self_loop_removed"
   ],
   "note": "Exact panic condition for all histories."
  },
  {
   "property": "C10",
   "status": "partial",
   "theorems": [
    "C10_edge_count_refuted",
    "C10_edge_count_partial"
   ],
   "note": "False of the code (re-adding an edge increments the counter); proved for histories that never re-add or relabel. C11 gives the exact value for all histories."
  },
  {
   "property": "C11",
   "status": "proved",
   "theorems": [
    "C11_edge_count_drift",
    "C11_refine_restores"
   ],
   "note": ""
  },
  {
   "property": "C12",
   "status": "proved",
   "theorems": [
    "C12_node_indices"
   ],
   "note": ""
  },
  {
   "property": "C13",
   "status": "proved",
   "theorems": [
    "C13_edge_indices"
   ],
   "note": ""
  },
  {
   "property": "C14",
   "status": "proved",
   "theorems": [
    "C14_in_neighbors_inverse"
   ],
   "note": ""
  },
  {
   "property": "C15",
   "status": "proved",
   "theorems": [
    "C15_max_seen_id"
   ],
   "note": ""
  },
  {
   "property": "C16",
   "status": "partial",
   "theorems": [
    "C16_node_label_round_trip_partial",
    "C16_edge_label_round_trip_partial",
    "C16_label_round_trip_refuted"
   ],
   "note": "Proved while the number of labels fits the label id type; refuted beyond it (L=() with 2 labels, L=u8 with 257)."
  },
  {
   "property": "C17",
   "status": "proved",
   "theorems": [
    "C17_return_values"
   ],
   "note": ""
  },
  {
   "property": "C18",
   "status": "proved",
   "theorems": [
    "C18_remove_node_frame"
   ],
   "note": ""
  },
  {
   "property": "C19",
   "status": "partial",
   "theorems": [
    "C19_edge_mut_symmetry_refuted",
    "C19_edge_mut_effect_partial",
    "C19_edges_mut_effect_partial",
    "C19_nodes_mut_effect"
   ],
   "note": "False of the code for undirected graphs; the exact effect of get_edge_mut/edges_mut is proved."
  },
  {
   "property": "C20",
   "status": "partial",
   "theorems": [
    "C20_eq_refuted",
    "C20_eq_partial"
   ],
   "note": "Refuted: == tests inclusion (C21), so it is not symmetric and disagrees with Hash. Proved for pairs with the same node and edge counts."
  },
  {
   "property": "C21",
   "status": "proved",
   "theorems": [
    "C21_eq_is_inclusion",
    "C21_eq_in_memory"
   ],
   "note": "For GraphMap and StaticGraph (same eq code) through the traits; bitwise complement of 64-bit usize."
  },
  {
   "property": "C22",
   "status": "proved",
   "theorems": [
    "C22_equal",
    "C22_equivalence"
   ],
   "note": "Both counts exact is a hypothesis, as in the statement."
  },
  {
   "property": "C23",
   "status": "proved",
   "theorems": [
    "C23_equal_hash",
    "C23_hash_of_graph"
   ],
   "note": "The hashed sequence depends only on the represented graph."
  },
  {
   "property": "C24",
   "status": "proved",
   "theorems": [
    "C24_clone",
    "C24_clone_equal"
   ],
   "note": "Also: the clone is equal() to the original iff the original's edge_count is exact."
  },
  {
   "property": "C25",
   "status": "proved",
   "theorems": [
    "C25_from_edges"
   ],
   "note": ""
  },
  {
   "property": "C26",
   "status": "partial",
   "theorems": [
    "C26_reorder_id_partial",
    "C26_any_graph_partial",
    "C26_raw_edge_label_refuted",
    "C26_raw_node_label_refuted",
    "C26_exact"
   ],
   "note": "Proved for every history of API calls, every flag combination, every hash order and label tie-breaking: bijection onto 0..n-1 monotone in degree, same edges and labels along it, label maps exactly the used labels by increasing frequency. After raw set_label_id writes label renumbering can panic (refuted). C26_exact gives the exact panic condition for every reachable graph and proves that all other graphs are renumbered with nodes, edges, labels and counts preserved."
  },
  {
   "property": "C27",
   "status": "proved",
   "theorems": [
    "C27_inverse",
    "C27_take_graph"
   ],
   "note": "Exact: also says when the two lookups panic."
  },
  {
   "property": "C28",
   "status": "partial",
   "theorems": [
    "C28_into_static_partial",
    "C28_empty_refuted",
    "C28_max_id_refuted",
    "C28_gap_refuted",
    "C28_sentinel_refuted"
   ],
   "note": "Proved for graphs whose ids are 0..n-1 (non-empty, ids below the type's maximum, fewer labels than the sentinel; edges() for directed or edge-unlabelled graphs). Missing because false: empty graph and maximal id panic, gaps lose nodes, the sentinel label is lost (refuted theorems)."
  },
  {
   "property": "C29",
   "status": "proved",
   "theorems": [
    "C29_into_static_edges"
   ],
   "note": "All ids, with gaps, directed and undirected."
  },
  {
   "property": "C30",
   "status": "proved",
   "theorems": [
    "C30_has_edge",
    "C30_find_edge_index",
    "C30_neighbors",
    "C30_edge_label"
   ],
   "note": ""
  },
  {
   "property": "C31",
   "status": "proved",
   "theorems": [
    "C31_edge_iter",
    "C31_edge_iter_full"
   ],
   "note": "Node count below the number of ids; at equality the iterator never ends (C31_edge_iter_full)."
  },
  {
   "property": "C32",
   "status": "partial",
   "theorems": [
    "C32_edges_partial",
    "C32_undirected_refuted",
    "C32_exact",
    "C32_one_label"
   ],
   "note": "Right for directed graphs and graphs without edge labels; refuted for undirected labelled graphs. C32_exact says for every graph which label each edge is shown with; C32_one_label: right when all edges share one label."
  },
  {
   "property": "C33",
   "status": "partial",
   "theorems": [
    "C33_counts_partial",
    "C33_self_loops_refuted",
    "C33_new",
    "C33_with_labels",
    "C33_from_raw",
    "C33_panics"
   ],
   "note": "Exact for directed graphs and undirected graphs without self-loops; exact shortfall theorem for self-loops. The constructors of any consistent arrays answer as the arrays say, the others panic."
  },
  {
   "property": "C34",
   "status": "proved",
   "theorems": [
    "C34_remove_node_labels",
    "C34_remove_edge_labels",
    "C34_remove_labels",
    "C34_remove_labels_graph"
   ],
   "note": ""
  },
  {
   "property": "C35",
   "status": "proved",
   "theorems": [
    "C35_dump_then_map",
    "C35_empty"
   ],
   "note": "All element types but (), all non-empty slices; C35_empty: an array without bytes cannot be mapped."
  },
  {
   "property": "C36",
   "status": "partial",
   "theorems": [
    "C36_roundtrip_partial",
    "C36_pipeline_partial",
    "C36_missing_start_refuted",
    "C36_no_edges",
    "C36_history_partial"
   ],
   "note": "Round trip for every mappable graph on a fresh prefix. Missing: edge queries whose start node has no neighbour list, where the mapped graph panics (C36_missing_start_refuted). Graphs without edges cannot be opened (C36_no_edges). C36_pipeline_partial and C36_history_partial: a GraphMap built by any API history, through into_static, dump_mmap and opening, represents the same abstract graph."
  },
  {
   "property": "C37",
   "status": "partial",
   "theorems": [
    "C37_overwrite_partial",
    "C37_no_stale_partial",
    "C37_stale_in_edges_refuted",
    "C37_stale_labels_refuted"
   ],
   "note": "Proved when both dumps have the same parts, or no stale optional file exists. False in general: stale _IN files and stale label files of the earlier dump are read (two _refuted theorems)."
  },
  {
   "property": "C38",
   "status": "partial",
   "theorems": [
    "C38_crash_partial",
    "C38_early_crash_partial",
    "C38_crash_refuted"
   ],
   "note": "Proved for crash points once the auxiliary file exists (any cut of it) and before the first edge is written. Between these the crash is not detected (C38_crash_refuted)."
  },
  {
   "property": "C39",
   "status": "partial",
   "theorems": [
    "C39_graphmap",
    "C39_static",
    "C39_mmap_partial",
    "C39_mmap_refuted"
   ],
   "note": "Proved for GraphMap and StaticGraph. The mapped graph panics for every start node without neighbour list (C39_mmap_refuted) and answers otherwise (C39_mmap_partial)."
  },
  {
   "property": "C40",
   "status": "proved",
   "theorems": [
    "C40_panics",
    "C40_bfs_each_node_once",
    "C40_missing_start",
    "C40_graphmap"
   ],
   "note": "Any graph behind the traits and, as a corollary, any GraphMap after any history. C40_panics: it panics exactly when there is no node to start at."
  },
  {
   "property": "C41",
   "status": "proved",
   "theorems": [
    "C41_bfs_order",
    "C41_reachable_first"
   ],
   "note": ""
  },
  {
   "property": "C42",
   "status": "proved",
   "theorems": [
    "C42_panics",
    "C42_dfs_each_node_once",
    "C42_dfs_reset"
   ],
   "note": ""
  },
  {
   "property": "C43",
   "status": "partial",
   "theorems": [
    "C43_depth_first_refuted",
    "C43_dfs_order_partial"
   ],
   "note": "False of the code: nodes are marked when pushed. The exact order produced is proved instead."
  },
  {
   "property": "C44",
   "status": "partial",
   "theorems": [
    "C44_only_reachable_refuted",
    "C44_only_reachable_partial"
   ],
   "note": "False of the code (and of its documentation): the iterators restart at the smallest node left. Proved to hold exactly when all nodes are reachable."
  },
  {
   "property": "C45",
   "status": "proved",
   "theorems": [
    "C45_is_connected",
    "C45_no_panic",
    "C45_graph"
   ],
   "note": "For any history of processed edges and (path-compressing) queries, and for ConnComp::new on any graph behind the traits."
  },
  {
   "property": "C46",
   "status": "proved",
   "theorems": [
    "C46_count"
   ],
   "note": "get_count is the unique number of components of the processed edges."
  },
  {
   "property": "C47",
   "status": "proved",
   "theorems": [
    "C47_connected_nodes"
   ],
   "note": "HashMap key order arbitrary."
  },
  {
   "property": "C48",
   "status": "partial",
   "theorems": [
    "C48_get_root_partial",
    "C48_get_root_unseen_refuted"
   ],
   "note": "Seen nodes: representative shared exactly by the component. Refuted for unseen nodes: get_root panics instead of returning None."
  },
  {
   "property": "C49",
   "status": "partial",
   "theorems": [
    "C49_conn_subgraphs_partial",
    "C49_isolated_refuted"
   ],
   "note": "Exact: proved for graphs without isolated nodes; with an isolated node ConnSubgraph::new panics."
  },
  {
   "property": "C50",
   "status": "proved",
   "theorems": [
    "C50_union"
   ],
   "note": "Any representing graphs, also directed joined with undirected; edge_count of the result is the sum of both edge numbers."
  },
  {
   "property": "C51",
   "status": "partial",
   "theorems": [
    "C51_minus_partial",
    "C51_self_loop_refuted"
   ],
   "note": "Exact: proved when no removed node has a self-loop; otherwise graph_minus panics."
  },
  {
   "property": "C52",
   "status": "proved",
   "theorems": [
    "C52_complete_graph",
    "C52_empty_graph",
    "C52_unlabeled"
   ],
   "note": "Every outcome of the random draws is an arbitrary oracle. No bound on the label lists: the label ids may wrap and the labels are still drawn from the lists."
  },
  {
   "property": "C53",
   "status": "proved",
   "theorems": [
    "C53_gnm",
    "C53_unlabeled"
   ],
   "note": "sample_iter of the rand crate (reservoir sampling) is modelled as published for 0.5.5."
  },
  {
   "property": "C54",
   "status": "partial",
   "theorems": [
    "C54_gnp_partial",
    "C54_unlabeled_partial",
    "C54_nan_refuted"
   ],
   "note": "Proved for every p that is a number. NaN is outside [0,1] but does not panic (C54_nan_refuted). f32 is the canonical binary32 of Coq's SpecFloat; draws are assumed to lie in [0,1)."
  },
  {
   "property": "C55",
   "status": "partial",
   "theorems": [
    "C55_roundtrip",
    "C55_integer_labels",
    "C55_string_labels",
    "C55_empty_label_refuted",
    "C55_bare_refuted"
   ],
   "note": "Round trip for every graph whose ids fit the type and whose labels have a readable text; labels with an empty text are lost (refuted), and reading the file without headers turns absent labels into empty ones. At the level of records; C98 is the same for the texts of the files."
  },
  {
   "property": "C56",
   "status": "partial",
   "theorems": [
    "C56_node_rows",
    "C56_edge_rows",
    "C56_node_rows_flexible",
    "C56_edge_rows_flexible",
    "C56_node_rows_bare_partial",
    "C56_edge_rows_bare_partial",
    "C56_bad_node_label",
    "C56_bad_edge_label",
    "C56_first_row_refuted"
   ],
   "note": "Proved with headers and for flexible readers; without headers a non-flexible reader takes the field count from the first row even when that row is unparseable (refuted), so only later rows can be dropped."
  },
  {
   "property": "C57",
   "status": "proved",
   "theorems": [
    "C57_history",
    "C57_integer_labels",
    "C57_string_labels",
    "C57_setmap",
    "C57_vecmap",
    "C57_graphmap",
    "C57_sgraph"
   ],
   "note": "bincode bytes for SetMap, VecMap, GraphMap (any hash order) and StaticGraph; label types through any faithful codec, shown for integers and UTF-8 strings. C57_history: every graph built by API calls whose ids, labels and sizes fit their types."
  },
  {
   "property": "C58",
   "status": "partial",
   "theorems": [
    "C58_import_partial",
    "C58_numeric",
    "C58_overflow",
    "C58_malformed",
    "C58_ambiguous_refuted",
    "C58_exact",
    "C58_exact_overflow",
    "C58_merged"
   ],
   "note": "Proved for every scheme and directory whose entities have pairwise different texts type ++ id, and for read_ldbc_from_path whenever ids begin with a digit; too many entities panic and malformed rows give no graph. C58_ambiguous_refuted: the code merges tag \"class1\" and tagclass \"1\". C58_exact: any directory, entities with equal texts become one node."
  },
  {
   "property": "C59",
   "status": "partial",
   "theorems": [
    "C59_exact_partial",
    "C59_twice_refuted",
    "C59_exact"
   ],
   "note": "edge_count() is the number of relation records; exact iff no relation is recorded twice. C59_exact: also when entities share their texts. C59_twice_refuted: with the built-in scheme every non-empty forum_containerOf_post or forum_hasModerator_person file makes it too large."
  },
  {
   "property": "C60",
   "status": "proved",
   "theorems": [
    "C60_node_label_counter",
    "C60_edge_label_counter"
   ],
   "note": "Counter modelled as the collected list; its value for a label is the number of occurrences."
  },
  {
   "property": "C61",
   "status": "proved",
   "theorems": [
    "C61_cut_setmap",
    "C61_cut_graphmap",
    "C61_cut_sgraph",
    "C61_missing",
    "C61_other_files"
   ],
   "note": "Every proper prefix is rejected; missing file is an error; other files untouched."
  },
  {
   "property": "C62",
   "status": "partial",
   "theorems": [
    "C62_prefixes_partial",
    "C62_prefixes_refuted",
    "C62_exact",
    "C62_unlabelled"
   ],
   "note": "False for g and g_OUT (C62_prefixes_refuted). C62_prefixes_partial gives it for prefixes where neither is the other one or the other one followed by _OUT/_IN; C62_exact says for any two different prefixes which one file of labels can be seen, so C62_unlabelled holds without a condition on the prefixes."
  },
  {
   "property": "C63",
   "status": "proved",
   "theorems": [
    "C63_read_calls",
    "C63_read_graph",
    "C63_missing_nodes"
   ],
   "note": "Proved for every reader and file."
  },
  {
   "property": "C64",
   "status": "proved",
   "theorems": [
    "C64_column_order",
    "C64_unknown_node_column",
    "C64_unknown_edge_column"
   ],
   "note": "Proved; rows must have as many fields as the header."
  },
  {
   "property": "C65",
   "status": "proved",
   "theorems": [
    "C65_separator",
    "C65_separator_panics"
   ],
   "note": "Proved."
  },
  {
   "property": "C66",
   "status": "proved",
   "theorems": [
    "C66_node_files",
    "C66_relation_files",
    "C66_scheme_relations",
    "C66_scheme_nodes",
    "C66_scheme_complete"
   ],
   "note": "File names are ASCII; the dot of the regex does not match a newline."
  },
  {
   "property": "C67",
   "status": "proved",
   "theorems": [
    "C67_renumber"
   ],
   "note": "From API histories. The number of nodes and of labels must not exceed the type's maximum (the static graph reserves it), the ids must be values of the id type; dump/open needs an edge because opening a graph without edges panics (C36_no_edges)."
  },
  {
   "property": "C68",
   "status": "proved",
   "theorems": [
    "C68_ids",
    "C68_written_ids",
    "C68_ids_unique",
    "C68_node_rows",
    "C68_edge_rows",
    "C68_node_rows_bare",
    "C68_edge_rows_bare",
    "C68_no_node_file",
    "C68_missing_nodes",
    "C68_missing_edges",
    "C68_empty_files",
    "C68_node_rows_unique",
    "C68_edge_rows_unique"
   ],
   "note": "Ids: usize, u32, u16, u8. Text layer of the csv crate not modelled."
  },
  {
   "property": "C69",
   "status": "partial",
   "theorems": [
    "C69_csv_to_static",
    "C69_missing_file",
    "C69_no_rows",
    "C69_separator",
    "C69_label_option_refuted"
   ],
   "note": "The -l option is refuted: it is declared under another name than it is queried, so it has no effect (C69_label_option_refuted)."
  },
  {
   "property": "C70",
   "status": "proved",
   "theorems": [
    "C70_static_to_csv",
    "C70_no_file"
   ],
   "note": ""
  },
  {
   "property": "C71",
   "status": "proved",
   "theorems": [
    "C71_remove_labels",
    "C71_static_to_mmap",
    "C71_max_degree",
    "C71_max_degree_empty",
    "C71_no_file"
   ],
   "note": ""
  },
  {
   "property": "C72",
   "status": "partial",
   "theorems": [
    "C72_files_partial",
    "C72_file_names",
    "C72_one_degree",
    "C72_finishes",
    "C72_never_ends_refuted",
    "C72_rejects",
    "C72_second_refuted"
   ],
   "note": "Proved for the first degree and, exactly, for what later degrees write; refuted for later degrees, because the edge count is not refreshed (C72_second_refuted), and for termination without room (C72_never_ends_refuted)."
  },
  {
   "property": "C73",
   "status": "partial",
   "theorems": [
    "C73_vary_labels",
    "C73_eleven_partial",
    "C73_other_count_refuted",
    "C73_no_labels_refuted"
   ],
   "note": "The draw is written as label id. That is the drawn label only if the label map had eleven other labels; otherwise refuted."
  },
  {
   "property": "C74",
   "status": "proved",
   "theorems": [
    "C74_ldbc_to_graphmap",
    "C74_failed_import"
   ],
   "note": ""
  },
  {
   "property": "C75",
   "status": "proved",
   "theorems": [
    "C75_crash_shows_part"
   ],
   "note": "The full answer to C38: what a crash can show. Edge count may be wrong when the auxiliary file is missing (C38_crash_refuted)."
  },
  {
   "property": "C76",
   "status": "proved",
   "theorems": [
    "C76_dump_over"
   ],
   "note": "The full answer to C37: what a second dump shows."
  },
  {
   "property": "C77",
   "status": "proved",
   "theorems": [
    "C77_same_order",
    "C77_static",
    "C77_no_start_differs"
   ],
   "note": "For start nodes given by the caller; without one the first node of node_indices() decides: an example shows two orders for one graph."
  },
  {
   "property": "C78",
   "status": "proved",
   "theorems": [
    "C78_from_parts",
    "C78_with_capacity",
    "C78_reset",
    "C78_fused"
   ],
   "note": "from_parts needs a map as long as the ids and unmarked stack nodes."
  },
  {
   "property": "C79",
   "status": "partial",
   "theorems": [
    "C79_idempotent",
    "C79_unit",
    "C79_commutative",
    "C79_associative",
    "C79_undirected_first",
    "C79_equal_refuted"
   ],
   "note": "Idempotent, unit, commutative, associative as graphs; equal(g+g, g) is false for every graph with an edge (refuted) since edge_count doubles."
  },
  {
   "property": "C80",
   "status": "proved",
   "theorems": [
    "C80_self",
    "C80_empty",
    "C80_minus_minus",
    "C80_union_minus"
   ],
   "note": "No self-loops on removed nodes (otherwise graph_minus panics, C51)."
  },
  {
   "property": "C81",
   "status": "partial",
   "theorems": [
    "C81_node_label_ids",
    "C81_edge_label_ids_partial",
    "C81_static_refuted",
    "C81_static_exact"
   ],
   "note": "Proved for every graph whose edges() agrees with get_edge (GraphMap in both directions, directed static graphs); refuted for undirected static graphs with edge labels, where edges() attaches wrong labels: C81_static_exact says which entries are counted there."
  },
  {
   "property": "C82",
   "status": "proved",
   "theorems": [
    "C82_labels_in_use",
    "C82_unused_labels"
   ],
   "note": "Also shows that labels no longer in use stay listed."
  },
  {
   "property": "C83",
   "status": "proved",
   "theorems": [
    "C83_complete",
    "C83_gnm",
    "C83_gnp",
    "C83_too_many"
   ],
   "note": "All sizes; C52-C54 are the case where the ids fit."
  },
  {
   "property": "C84",
   "status": "proved",
   "theorems": [
    "C84_node_history"
   ],
   "note": "Exact, for all histories."
  },
  {
   "property": "C85",
   "status": "partial",
   "theorems": [
    "C85_handle_effect",
    "C85_handle_missing",
    "C85_both_ends",
    "C85_consistency_refuted"
   ],
   "note": "Proved: exact effect, both ends = add_edge without the count, panics iff the node is missing. Refuted: one-sided writes break symmetry, end points, edge_count and make remove_node/remove_edge panic."
  },
  {
   "property": "C86",
   "status": "proved",
   "theorems": [
    "C86_labels_wrap",
    "C86_which"
   ],
   "note": "Complete: every history with any number of labels. Gives the exact behaviour where C16 is refuted."
  },
  {
   "property": "C87",
   "status": "proved",
   "theorems": [
    "C87_into_static_exactly",
    "C87_panics"
   ],
   "note": "Every graph a user can build is covered, including gaps, label ids written directly and edges() of undirected graphs; only the unit id type is left out of the panic theorem."
  },
  {
   "property": "C88",
   "status": "proved",
   "theorems": [
    "C88_calls_commute",
    "C88_panics_commute",
    "C88_insertion_order"
   ],
   "note": "Series may contain removals and relabelling; raw label-id writes and label registration are left out, and the labels must fit the label id type (panics: no such condition)."
  },
  {
   "property": "C89",
   "status": "proved",
   "theorems": [
    "C89_add_remove_edge",
    "C89_add_remove_node",
    "C89_remove_add_edge"
   ],
   "note": "Earlier histories without raw label-id writes; labels fit the label id type."
  },
  {
   "property": "C90",
   "status": "proved",
   "theorems": [
    "C90_frozen_equal",
    "C90_few_labels",
    "C90_mapped_equal"
   ],
   "note": "Exact condition for equal(g, frozen(g)) and equal(g, mapped(g)), and equal hashes then. A graph without an edge cannot be mapped (C36_no_edges)."
  },
  {
   "property": "C91",
   "status": "proved",
   "theorems": [
    "C91_traversals_and_components",
    "C91_graphmap",
    "C91_reachable_is_connected"
   ],
   "note": "Isolated nodes are unknown to ConnComp (C45, C47)."
  },
  {
   "property": "C92",
   "status": "proved",
   "theorems": [
    "C92_hash_input",
    "C92_boxed_hash_input"
   ],
   "note": "Each label is modelled as one value fed to the hasher."
  },
  {
   "property": "C93",
   "status": "proved",
   "theorems": [
    "C93_get_parent",
    "C93_held_get_root",
    "C93_held_is_connected",
    "C93_held_connected_nodes"
   ],
   "note": "RefCell borrow rules modelled: writing while a Ref is alive panics."
  },
  {
   "property": "C94",
   "status": "proved",
   "theorems": [
    "C94_runs",
    "C94_unknown_node",
    "C94_again"
   ],
   "note": "All graphs of one call sequence are directed or all undirected; the graph given to empty() may be either."
  },
  {
   "property": "C95",
   "status": "proved",
   "theorems": [
    "C95_any_file",
    "C95_no_map",
    "C95_to",
    "C95_from",
    "C95_typed_map"
   ],
   "note": "Reading outside of the map is undefined behaviour; the theorems say exactly for which bounds it happens. In the rest of the model overflow checks are on."
  },
  {
   "property": "C96",
   "status": "proved",
   "theorems": [
    "C96_node_handle",
    "C96_set_label",
    "C96_nodes",
    "C96_removed_node",
    "C96_edge_handle",
    "C96_removed_edge",
    "C96_static_node"
   ],
   "note": "Handles are values here: that a mutable handle writes to the graph is C19 and C85."
  },
  {
   "property": "C97",
   "status": "partial",
   "theorems": [
    "C97_graphmap",
    "C97_conn_comp",
    "C97_into_static",
    "C97_into_static_refuted",
    "C97_max_seen_id_refuted",
    "C97_ldbc_refuted"
   ],
   "note": "Partial because three calls differ between builds: C97_into_static_refuted, C97_max_seen_id_refuted and C97_ldbc_refuted say exactly how. Counters that only grow (usize) are unbounded in both."
  },
  {
   "property": "C98",
   "status": "partial",
   "theorems": [
    "C98_records",
    "C98_roundtrip",
    "C98_lf_refuted",
    "C98_lines",
    "C98_open_quote_refuted",
    "C98_static_to_csv"
   ],
   "note": "Refuted: LF as separator (nothing is read back) and unclosed quotes (later rows are lost, against C56's reading of the documentation at the level of text). The csv crate is not in the repository: CsvText.v states its documented behaviour with the settings the repository uses."
  },
  {
   "property": "C99",
   "status": "proved",
   "theorems": [
    "C99_structure",
    "C99_add_node_label",
    "C99_add_edge_label",
    "C99_pop_node_label",
    "C99_pop_edge_label",
    "C99_set_label",
    "C99_unlabel",
    "C99_unlabel_in",
    "C99_replace_labels",
    "C99_clear",
    "C99_clear_arrays",
    "C99_clear_in_arrays"
   ],
   "note": "Clearing is described exactly; it breaks the graph (stale edge count, panics)."
  },
  {
   "property": "C100",
   "status": "partial",
   "theorems": [
    "C100_listing_order",
    "C100_malformed",
    "C100_two_labels_refuted"
   ],
   "note": "Refuted only for the labels of entities that have node records with different labels in several files; then the file listed last wins."
  },
  {
   "property": "C101",
   "status": "partial",
   "theorems": [
    "C101_lines",
    "C101_quoted",
    "C101_open_quote_refuted"
   ],
   "note": "Refuted: an id with an unclosed quote takes the rest of the file as its text and the relations in it are lost without an error."
  },
  {
   "property": "C102",
   "status": "partial",
   "theorems": [
    "C102_same_records",
    "C102_file_order",
    "C102_row_order",
    "C102_headless_refuted"
   ],
   "note": "Refuted only for readers without headers that are not flexible: the length of the first row decides which rows are read."
  },
  {
   "property": "C103",
   "status": "proved",
   "theorems": [
    "C103_text_files",
    "C103_written_graph",
    "C103_both_programs"
   ],
   "note": "Text-level csv_to_static, for arbitrary text files, for graphs of any kind written to CSV, and composed with static_to_csv for every history. LF as separator and empty labels are excluded: C98_lf_refuted and C63 show what happens then."
  },
  {
   "property": "C104",
   "status": "proved",
   "theorems": [
    "C104_label_lists",
    "C104_first_uses",
    "C104_stable"
   ],
   "note": "Direct induction over gm_run; independent of the refinement to the abstract graph, hence without its restrictions."
  },
  {
   "property": "C105",
   "status": "proved",
   "theorems": [
    "C105_names",
    "C105_ids"
   ],
   "note": "Non-ASCII characters: see the comment in Names.v."
  },
  {
   "property": "C106",
   "status": "partial",
   "theorems": [
    "C106_labels",
    "C106_utf8",
    "C106_graphmap",
    "C106_static",
    "C106_vecmap",
    "C106_setmap",
    "C106_direction_refuted",
    "C106_no_graph_refuted"
   ],
   "note": "Accepted values are legal and stable; VecMap and SetMap acceptance is exact. The expectation that an accepted file holds a graph of the requested kind is refuted twice."
  },
  {
   "property": "C107",
   "status": "proved",
   "theorems": [
    "C107_gnm_uniform",
    "C107_gnm_outcomes",
    "C107_gnm_labels",
    "C107_complete_labels",
    "C107_gnp_draws",
    "C107_label_fair"
   ],
   "note": "Counts outcomes of draws; that single draws are uniform and independent is trusted of the rand crate. Labels need as many ids as there are labels (beyond that see C86); numbers of nodes must fit the id type (beyond that see C83)."
  },
  {
   "property": "C108",
   "status": "partial",
   "theorems": [
    "C108_table",
    "C108_nodes",
    "C108_edges",
    "C108_graph",
    "C108_label_refuted",
    "C108_flexible_refuted",
    "C108_mixed_refuted"
   ],
   "note": "False in three ways, each with a counterexample: labels cut to other labels, flexible readers, replaced older files. What holds is proved for every crash point: C108_table, C108_nodes, C108_edges, C108_graph."
  },
  {
   "property": "C109",
   "status": "partial",
   "theorems": [
    "C109_agrees",
    "C109_exact",
    "C109_consistent_iff",
    "C109_usable_refuted",
    "C109_loop_first"
   ],
   "note": "The expectation that the graph stays usable is refuted (C109_usable_refuted); the exact state is proved."
  },
  {
   "property": "C110",
   "status": "partial",
   "theorems": [
    "C110_at_open",
    "C110_elsewhere",
    "C110_other_prefix",
    "C110_same_shape",
    "C110_rewritten",
    "C110_mixture",
    "C110_undisturbed_refuted",
    "C110_old_or_new_edges_refuted",
    "C110_old_or_new_labels_refuted"
   ],
   "note": "The rest holds in full; an open graph is disturbed by a dump under its own prefix."
  },
  {
   "property": "C111",
   "status": "partial",
   "theorems": [
    "C111_dump",
    "C111_export",
    "C111_dump_mmap",
    "C111_dump_mmap_files",
    "C111_csv",
    "C111_no_error_export",
    "C111_no_error_dump_mmap",
    "C111_no_error_csv",
    "C111_export_refuted",
    "C111_dump_mmap_refuted",
    "C111_csv_refuted"
   ],
   "note": "Partial because the property is false of the code: the last buffer of export and CSVWriter::write is written by a destructor that ignores errors (C111_export_refuted, C111_dump_mmap_refuted, C111_csv_refuted). What success does mean is proved for all outcomes of the system calls."
  },
  {
   "property": "C112",
   "status": "partial",
   "theorems": [
    "C112_x86_64",
    "C112_native",
    "C112_byte_order_refuted",
    "C112_word_size_refuted"
   ],
   "note": "Partial because a dump cannot be moved between machines of different layout (C112_byte_order_refuted, C112_word_size_refuted, for every graph). The round trip on any one machine is proved."
  },
  {
   "property": "C113",
   "status": "proved",
   "theorems": [
    "C113_same_edges",
    "C113_one_more",
    "C113_grow",
    "C113_shrink",
    "C113_several"
   ],
   "note": "Answers depend on the set of links only; incremental and batch agree while edges are added."
  },
  {
   "property": "C114",
   "status": "proved",
   "theorems": [
    "C114_shape",
    "C114_traversal",
    "C114_history",
    "C114_panic",
    "C114_reorder_id"
   ],
   "note": "for any two implementations; histories through the GraphMap refinements; raw label ids only in C114_panic"
  },
  {
   "property": "C115",
   "status": "proved",
   "theorems": [
    "C115_enough",
    "C115_bound",
    "C115_release",
    "C115_checked",
    "C115_one_edge"
   ],
   "note": ""
  },
  {
   "property": "C116",
   "status": "proved",
   "theorems": [
    "C116_directed",
    "C116_undirected",
    "C116_components"
   ],
   "note": ""
  },
  {
   "property": "C117",
   "status": "proved",
   "theorems": [
    "C117_rejoin",
    "C117_minus"
   ],
   "note": ""
  },
  {
   "property": "C118",
   "status": "proved",
   "theorems": [
    "C118_history",
    "C118_panic",
    "C118_traversals",
    "C118_components",
    "C118_static"
   ],
   "note": "SpecSym.v gives the translation of calls (both_ways) and the observations compared (stands_for). edge_count is left out on purpose: it counts a repeated add_edge twice (C10)."
  },
  {
   "property": "C119",
   "status": "proved",
   "theorems": [
    "C119_history",
    "C119_static",
    "C119_csv",
    "C119_csv_across",
    "C119_ldbc"
   ],
   "note": "C119_history is equality of model states, not only of answers. For Bfs and Dfs see C77, which already compares two id types."
  },
  {
   "property": "C120",
   "status": "proved",
   "theorems": [
    "C120_future",
    "C120_lists",
    "C120_traversals",
    "C120_results",
    "C120_equal",
    "C120_static",
    "C120_union",
    "C120_minus"
   ],
   "note": "reorder_id is the exception: C120_reorder_differs shows one graph and two orders of its hash map that number its nodes differently."
  },
  {
   "property": "C121",
   "status": "proved",
   "theorems": [
    "C121_counts",
    "C121_total",
    "C121_new",
    "C121_one_call"
   ],
   "note": "The bound is on the sum over a history; C121_one_call shows that no such bound holds for a single lookup. Rounds of the loop are counted, not hash table operations, each round makes five."
  },
  {
   "property": "C122",
   "status": "proved",
   "theorems": [
    "C122_open",
    "C122_last",
    "C122_alone",
    "C122_overwrites",
    "C122_swap"
   ],
   "note": "Files other than those of the prefix may change arbitrarily in between. Deleting files is not an operation of the crate and not modelled. Interrupted dumps under the same prefix are the subject of C38."
  },
  {
   "property": "C123",
   "status": "proved",
   "theorems": [
    "C123_work",
    "C123_bounds",
    "C123_restarts"
   ],
   "note": "Exact counts for every run to the end. FixedBitSet::ones also skips empty words, which are not counted."
  },
  {
   "property": "C124",
   "status": "proved",
   "theorems": [
    "C124_frozen",
    "C124_mapped"
   ],
   "note": "Both theorems hold for every scheme and also when entities share a text. C124_mapped assumes that the label strings are valid UTF-8 and that counts fit in usize, and needs at least one relation, because a dump without edges cannot be opened (C36)."
  },
  {
   "property": "C125",
   "status": "proved",
   "theorems": [
    "C125_ids"
   ],
   "note": "For every scheme, also when entities share a text (then the first of them stands for all). The order of records is that of directory_facts in SpecLdbc.v."
  }
 ]
}