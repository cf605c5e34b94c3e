(** The tests of tests/converter.rs, run on the model: each Rust test is translated statement by
    statement, an assertion that fails panics, and the whole test ends in Ok. They are tests of
    the model against the expectations of the authors of the code, not properties. The hash order
    of every map is taken to be ascending. *)
From Verif Require Import Base Api Map GraphMap Static Reorder RepoTests.

(** test_undirected, tests/converter.rs l.26-52. *)
Example test_undirected :
  (let g : graphmap string string := gm_new in
  let* '(r1, g) := gm_add_node TU32 0 (Some "n"%string) g in
  let* '(r2, g) := gm_add_node TU32 1 (Some "n"%string) g in
  let* '(r3, g) := gm_add_node TU32 2 (Some "m"%string) g in
  let* '(r4, g) := gm_add_node TU32 3 None g in
  let* '(r5, g) := gm_add_edge false TU32 0 1 (Some "a"%string) g in
  let* '(r6, g) := gm_add_edge false TU32 1 2 (Some "b"%string) g in
  let* '(r7, g) := gm_add_edge false TU32 2 0 None g in
  let* g := gm_into_static TU32 TU32 false g in
  let* edges := v_edge_indices (sview false g) in
  let* _ := check (bool_decide (edges = [(0, 1); (0, 2); (1, 2)]%N)) in
  let* r8 := v_node_label (sview false g) 0 in
  let* _ := check (bool_decide (r8 = (Some "n"%string))) in
  let* r9 := v_node_label (sview false g) 1 in
  let* _ := check (bool_decide (r9 = (Some "n"%string))) in
  let* r10 := v_node_label (sview false g) 2 in
  let* _ := check (bool_decide (r10 = (Some "m"%string))) in
  let* r11 := v_node_label (sview false g) 3 in
  let* _ := check (bool_decide (r11 = None)) in
  let* r12 := v_edge_label (sview false g) 0 1 in
  let* _ := check (bool_decide (r12 = (Some "a"%string))) in
  let* r13 := v_edge_label (sview false g) 1 2 in
  let* _ := check (bool_decide (r13 = (Some "b"%string))) in
  let* r14 := v_edge_label (sview false g) 2 0 in
  let* _ := check (bool_decide (r14 = None)) in
  Ok tt) = Ok tt.
Proof. by vm_compute. Qed.

(** test_undirected_reorder, tests/converter.rs l.55-88. *)
Example test_undirected_reorder :
  (let g : graphmap string string := gm_new in
  let* '(r1, g) := gm_add_node TU32 0 (Some "n"%string) g in
  let* '(r2, g) := gm_add_node TU32 1 (Some "n"%string) g in
  let* '(r3, g) := gm_add_node TU32 2 (Some "m"%string) g in
  let* '(r4, g) := gm_add_node TU32 3 None g in
  let* '(r5, g) := gm_add_edge false TU32 0 1 (Some "a"%string) g in
  let* '(r6, g) := gm_add_edge false TU32 1 2 (Some "b"%string) g in
  let* '(r7, g) := gm_add_edge false TU32 2 0 None g in
  let* reorder_result := gm_reorder_id false TU32 TU32 (bt_keys (g_nodes g)) (label_values (node_label_ids g (bt_keys (g_nodes g)))) (label_values (edge_label_ids false g (bt_keys (g_nodes g)))) true true true g in
  let '(o, reorder_result) := rr_take_graph reorder_result in
  let* g := unwrap o in
  let* g := gm_into_static TU32 TU32 false g in
  let* edges := v_edge_indices (sview false g) in
  let* _ := check (bool_decide (edges = [(1, 2); (1, 3); (2, 3)]%N)) in
  let* node0 := rr_find_new_node_id TU32 reorder_result 0 in
  let* node1 := rr_find_new_node_id TU32 reorder_result 1 in
  let* node2 := rr_find_new_node_id TU32 reorder_result 2 in
  let* node3 := rr_find_new_node_id TU32 reorder_result 3 in
  let* h8 := v_node_label (sview false g) node0 in
  let* _ := check (bool_decide (h8 = (Some "n"%string))) in
  let* h9 := v_node_label (sview false g) node1 in
  let* _ := check (bool_decide (h9 = (Some "n"%string))) in
  let* h10 := v_node_label (sview false g) node2 in
  let* _ := check (bool_decide (h10 = (Some "m"%string))) in
  let* h11 := v_node_label (sview false g) node3 in
  let* _ := check (bool_decide (h11 = None)) in
  let* h12 := v_edge_label (sview false g) node0 node1 in
  let* _ := check (bool_decide (h12 = (Some "a"%string))) in
  let* h13 := v_edge_label (sview false g) node1 node2 in
  let* _ := check (bool_decide (h13 = (Some "b"%string))) in
  let* h14 := v_edge_label (sview false g) node0 node2 in
  let* _ := check (bool_decide (h14 = None)) in
  Ok tt) = Ok tt.
Proof. by vm_compute. Qed.

(** test_directed, tests/converter.rs l.91-115. *)
Example test_directed :
  (let g : graphmap string string := gm_new in
  let* '(r1, g) := gm_add_node TU32 0 None g in
  let* '(r2, g) := gm_add_node TU32 1 None g in
  let* '(r3, g) := gm_add_node TU32 2 None g in
  let* '(r4, g) := gm_add_node TU32 3 None g in
  let* '(r5, g) := gm_add_edge true TU32 1 0 (Some "a"%string) g in
  let* '(r6, g) := gm_add_edge true TU32 2 0 (Some "a"%string) g in
  let* '(r7, g) := gm_add_edge true TU32 2 3 (Some "b"%string) g in
  let* '(r8, g) := gm_add_edge true TU32 3 0 (Some "a"%string) g in
  let* '(r9, g) := gm_add_edge true TU32 3 1 (Some "a"%string) g in
  let* '(r10, g) := gm_add_edge true TU32 3 2 (Some "a"%string) g in
  let* reorder_result := gm_reorder_id true TU32 TU32 (bt_keys (g_nodes g)) (label_values (node_label_ids g (bt_keys (g_nodes g)))) (label_values (edge_label_ids true g (bt_keys (g_nodes g)))) true true true g in
  let '(o, reorder_result) := rr_take_graph reorder_result in
  let* g := unwrap o in
  let* g := gm_into_static TU32 TU32 true g in
  let* edges := v_edge_indices (sview true g) in
  let* _ := check (bool_decide (edges = [(0, 1); (2, 1); (2, 3); (3, 0); (3, 1); (3, 2)]%N)) in
  Ok tt) = Ok tt.
Proof. by vm_compute. Qed.
