(** The tests of tests/graph_map.rs, run on the model: each Rust test is translated statement by
    statement, an assertion that fails panics, and the whole test ends in Ok. They are tests of
    the model against the expectations of the authors of the code, not properties. The hash order
    of every node map is taken to be ascending. test_iter_mut looks at nodes_mut and edges_mut,
    whose items are those of nodes and edges. *)
From Verif Require Import Base Api Map GraphMap Handles LabelIds ViewOps RepoTests.

(** test_add_get_node, tests/graph_map.rs l.31-53. *)
Example test_add_get_node :
  (let g : graphmap string string := gm_new in
  let* '(r1, g) := gm_add_node TU32 0 (Some "a"%string) g in
  let* _ := check (bool_decide (v_node_count (view false g) = 1)) in
  let* '(r2, g) := gm_add_node TU32 1 (Some "b"%string) g in
  let* _ := check (bool_decide (v_node_count (view false g) = 2)) in
  let* '(r3, g) := gm_add_node TU32 2 (Some "a"%string) g in
  let* _ := check (bool_decide (v_node_count (view false g) = 3)) in
  let* '(r4, g) := gm_add_node TU32 3 None g in
  let* _ := check (bool_decide (v_node_count (view false g) = 4)) in
  let n0_expected := nm_new 0 (Some 0%N) in
  let n1_expected := nm_new 1 (Some 1%N) in
  let n2_expected := nm_new 2 (Some 0%N) in
  let n3_expected := nm_new 3 None in
  let* h5 := nt_unwrap_nodemap (gmh_get_node g 0) in
  let* _ := check (bool_decide (h5 = n0_expected)) in
  let* h6 := nt_unwrap_nodemap (gmh_get_node g 1) in
  let* _ := check (bool_decide (h6 = n1_expected)) in
  let* _ := check (bool_decide (gmh_get_node_mut g 2 = MNNodeMap n2_expected)) in
  let* _ := check (bool_decide (gmh_get_node_mut g 3 = MNNodeMap n3_expected)) in
  let* _ := check (nt_is_none (gmh_get_node g 4)) in
  Ok tt) = Ok tt.
Proof. by vm_compute. Qed.

(** test_duplicate_node, tests/graph_map.rs l.56-61. *)
Example test_duplicate_node :
  (let g : graphmap string string := gm_new in
  let* '(r1, g) := gm_add_node TU32 0 (Some "a"%string) g in
  let* '(r2, g) := gm_add_node TU32 0 None g in
  let* _ := check (negb (r2)) in
  Ok tt) = Ok tt.
Proof. by vm_compute. Qed.

(** test_remove_node_directed, tests/graph_map.rs l.64-85. *)
Example test_remove_node_directed :
  (let g : graphmap string string := gm_new in
  let* '(r1, g) := gm_add_node TU32 0 None g in
  let* '(r2, g) := gm_add_node TU32 1 None g in
  let* '(r3, g) := gm_add_node TU32 2 None g in
  let* '(r4, g) := gm_add_edge true TU32 0 1 None g in
  let* '(r5, g) := gm_add_edge true TU32 0 2 None g in
  let* '(r6, g) := gm_add_edge true TU32 1 0 None g in
  let* '(r7, g) := gm_remove_node true 0 g in
  let* _ := check (bool_decide (v_node_count (view true g) = 2)) in
  let* _ := check (bool_decide (v_edge_count (view true g) = 0)) in
  let* _ := check (negb (v_has_node (view true g) 0)) in
  let* r8 := v_has_edge (view true g) 0 1 in
  let* _ := check (negb (r8)) in
  let* r9 := v_has_edge (view true g) 0 2 in
  let* _ := check (negb (r9)) in
  let* r10 := v_has_edge (view true g) 1 0 in
  let* _ := check (negb (r10)) in
  Ok tt) = Ok tt.
Proof. by vm_compute. Qed.

(** test_remove_node_undirected, tests/graph_map.rs l.88-110. *)
Example test_remove_node_undirected :
  (let g : graphmap string string := gm_new in
  let* '(r1, g) := gm_add_node TU32 0 None g in
  let* '(r2, g) := gm_add_node TU32 1 None g in
  let* '(r3, g) := gm_add_node TU32 2 None g in
  let* '(r4, g) := gm_add_edge false TU32 0 1 None g in
  let* '(r5, g) := gm_add_edge false TU32 0 2 None g in
  let* '(r6, g) := gm_add_edge false TU32 1 2 None g in
  let* '(r7, g) := gm_remove_node false 0 g in
  let* _ := check (bool_decide (v_node_count (view false g) = 2)) in
  let* _ := check (bool_decide (v_edge_count (view false g) = 1)) in
  let* _ := check (negb (v_has_node (view false g) 0)) in
  let* r8 := v_has_edge (view false g) 0 1 in
  let* _ := check (negb (r8)) in
  let* r9 := v_has_edge (view false g) 1 0 in
  let* _ := check (negb (r9)) in
  let* r10 := v_has_edge (view false g) 0 2 in
  let* _ := check (negb (r10)) in
  let* r11 := v_has_edge (view false g) 2 0 in
  let* _ := check (negb (r11)) in
  Ok tt) = Ok tt.
Proof. by vm_compute. Qed.

(** test_add_get_edge_directed, tests/graph_map.rs l.113-150. *)
Example test_add_get_edge_directed :
  (let g : graphmap string string := gm_new in
  let* '(r1, g) := gm_add_node TU32 0 None g in
  let* '(r2, g) := gm_add_node TU32 1 None g in
  let* '(r3, g) := gm_add_node TU32 2 None g in
  let* '(r4, g) := gm_add_edge true TU32 0 1 (Some "a"%string) g in
  let* _ := check (bool_decide (v_edge_count (view true g) = 1)) in
  let* '(r5, g) := gm_add_edge true TU32 1 2 (Some "b"%string) g in
  let* _ := check (bool_decide (v_edge_count (view true g) = 2)) in
  let* '(r6, g) := gm_add_edge true TU32 2 0 (Some "a"%string) g in
  let* _ := check (bool_decide (v_edge_count (view true g) = 3)) in
  let* '(r7, g) := gm_add_edge true TU32 1 0 None g in
  let* _ := check (bool_decide (v_edge_count (view true g) = 4)) in
  let* '(r8, g) := gm_add_edge true TU32 0 0 None g in
  let* _ := check (bool_decide (v_edge_count (view true g) = 5)) in
  let e0_expected := (0, 1, (Some 0%N) : option N)%N in
  let e1_expected := (1, 2, (Some 1%N) : option N)%N in
  let e2_expected := Some 0%N in
  let* h9 := gmh_get_edge g 0 1 in
  let* h10 := et_unwrap h9 in
  let* _ := check (bool_decide (h10 = e0_expected)) in
  let* h11 := gmh_get_edge g 1 2 in
  let* h12 := et_unwrap h11 in
  let* _ := check (bool_decide (h12 = e1_expected)) in
  let* h13 := gmh_get_edge_mut g 2 0 in
  let* _ := check (bool_decide (h13 = MEEdgeRef 2 0 e2_expected)) in
  let* h14 := gmh_get_edge_mut g 1 0 in
  let* _ := check (bool_decide (h14 = MEEdgeRef 1 0 None)) in
  let* h15 := gmh_get_edge g 1 3 in
  let* _ := check (et_is_none h15) in
  let* h16 := gmh_get_edge_mut g 2 1 in
  let* _ := check (me_is_none h16) in
  let* r17 := v_has_edge (view true g) 0 0 in
  let* _ := check (r17) in
  Ok tt) = Ok tt.
Proof. by vm_compute. Qed.

(** test_add_get_edge_undirected, tests/graph_map.rs l.153-191. *)
Example test_add_get_edge_undirected :
  (let g : graphmap string string := gm_new in
  let* '(r1, g) := gm_add_node TU32 0 None g in
  let* '(r2, g) := gm_add_node TU32 1 None g in
  let* '(r3, g) := gm_add_node TU32 2 None g in
  let* '(r4, g) := gm_add_node TU32 3 None g in
  let* '(r5, g) := gm_add_edge false TU32 0 1 (Some "a"%string) g in
  let* _ := check (bool_decide (v_edge_count (view false g) = 1)) in
  let* '(r6, g) := gm_add_edge false TU32 1 2 (Some "b"%string) g in
  let* _ := check (bool_decide (v_edge_count (view false g) = 2)) in
  let* '(r7, g) := gm_add_edge false TU32 2 0 (Some "a"%string) g in
  let* _ := check (bool_decide (v_edge_count (view false g) = 3)) in
  let* '(r8, g) := gm_add_edge false TU32 0 0 None g in
  let* _ := check (bool_decide (v_edge_count (view false g) = 4)) in
  let e0_expected := (0, 1, (Some 0%N) : option N)%N in
  let e1_expected := (1, 2, (Some 1%N) : option N)%N in
  let e1_expected_1 := (2, 1, (Some 1%N) : option N)%N in
  let e2_expected := Some 0%N in
  let* h9 := gmh_get_edge g 0 1 in
  let* h10 := et_unwrap h9 in
  let* _ := check (bool_decide (h10 = e0_expected)) in
  let* h11 := gmh_get_edge g 1 2 in
  let* h12 := et_unwrap h11 in
  let* _ := check (bool_decide (h12 = e1_expected)) in
  let* h13 := gmh_get_edge g 2 1 in
  let* h14 := et_unwrap h13 in
  let* _ := check (bool_decide (h14 = e1_expected_1)) in
  let* h15 := gmh_get_edge_mut g 2 0 in
  let* _ := check (bool_decide (h15 = MEEdgeRef 2 0 e2_expected)) in
  let* h16 := gmh_get_edge_mut g 0 2 in
  let* _ := check (bool_decide (h16 = MEEdgeRef 0 2 e2_expected)) in
  let* h17 := gmh_get_edge g 1 3 in
  let* _ := check (et_is_none h17) in
  let* h18 := gmh_get_edge_mut g 0 3 in
  let* _ := check (me_is_none h18) in
  let* r19 := v_has_edge (view false g) 0 0 in
  let* _ := check (r19) in
  Ok tt) = Ok tt.
Proof. by vm_compute. Qed.

(** test_multi_adding, tests/graph_map.rs l.194-216. *)
Example test_multi_adding :
  (let g : graphmap string string := gm_new in
  let* '(r1, g) := gm_add_node TU32 0 None g in
  let* '(r2, g) := gm_add_node TU32 1 None g in
  let* '(r3, g) := gm_add_edge true TU32 0 1 None g in
  let* '(r4, g) := gm_add_node TU32 0 (Some "label"%string) g in
  let* _ := check (negb (r4)) in
  let* r5 := v_node_label (view true g) 0 in
  let* _ := check (bool_decide (r5 = (Some "label"%string))) in
  let* '(r6, g) := gm_add_edge true TU32 0 1 (Some "label"%string) g in
  let* _ := check (negb (r6)) in
  let* r7 := v_edge_label (view true g) 0 1 in
  let* _ := check (bool_decide (r7 = (Some "label"%string))) in
  let g : graphmap string string := gm_new in
  let* '(r8, g) := gm_add_node TU32 0 None g in
  let* '(r9, g) := gm_add_node TU32 1 None g in
  let* '(r10, g) := gm_add_edge false TU32 0 1 None g in
  let* '(r11, g) := gm_add_node TU32 0 (Some "label"%string) g in
  let* _ := check (negb (r11)) in
  let* r12 := v_node_label (view false g) 0 in
  let* _ := check (bool_decide (r12 = (Some "label"%string))) in
  let* '(r13, g) := gm_add_edge false TU32 1 0 (Some "label"%string) g in
  let* _ := check (negb (r13)) in
  let* r14 := v_edge_label (view false g) 0 1 in
  let* _ := check (bool_decide (r14 = (Some "label"%string))) in
  Ok tt) = Ok tt.
Proof. by vm_compute. Qed.

(** test_remove_edge_directed, tests/graph_map.rs l.219-242. *)
Example test_remove_edge_directed :
  (let g : graphmap string string := gm_new in
  let* '(r1, g) := gm_add_node TU32 0 None g in
  let* '(r2, g) := gm_add_node TU32 1 None g in
  let* '(r3, g) := gm_add_node TU32 2 None g in
  let* '(r4, g) := gm_add_edge true TU32 0 1 None g in
  let* '(r5, g) := gm_add_edge true TU32 1 0 None g in
  let* '(r6, g) := gm_add_edge true TU32 1 2 None g in
  let* '(r7, g) := gm_remove_edge true 0 1 g in
  let* _ := check (bool_decide (v_edge_count (view true g) = 2)) in
  let* r8 := v_has_edge (view true g) 0 1 in
  let* _ := check (negb (r8)) in
  let* h9 := nt_unwrap_nodemap (gmh_get_node g 0) in
  let* _ := check (negb (bool_decide (1%N ∈ nm_neighbors h9))) in
  let* h10 := nt_unwrap_nodemap (gmh_get_node g 1) in
  let* _ := check (negb (bool_decide (0%N ∈ nm_in_neighbors h10))) in
  let* '(r11, g) := gm_remove_edge true 1 2 g in
  let* _ := check (bool_decide (v_edge_count (view true g) = 1)) in
  let* r12 := v_has_edge (view true g) 1 2 in
  let* _ := check (negb (r12)) in
  let* h13 := nt_unwrap_nodemap (gmh_get_node g 1) in
  let* _ := check (negb (bool_decide (2%N ∈ nm_neighbors h13))) in
  let* h14 := nt_unwrap_nodemap (gmh_get_node g 2) in
  let* _ := check (negb (bool_decide (1%N ∈ nm_in_neighbors h14))) in
  let* r15 := v_has_edge (view true g) 1 0 in
  let* _ := check (r15) in
  Ok tt) = Ok tt.
Proof. by vm_compute. Qed.

(** test_remove_edge_undirected, tests/graph_map.rs l.245-263. *)
Example test_remove_edge_undirected :
  (let g : graphmap string string := gm_new in
  let* '(r1, g) := gm_add_node TU32 0 None g in
  let* '(r2, g) := gm_add_node TU32 1 None g in
  let* '(r3, g) := gm_add_node TU32 2 None g in
  let* '(r4, g) := gm_add_edge false TU32 0 1 None g in
  let* '(r5, g) := gm_add_edge false TU32 2 1 None g in
  let* '(r6, g) := gm_remove_edge false 1 0 g in
  let* _ := check (bool_decide (v_edge_count (view false g) = 1)) in
  let* r7 := v_has_edge (view false g) 0 1 in
  let* _ := check (negb (r7)) in
  let* h8 := nt_unwrap_nodemap (gmh_get_node g 0) in
  let* _ := check (negb (bool_decide (1%N ∈ nm_neighbors h8))) in
  let* h9 := nt_unwrap_nodemap (gmh_get_node g 1) in
  let* _ := check (negb (bool_decide (0%N ∈ nm_neighbors h9))) in
  let* '(r10, g) := gm_remove_edge false 1 2 g in
  let* _ := check (bool_decide (v_edge_count (view false g) = 0)) in
  let* h11 := nt_unwrap_nodemap (gmh_get_node g 1) in
  let* _ := check (negb (bool_decide (2%N ∈ nm_neighbors h11))) in
  let* h12 := nt_unwrap_nodemap (gmh_get_node g 2) in
  let* _ := check (negb (bool_decide (1%N ∈ nm_neighbors h12))) in
  Ok tt) = Ok tt.
Proof. by vm_compute. Qed.

(** test_get_node_edge_label, tests/graph_map.rs l.266-278. *)
Example test_get_node_edge_label :
  (let g : graphmap string string := gm_new in
  let* '(r1, g) := gm_add_node TU32 0 (Some "0"%string) g in
  let* '(r2, g) := gm_add_node TU32 1 None g in
  let* '(r3, g) := gm_add_edge true TU32 0 1 (Some "(0,1)"%string) g in
  let* '(r4, g) := gm_add_edge true TU32 1 0 None g in
  let* r5 := v_node_label (view true g) 0 in
  let* _ := check (bool_decide (r5 = (Some "0"%string))) in
  let* r6 := v_node_label (view true g) 1 in
  let* _ := check (bool_decide (r6 = None)) in
  let* r7 := v_edge_label (view true g) 0 1 in
  let* _ := check (bool_decide (r7 = (Some "(0,1)"%string))) in
  let* r8 := v_edge_label (view true g) 1 0 in
  let* _ := check (bool_decide (r8 = None)) in
  Ok tt) = Ok tt.
Proof. by vm_compute. Qed.

(** test_iter, tests/graph_map.rs l.281-328. *)
Example test_iter :
  (let g : graphmap string string := gm_new in
  let* '(r1, g) := gm_add_node TU32 0 (Some "0"%string) g in
  let* '(r2, g) := gm_add_node TU32 1 (Some "1"%string) g in
  let* '(r3, g) := gm_add_node TU32 2 None g in
  let* '(r4, g) := gm_add_edge true TU32 0 1 (Some "(0,1)"%string) g in
  let* '(r5, g) := gm_add_edge true TU32 1 0 (Some "(1,0)"%string) g in
  let* '(r6, g) := gm_add_edge true TU32 1 2 None g in
  let node_ids := v_node_indices (view true g) in
  let* _ := check (bool_decide (length node_ids = 3)) in
  let* _ := check (bool_decide (0%N ∈ node_ids)) in
  let* _ := check (bool_decide (1%N ∈ node_ids)) in
  let* _ := check (bool_decide (2%N ∈ node_ids)) in
  let* edge_ids := v_edge_indices (view true g) in
  let* _ := check (bool_decide (length edge_ids = 3)) in
  let* _ := check (bool_decide ((0, 1)%N ∈ edge_ids)) in
  let* _ := check (bool_decide ((1, 0)%N ∈ edge_ids)) in
  let* _ := check (bool_decide ((1, 2)%N ∈ edge_ids)) in
  let* nodes := v_nodes (view true g) in
  let* _ := check (bool_decide (length nodes = 3)) in
  let* h7 := v_get_node (view true g) 0 in
  let* h8 := unwrap h7 in
  let* _ := check (bool_decide (h8 ∈ nodes)) in
  let* h9 := v_get_node (view true g) 1 in
  let* h10 := unwrap h9 in
  let* _ := check (bool_decide (h10 ∈ nodes)) in
  let* h11 := v_get_node (view true g) 2 in
  let* h12 := unwrap h11 in
  let* _ := check (bool_decide (h12 ∈ nodes)) in
  let* edges := v_edges (view true g) in
  let* _ := check (bool_decide (length edges = 3)) in
  let* h13 := v_get_edge (view true g) 0 1 in
  let* h14 := unwrap h13 in
  let* _ := check (bool_decide (h14 ∈ edges)) in
  let* h15 := v_get_edge (view true g) 1 0 in
  let* h16 := unwrap h15 in
  let* _ := check (bool_decide (h16 ∈ edges)) in
  let* h17 := v_get_edge (view true g) 1 2 in
  let* h18 := unwrap h17 in
  let* _ := check (bool_decide (h18 ∈ edges)) in
  let node_labels := v_node_label_map (view true g) in
  let* _ := check (bool_decide (length node_labels = 2)) in
  let* _ := check (bool_decide ("0"%string ∈ node_labels)) in
  let* _ := check (bool_decide ("1"%string ∈ node_labels)) in
  let edge_labels := v_edge_label_map (view true g) in
  let* _ := check (bool_decide (length edge_labels = 2)) in
  let* _ := check (bool_decide ("(0,1)"%string ∈ edge_labels)) in
  let* _ := check (bool_decide ("(1,0)"%string ∈ edge_labels)) in
  let* neighbors_of_1 := v_neighbors (view true g) 1 in
  let* _ := check (bool_decide (length neighbors_of_1 = 2)) in
  let* _ := check (bool_decide (0%N ∈ neighbors_of_1)) in
  let* _ := check (bool_decide (2%N ∈ neighbors_of_1)) in
  Ok tt) = Ok tt.
Proof. by vm_compute. Qed.

(** test_neighbors, tests/graph_map.rs l.360-381. *)
Example test_neighbors :
  (let g : graphmap N N := gm_new in
  let* '(r1, g) := gm_add_node TU32 0 (Some 0%N) g in
  let* '(r2, g) := gm_add_node TU32 1 (Some 0%N) g in
  let* '(r3, g) := gm_add_node TU32 2 None g in
  let* '(r4, g) := gm_add_edge true TU32 0 1 (Some 0%N) g in
  let* '(r5, g) := gm_add_edge true TU32 0 2 (Some 0%N) g in
  let* '(r6, g) := gm_add_edge true TU32 2 1 None g in
  let* r7 := v_neighbors (view true g) 0 in
  let* _ := check (bool_decide (r7 = [1; 2]%N)) in
  let* r8 := v_in_neighbors (view true g) 1 in
  let* _ := check (bool_decide (r8 = [0; 2]%N)) in
  let* r9 := v_degree (view true g) 0 in
  let* _ := check (bool_decide (r9 = 2)) in
  let* r10 := v_in_degree (view true g) 1 in
  let* _ := check (bool_decide (r10 = 2)) in
  let* r11 := v_neighbors (view true g) 1 in
  let* _ := check (bool_decide (r11 = [])) in
  let* r12 := v_in_neighbors (view true g) 0 in
  let* _ := check (bool_decide (r12 = [])) in
  let* r13 := v_degree (view true g) 1 in
  let* _ := check (bool_decide (r13 = 0)) in
  let* r14 := v_in_degree (view true g) 0 in
  let* _ := check (bool_decide (r14 = 0)) in
  Ok tt) = Ok tt.
Proof. by vm_compute. Qed.

(** test_max_id, tests/graph_map.rs l.384-403. *)
Example test_max_id :
  (let g : graphmap N N := gm_new in
  let* r1 := v_max_seen_id (view true g) in
  let* _ := check (bool_decide (r1 = None)) in
  let* '(r2, g) := gm_add_node TU32 1 (Some 0%N) g in
  let* r3 := v_max_seen_id (view true g) in
  let* _ := check (bool_decide (r3 = (Some 1%N))) in
  let* '(r4, g) := gm_add_node TU32 0 (Some 0%N) g in
  let* r5 := v_max_seen_id (view true g) in
  let* _ := check (bool_decide (r5 = (Some 1%N))) in
  let* '(r6, g) := gm_add_node TU32 2 None g in
  let* r7 := v_max_seen_id (view true g) in
  let* _ := check (bool_decide (r7 = (Some 2%N))) in
  let* '(r8, g) := gm_add_edge true TU32 3 4 (Some 0%N) g in
  let* r9 := v_max_seen_id (view true g) in
  let* _ := check (bool_decide (r9 = (Some 4%N))) in
  let* '(r10, g) := gm_add_edge true TU32 6 5 (Some 0%N) g in
  let* r11 := v_max_seen_id (view true g) in
  let* _ := check (bool_decide (r11 = (Some 6%N))) in
  Ok tt) = Ok tt.
Proof. by vm_compute. Qed.

(** test_clone, tests/graph_map.rs l.406-419. *)
Example test_clone :
  (let g : graphmap N N := gm_new in
  let* '(r1, g) := gm_add_node TU32 0 (Some 0%N) g in
  let* '(r2, g) := gm_add_node TU32 1 (Some 0%N) g in
  let* '(r3, g) := gm_add_node TU32 2 (Some 1%N) g in
  let* '(r4, g) := gm_add_node TU32 3 None g in
  let* '(r5, g) := gm_add_edge true TU32 0 1 (Some 0%N) g in
  let* '(r6, g) := gm_add_edge true TU32 1 2 (Some 0%N) g in
  let* '(r7, g) := gm_add_edge true TU32 2 3 (Some 1%N) g in
  let* '(r8, g) := gm_add_edge true TU32 3 1 None g in
  let* b := graph_eq (view true g) (view true g) in
  let* _ := check (b) in
  Ok tt) = Ok tt.
Proof. by vm_compute. Qed.

(** test_stats, tests/graph_map.rs l.422-440. *)
Example test_stats :
  (let g : graphmap N N := gm_new in
  let* '(r1, g) := gm_add_node TU32 0 (Some 0%N) g in
  let* '(r2, g) := gm_add_node TU32 1 (Some 0%N) g in
  let* '(r3, g) := gm_add_node TU32 2 (Some 1%N) g in
  let* '(r4, g) := gm_add_node TU32 3 None g in
  let* '(r5, g) := gm_add_edge true TU32 0 1 (Some 0%N) g in
  let* '(r6, g) := gm_add_edge true TU32 1 2 (Some 0%N) g in
  let* '(r7, g) := gm_add_edge true TU32 2 3 (Some 1%N) g in
  let* '(r8, g) := gm_add_edge true TU32 3 1 None g in
  let expected_counter : gmap N nat := ∅ in
  let expected_counter := <[0%N := 2]> expected_counter in
  let expected_counter := <[1%N := 1]> expected_counter in
  let* h9 := v_node_label_id_counter (view true g) in
  let* _ := check (bool_decide (counter_map h9 = expected_counter)) in
  let* h10 := v_edge_label_id_counter (view true g) in
  let* _ := check (bool_decide (counter_map h10 = expected_counter)) in
  Ok tt) = Ok tt.
Proof. by vm_compute. Qed.
