(** The tests of tests/static_graph.rs, run on the model: each Rust test is translated statement by
    statement, an assertion that fails panics, and the whole test ends in Ok. They are tests of
    the model against the expectations of the authors of the code, not properties. *)
From Verif Require Import Base Api Map GraphMap Static Bytes Mmap Handles ViewOps RepoTests.

(** test_directed, tests/static_graph.rs l.38-96. *)
Example test_directed :
  (let edge_vec := ev_new [0; 2; 3; 4] [1; 2; 0; 0]%N in
  let in_edge_vec := ev_new [0; 2; 3; 4] [1; 2; 0; 0]%N in
  let* g := (sg_new true edge_vec (Some in_edge_vec) None None : res (sgraph N N)) in
  let* _ := check (bool_decide (v_node_count (sview true g) = 3)) in
  let* _ := check (bool_decide (v_edge_count (sview true g) = 4)) in
  let* r1 := v_neighbors (sview true g) 0 in
  let* _ := check (bool_decide (r1 = [1; 2]%N)) in
  let* r2 := v_neighbors (sview true g) 1 in
  let* _ := check (bool_decide (r2 = [0]%N)) in
  let* r3 := v_neighbors (sview true g) 2 in
  let* _ := check (bool_decide (r3 = [0]%N)) in
  let* r4 := v_degree (sview true g) 0 in
  let* _ := check (bool_decide (r4 = 2)) in
  let* r5 := v_degree (sview true g) 1 in
  let* _ := check (bool_decide (r5 = 1)) in
  let* r6 := v_degree (sview true g) 2 in
  let* _ := check (bool_decide (r6 = 1)) in
  let* r7 := v_in_neighbors (sview true g) 0 in
  let* _ := check (bool_decide (r7 = [1; 2]%N)) in
  let* r8 := v_in_neighbors (sview true g) 1 in
  let* _ := check (bool_decide (r8 = [0]%N)) in
  let* r9 := v_in_neighbors (sview true g) 2 in
  let* _ := check (bool_decide (r9 = [0]%N)) in
  let* r10 := v_in_degree (sview true g) 0 in
  let* _ := check (bool_decide (r10 = 2)) in
  let* r11 := v_in_degree (sview true g) 1 in
  let* _ := check (bool_decide (r11 = 1)) in
  let* r12 := v_in_degree (sview true g) 2 in
  let* _ := check (bool_decide (r12 = 1)) in
  let node_0 := (0, None : option N)%N in
  let node_1 := (1, None : option N)%N in
  let node_2 := (2, None : option N)%N in
  let edge_0_1 := (0, 1, None : option N)%N in
  let edge_0_2 := (0, 2, None : option N)%N in
  let edge_1_0 := (1, 0, None : option N)%N in
  let edge_2_0 := (2, 0, None : option N)%N in
  let* h13 := sgh_get_node TU32 g 0 in
  let* h14 := nt_unwrap_staticnode h13 in
  let* _ := check (bool_decide (h14 = node_0)) in
  let* h15 := sgh_get_node TU32 g 1 in
  let* h16 := nt_unwrap_staticnode h15 in
  let* _ := check (bool_decide (h16 = node_1)) in
  let* h17 := sgh_get_node TU32 g 2 in
  let* h18 := nt_unwrap_staticnode h17 in
  let* _ := check (bool_decide (h18 = node_2)) in
  let* h19 := sgh_get_node TU32 g 3 in
  let* _ := check (nt_is_none h19) in
  let* h20 := v_get_edge (sview true g) 0 1 in
  let* h21 := unwrap h20 in
  let* _ := check (bool_decide (h21 = edge_0_1)) in
  let* h22 := v_get_edge (sview true g) 0 2 in
  let* h23 := unwrap h22 in
  let* _ := check (bool_decide (h23 = edge_0_2)) in
  let* h24 := v_get_edge (sview true g) 1 0 in
  let* h25 := unwrap h24 in
  let* _ := check (bool_decide (h25 = edge_1_0)) in
  let* h26 := v_get_edge (sview true g) 2 0 in
  let* h27 := unwrap h26 in
  let* _ := check (bool_decide (h27 = edge_2_0)) in
  let* h28 := v_get_edge (sview true g) 2 3 in
  let* _ := check (bool_decide (h28 = None)) in
  let* nodes := v_nodes (sview true g) in
  let* _ := check (bool_decide (length nodes = 3)) in
  let* h29 := v_get_node (sview true g) 0 in
  let* h30 := unwrap h29 in
  let* _ := check (bool_decide (h30 ∈ nodes)) in
  let* h31 := v_get_node (sview true g) 1 in
  let* h32 := unwrap h31 in
  let* _ := check (bool_decide (h32 ∈ nodes)) in
  let* h33 := v_get_node (sview true g) 2 in
  let* h34 := unwrap h33 in
  let* _ := check (bool_decide (h34 ∈ nodes)) in
  let* edges := v_edges (sview true g) in
  let* _ := check (bool_decide (length edges = 4)) in
  let* h35 := v_get_edge (sview true g) 0 1 in
  let* h36 := unwrap h35 in
  let* _ := check (bool_decide (h36 ∈ edges)) in
  let* h37 := v_get_edge (sview true g) 0 2 in
  let* h38 := unwrap h37 in
  let* _ := check (bool_decide (h38 ∈ edges)) in
  let* h39 := v_get_edge (sview true g) 1 0 in
  let* h40 := unwrap h39 in
  let* _ := check (bool_decide (h40 ∈ edges)) in
  let* h41 := v_get_edge (sview true g) 2 0 in
  let* h42 := unwrap h41 in
  let* _ := check (bool_decide (h42 ∈ edges)) in
  Ok tt) = Ok tt.
Proof. by vm_compute. Qed.

(** test_undirected, tests/static_graph.rs l.99-104. *)
Example test_undirected :
  (let edge_vec := ev_new [0; 2; 4; 6] [1; 2; 0; 2; 0; 1]%N in
  let* g := (sg_new false edge_vec None None None : res (sgraph N N)) in
  let* edges := v_edge_indices (sview false g) in
  let* _ := check (bool_decide (edges = [(0, 1); (0, 2); (1, 2)]%N)) in
  Ok tt) = Ok tt.
Proof. by vm_compute. Qed.

(** test_labeled, tests/static_graph.rs l.107-164. *)
Example test_labeled :
  (let* edge_vec := ev_with_labels [0; 2; 3; 4] [1; 2; 0; 0]%N [0; 1; 0; 1]%N in
  let in_edge_vec := ev_new [0; 2; 3; 4] [1; 2; 0; 0]%N in
  let labels := [1; 0; 1]%N in
  let ab := sm_from_vec ["a"; "b"]%string in
  let* g := sg_with_labels true edge_vec (Some in_edge_vec) labels ab ab None None in
  let* r1 := v_node_label (sview true g) 0 in
  let* _ := check (bool_decide (r1 = (Some "b"%string))) in
  let* r2 := v_node_label (sview true g) 1 in
  let* _ := check (bool_decide (r2 = (Some "a"%string))) in
  let* r3 := v_node_label (sview true g) 2 in
  let* _ := check (bool_decide (r3 = (Some "b"%string))) in
  let* r4 := v_node_label (sview true g) 4 in
  let* _ := check (bool_decide (r4 = None)) in
  let* r5 := v_edge_label (sview true g) 0 1 in
  let* _ := check (bool_decide (r5 = (Some "a"%string))) in
  let* r6 := v_edge_label (sview true g) 0 2 in
  let* _ := check (bool_decide (r6 = (Some "b"%string))) in
  let* r7 := v_edge_label (sview true g) 1 0 in
  let* _ := check (bool_decide (r7 = (Some "a"%string))) in
  let* r8 := v_edge_label (sview true g) 2 0 in
  let* _ := check (bool_decide (r8 = (Some "b"%string))) in
  let* r9 := v_edge_label (sview true g) 2 3 in
  let* _ := check (bool_decide (r9 = None)) in
  let node_0 := (0, (Some 1%N) : option N)%N in
  let node_1 := (1, (Some 0%N) : option N)%N in
  let node_2 := (2, (Some 1%N) : option N)%N in
  let edge_0_1 := (0, 1, (Some 0%N) : option N)%N in
  let edge_0_2 := (0, 2, (Some 1%N) : option N)%N in
  let edge_1_0 := (1, 0, (Some 0%N) : option N)%N in
  let edge_2_0 := (2, 0, (Some 1%N) : option N)%N in
  let* h10 := sgh_get_node TU32 g 0 in
  let* h11 := nt_unwrap_staticnode h10 in
  let* _ := check (bool_decide (h11 = node_0)) in
  let* h12 := sgh_get_node TU32 g 1 in
  let* h13 := nt_unwrap_staticnode h12 in
  let* _ := check (bool_decide (h13 = node_1)) in
  let* h14 := sgh_get_node TU32 g 2 in
  let* h15 := nt_unwrap_staticnode h14 in
  let* _ := check (bool_decide (h15 = node_2)) in
  let* h16 := sgh_get_node TU32 g 3 in
  let* _ := check (nt_is_none h16) in
  let* h17 := v_get_edge (sview true g) 0 1 in
  let* h18 := unwrap h17 in
  let* _ := check (bool_decide (h18 = edge_0_1)) in
  let* h19 := v_get_edge (sview true g) 0 2 in
  let* h20 := unwrap h19 in
  let* _ := check (bool_decide (h20 = edge_0_2)) in
  let* h21 := v_get_edge (sview true g) 1 0 in
  let* h22 := unwrap h21 in
  let* _ := check (bool_decide (h22 = edge_1_0)) in
  let* h23 := v_get_edge (sview true g) 2 0 in
  let* h24 := unwrap h23 in
  let* _ := check (bool_decide (h24 = edge_2_0)) in
  let* h25 := v_get_edge (sview true g) 2 3 in
  let* _ := check (bool_decide (h25 = None)) in
  let* nodes := v_nodes (sview true g) in
  let* _ := check (bool_decide (length nodes = 3)) in
  let* h26 := v_get_node (sview true g) 0 in
  let* h27 := unwrap h26 in
  let* _ := check (bool_decide (h27 ∈ nodes)) in
  let* h28 := v_get_node (sview true g) 1 in
  let* h29 := unwrap h28 in
  let* _ := check (bool_decide (h29 ∈ nodes)) in
  let* h30 := v_get_node (sview true g) 2 in
  let* h31 := unwrap h30 in
  let* _ := check (bool_decide (h31 ∈ nodes)) in
  let* edges := v_edges (sview true g) in
  let* _ := check (bool_decide (length edges = 4)) in
  let* h32 := v_get_edge (sview true g) 0 1 in
  let* h33 := unwrap h32 in
  let* _ := check (bool_decide (h33 ∈ edges)) in
  let* h34 := v_get_edge (sview true g) 0 2 in
  let* h35 := unwrap h34 in
  let* _ := check (bool_decide (h35 ∈ edges)) in
  let* h36 := v_get_edge (sview true g) 1 0 in
  let* h37 := unwrap h36 in
  let* _ := check (bool_decide (h37 ∈ edges)) in
  let* h38 := v_get_edge (sview true g) 2 0 in
  let* h39 := unwrap h38 in
  let* _ := check (bool_decide (h39 ∈ edges)) in
  Ok tt) = Ok tt.
Proof. by vm_compute. Qed.

(** test_clone, tests/static_graph.rs l.167-172. *)
Example test_clone :
  (let edge_vec := ev_new [0; 2; 3; 4] [1; 2; 0; 0]%N in
  let in_edge_vec := ev_new [0; 2; 3; 4] [1; 2; 0; 0]%N in
  let* g := (sg_new true edge_vec (Some in_edge_vec) None None : res (sgraph N N)) in
  let* b := graph_eq (sview true g) (sview true g) in
  let* _ := check (b) in
  Ok tt) = Ok tt.
Proof. by vm_compute. Qed.
