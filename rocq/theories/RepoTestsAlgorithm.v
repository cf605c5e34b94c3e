(** The tests of tests/algorithm.rs, run on the model: each Rust test is translated statement by
    statement, an assertion that fails panics, and the whole test ends in Ok. They are tests of
    the model against the expectations of the authors of the code, not properties. The hash order
    of every node map is taken to be ascending. *)
From Verif Require Import Base Api Map GraphMap ConnComp Traverse GraphOps RepoTests.

(** test_cc_undirected_one_component, tests/algorithm.rs l.28-44. *)
Example test_cc_undirected_one_component :
  (let graph : graphmap N N := gm_new in
  let* '(r1, graph) := gm_add_edge false TU32 1 2 None graph in
  let* '(r2, graph) := gm_add_edge false TU32 2 3 None graph in
  let* cc := cc_new (view false graph) in
  let* _ := check (bool_decide (cc_get_count cc = 1)) in
  let* '(r3, cc) := cc_is_connected 1 2 cc in
  let* _ := check (bool_decide (r3 = true)) in
  let* '(r4, cc) := cc_is_connected 2 3 cc in
  let* _ := check (bool_decide (r4 = true)) in
  let* '(r5, cc) := cc_is_connected 1 3 cc in
  let* _ := check (bool_decide (r5 = true)) in
  let* '(r6, cc) := cc_get_connected_nodes (bt_keys (cc_parent cc)) 1 cc in
  let* r7 := unwrap r6 in
  let* _ := check (bool_decide (length r7 = 3)) in
  let* '(r8, cc) := cc_get_connected_nodes (bt_keys (cc_parent cc)) 2 cc in
  let* r9 := unwrap r8 in
  let* _ := check (bool_decide (length r9 = 3)) in
  let* '(r10, cc) := cc_get_connected_nodes (bt_keys (cc_parent cc)) 3 cc in
  let* r11 := unwrap r10 in
  let* _ := check (bool_decide (length r11 = 3)) in
  Ok tt) = Ok tt.
Proof. by vm_compute. Qed.

(** test_cc_undirected_seperate_components, tests/algorithm.rs l.47-67. *)
Example test_cc_undirected_seperate_components :
  (let graph : graphmap N N := gm_new in
  let* '(r1, graph) := gm_add_edge false TU32 1 2 None graph in
  let* '(r2, graph) := gm_add_edge false TU32 3 4 None graph in
  let* cc := cc_new (view false graph) in
  let* _ := check (bool_decide (cc_get_count cc = 2)) in
  let* '(r3, cc) := cc_is_connected 1 2 cc in
  let* _ := check (bool_decide (r3 = true)) in
  let* '(r4, cc) := cc_is_connected 2 3 cc in
  let* _ := check (bool_decide (r4 = false)) in
  let* '(r5, cc) := cc_is_connected 1 3 cc in
  let* _ := check (bool_decide (r5 = false)) in
  let* '(r6, cc) := cc_is_connected 1 4 cc in
  let* _ := check (bool_decide (r6 = false)) in
  let* '(r7, cc) := cc_is_connected 2 4 cc in
  let* _ := check (bool_decide (r7 = false)) in
  let* '(r8, cc) := cc_is_connected 3 4 cc in
  let* _ := check (bool_decide (r8 = true)) in
  let* '(r9, cc) := cc_get_connected_nodes (bt_keys (cc_parent cc)) 1 cc in
  let* r10 := unwrap r9 in
  let* _ := check (bool_decide (length r10 = 2)) in
  let* '(r11, cc) := cc_get_connected_nodes (bt_keys (cc_parent cc)) 2 cc in
  let* r12 := unwrap r11 in
  let* _ := check (bool_decide (length r12 = 2)) in
  let* '(r13, cc) := cc_get_connected_nodes (bt_keys (cc_parent cc)) 3 cc in
  let* r14 := unwrap r13 in
  let* _ := check (bool_decide (length r14 = 2)) in
  let* '(r15, cc) := cc_get_connected_nodes (bt_keys (cc_parent cc)) 4 cc in
  let* r16 := unwrap r15 in
  let* _ := check (bool_decide (length r16 = 2)) in
  Ok tt) = Ok tt.
Proof. by vm_compute. Qed.

(** test_cc_directed_one_component, tests/algorithm.rs l.70-86. *)
Example test_cc_directed_one_component :
  (let graph : graphmap N N := gm_new in
  let* '(r1, graph) := gm_add_edge true TU32 1 2 None graph in
  let* '(r2, graph) := gm_add_edge true TU32 2 3 None graph in
  let* cc := cc_new (view true graph) in
  let* _ := check (bool_decide (cc_get_count cc = 1)) in
  let* '(r3, cc) := cc_is_connected 1 2 cc in
  let* _ := check (bool_decide (r3 = true)) in
  let* '(r4, cc) := cc_is_connected 2 3 cc in
  let* _ := check (bool_decide (r4 = true)) in
  let* '(r5, cc) := cc_is_connected 1 3 cc in
  let* _ := check (bool_decide (r5 = true)) in
  let* '(r6, cc) := cc_get_connected_nodes (bt_keys (cc_parent cc)) 1 cc in
  let* r7 := unwrap r6 in
  let* _ := check (bool_decide (length r7 = 3)) in
  let* '(r8, cc) := cc_get_connected_nodes (bt_keys (cc_parent cc)) 2 cc in
  let* r9 := unwrap r8 in
  let* _ := check (bool_decide (length r9 = 3)) in
  let* '(r10, cc) := cc_get_connected_nodes (bt_keys (cc_parent cc)) 3 cc in
  let* r11 := unwrap r10 in
  let* _ := check (bool_decide (length r11 = 3)) in
  Ok tt) = Ok tt.
Proof. by vm_compute. Qed.

(** test_cc_directed_seperate_components, tests/algorithm.rs l.89-109. *)
Example test_cc_directed_seperate_components :
  (let graph : graphmap N N := gm_new in
  let* '(r1, graph) := gm_add_edge true TU32 1 2 None graph in
  let* '(r2, graph) := gm_add_edge true TU32 3 4 None graph in
  let* cc := cc_new (view true graph) in
  let* _ := check (bool_decide (cc_get_count cc = 2)) in
  let* '(r3, cc) := cc_is_connected 1 2 cc in
  let* _ := check (bool_decide (r3 = true)) in
  let* '(r4, cc) := cc_is_connected 2 3 cc in
  let* _ := check (bool_decide (r4 = false)) in
  let* '(r5, cc) := cc_is_connected 1 3 cc in
  let* _ := check (bool_decide (r5 = false)) in
  let* '(r6, cc) := cc_is_connected 1 4 cc in
  let* _ := check (bool_decide (r6 = false)) in
  let* '(r7, cc) := cc_is_connected 2 4 cc in
  let* _ := check (bool_decide (r7 = false)) in
  let* '(r8, cc) := cc_is_connected 3 4 cc in
  let* _ := check (bool_decide (r8 = true)) in
  let* '(r9, cc) := cc_get_connected_nodes (bt_keys (cc_parent cc)) 1 cc in
  let* r10 := unwrap r9 in
  let* _ := check (bool_decide (length r10 = 2)) in
  let* '(r11, cc) := cc_get_connected_nodes (bt_keys (cc_parent cc)) 2 cc in
  let* r12 := unwrap r11 in
  let* _ := check (bool_decide (length r12 = 2)) in
  let* '(r13, cc) := cc_get_connected_nodes (bt_keys (cc_parent cc)) 3 cc in
  let* r14 := unwrap r13 in
  let* _ := check (bool_decide (length r14 = 2)) in
  let* '(r15, cc) := cc_get_connected_nodes (bt_keys (cc_parent cc)) 4 cc in
  let* r16 := unwrap r15 in
  let* _ := check (bool_decide (length r16 = 2)) in
  Ok tt) = Ok tt.
Proof. by vm_compute. Qed.

(** test_bfs_undirected_one_component, tests/algorithm.rs l.112-126. *)
Example test_bfs_undirected_one_component :
  (let graph : graphmap N N := gm_new in
  let* '(r1, graph) := gm_add_edge false TU32 1 2 None graph in
  let* '(r2, graph) := gm_add_edge false TU32 2 3 None graph in
  let* st := bfs_new (view false graph) (Some 1%N) in
  let* '(x, st) := bfs_next TU32 (view false graph) st in
  let* _ := check (bool_decide (x = (Some 1%N))) in
  let* '(x, st) := bfs_next TU32 (view false graph) st in
  let* _ := check (bool_decide (x = (Some 2%N))) in
  let* '(x, st) := bfs_next TU32 (view false graph) st in
  let* _ := check (bool_decide (x = (Some 3%N))) in
  let* '(x, st) := bfs_next TU32 (view false graph) st in
  let* _ := check (bool_decide (x = None)) in
  Ok tt) = Ok tt.
Proof. by vm_compute. Qed.

(** test_bfs_undirected_radomly_chosen_start, tests/algorithm.rs l.129-137. *)
Example test_bfs_undirected_radomly_chosen_start :
  (let graph : graphmap N N := gm_new in
  let* '(r1, graph) := gm_add_edge false TU32 1 2 None graph in
  let* st := bfs_new (view false graph) None in
  let* '(x, st) := bfs_next TU32 (view false graph) st in
  let result := bool_decide (x = (Some 1%N)) || bool_decide (x = (Some 2%N)) in
  let* _ := check (bool_decide (result = true)) in
  Ok tt) = Ok tt.
Proof. by vm_compute. Qed.

(** test_bfs_undirected_seperate_components, tests/algorithm.rs l.140-153. *)
Example test_bfs_undirected_seperate_components :
  (let graph : graphmap N N := gm_new in
  let* '(r1, graph) := gm_add_edge false TU32 1 2 None graph in
  let* '(r2, graph) := gm_add_edge false TU32 3 4 None graph in
  let* st := bfs_new (view false graph) (Some 1%N) in
  let* '(x, st) := bfs_next TU32 (view false graph) st in
  let* _ := check (bool_decide (x = (Some 1%N))) in
  let* '(x, st) := bfs_next TU32 (view false graph) st in
  let* _ := check (bool_decide (x = (Some 2%N))) in
  let* '(x, st) := bfs_next TU32 (view false graph) st in
  let result := bool_decide (x = (Some 3%N)) || bool_decide (x = (Some 4%N)) in
  let* _ := check (bool_decide (result = true)) in
  Ok tt) = Ok tt.
Proof. by vm_compute. Qed.

(** test_bfs_directed_one_component, tests/algorithm.rs l.156-167. *)
Example test_bfs_directed_one_component :
  (let graph : graphmap N N := gm_new in
  let* '(r1, graph) := gm_add_edge true TU32 2 1 None graph in
  let* '(r2, graph) := gm_add_edge true TU32 3 1 None graph in
  let* st := bfs_new (view true graph) (Some 1%N) in
  let* '(x, st) := bfs_next TU32 (view true graph) st in
  let* _ := check (bool_decide (x = (Some 1%N))) in
  let* '(x, st) := bfs_next TU32 (view true graph) st in
  let result := bool_decide (x = (Some 3%N)) || bool_decide (x = (Some 2%N)) in
  let* _ := check (bool_decide (result = true)) in
  Ok tt) = Ok tt.
Proof. by vm_compute. Qed.

(** test_bfs_directed_radomly_chosen_start, tests/algorithm.rs l.170-178. *)
Example test_bfs_directed_radomly_chosen_start :
  (let graph : graphmap N N := gm_new in
  let* '(r1, graph) := gm_add_edge true TU32 1 2 None graph in
  let* st := bfs_new (view true graph) None in
  let* '(x, st) := bfs_next TU32 (view true graph) st in
  let result := bool_decide (x = (Some 1%N)) || bool_decide (x = (Some 2%N)) in
  let* _ := check (bool_decide (result = true)) in
  Ok tt) = Ok tt.
Proof. by vm_compute. Qed.

(** test_bfs_directed_seperate_components, tests/algorithm.rs l.181-194. *)
Example test_bfs_directed_seperate_components :
  (let graph : graphmap N N := gm_new in
  let* '(r1, graph) := gm_add_edge true TU32 1 2 None graph in
  let* '(r2, graph) := gm_add_edge true TU32 3 4 None graph in
  let* st := bfs_new (view true graph) (Some 1%N) in
  let* '(x, st) := bfs_next TU32 (view true graph) st in
  let* _ := check (bool_decide (x = (Some 1%N))) in
  let* '(x, st) := bfs_next TU32 (view true graph) st in
  let* _ := check (bool_decide (x = (Some 2%N))) in
  let* '(x, st) := bfs_next TU32 (view true graph) st in
  let result := bool_decide (x = (Some 3%N)) || bool_decide (x = (Some 4%N)) in
  let* _ := check (bool_decide (result = true)) in
  Ok tt) = Ok tt.
Proof. by vm_compute. Qed.

(** test_dfs_undirected_one_component, tests/algorithm.rs l.197-211. *)
Example test_dfs_undirected_one_component :
  (let graph : graphmap N N := gm_new in
  let* '(r1, graph) := gm_add_edge false TU32 1 2 None graph in
  let* '(r2, graph) := gm_add_edge false TU32 2 3 None graph in
  let* st := dfs_new (view false graph) (Some 1%N) in
  let* '(x, st) := dfs_next TU32 (view false graph) st in
  let* _ := check (bool_decide (x = (Some 1%N))) in
  let* '(x, st) := dfs_next TU32 (view false graph) st in
  let* _ := check (bool_decide (x = (Some 2%N))) in
  let* '(x, st) := dfs_next TU32 (view false graph) st in
  let* _ := check (bool_decide (x = (Some 3%N))) in
  let* '(x, st) := dfs_next TU32 (view false graph) st in
  let* _ := check (bool_decide (x = None)) in
  Ok tt) = Ok tt.
Proof. by vm_compute. Qed.

(** test_dfs_undirected_radomly_chosen_start, tests/algorithm.rs l.214-222. *)
Example test_dfs_undirected_radomly_chosen_start :
  (let graph : graphmap N N := gm_new in
  let* '(r1, graph) := gm_add_edge false TU32 1 2 None graph in
  let* st := dfs_new (view false graph) None in
  let* '(x, st) := dfs_next TU32 (view false graph) st in
  let result := bool_decide (x = (Some 1%N)) || bool_decide (x = (Some 2%N)) in
  let* _ := check (bool_decide (result = true)) in
  Ok tt) = Ok tt.
Proof. by vm_compute. Qed.

(** test_dfs_undirected_seperate_components, tests/algorithm.rs l.225-238. *)
Example test_dfs_undirected_seperate_components :
  (let graph : graphmap N N := gm_new in
  let* '(r1, graph) := gm_add_edge false TU32 1 2 None graph in
  let* '(r2, graph) := gm_add_edge false TU32 3 4 None graph in
  let* st := dfs_new (view false graph) (Some 1%N) in
  let* '(x, st) := dfs_next TU32 (view false graph) st in
  let* _ := check (bool_decide (x = (Some 1%N))) in
  let* '(x, st) := dfs_next TU32 (view false graph) st in
  let* _ := check (bool_decide (x = (Some 2%N))) in
  let* '(x, st) := dfs_next TU32 (view false graph) st in
  let result := bool_decide (x = (Some 3%N)) || bool_decide (x = (Some 4%N)) in
  let* _ := check (bool_decide (result = true)) in
  Ok tt) = Ok tt.
Proof. by vm_compute. Qed.

(** test_dfs_directed_one_component, tests/algorithm.rs l.241-252. *)
Example test_dfs_directed_one_component :
  (let graph : graphmap N N := gm_new in
  let* '(r1, graph) := gm_add_edge true TU32 2 1 None graph in
  let* '(r2, graph) := gm_add_edge true TU32 3 1 None graph in
  let* st := dfs_new (view true graph) (Some 1%N) in
  let* '(x, st) := dfs_next TU32 (view true graph) st in
  let* _ := check (bool_decide (x = (Some 1%N))) in
  let* '(x, st) := dfs_next TU32 (view true graph) st in
  let result := bool_decide (x = (Some 3%N)) || bool_decide (x = (Some 2%N)) in
  let* _ := check (bool_decide (result = true)) in
  Ok tt) = Ok tt.
Proof. by vm_compute. Qed.

(** test_dfs_directed_radomly_chosen_start, tests/algorithm.rs l.255-263. *)
Example test_dfs_directed_radomly_chosen_start :
  (let graph : graphmap N N := gm_new in
  let* '(r1, graph) := gm_add_edge true TU32 1 2 None graph in
  let* st := dfs_new (view true graph) None in
  let* '(x, st) := dfs_next TU32 (view true graph) st in
  let result := bool_decide (x = (Some 1%N)) || bool_decide (x = (Some 2%N)) in
  let* _ := check (bool_decide (result = true)) in
  Ok tt) = Ok tt.
Proof. by vm_compute. Qed.

(** test_dfs_directed_seperate_components, tests/algorithm.rs l.266-279. *)
Example test_dfs_directed_seperate_components :
  (let graph : graphmap N N := gm_new in
  let* '(r1, graph) := gm_add_edge true TU32 1 2 None graph in
  let* '(r2, graph) := gm_add_edge true TU32 3 4 None graph in
  let* st := dfs_new (view true graph) (Some 1%N) in
  let* '(x, st) := dfs_next TU32 (view true graph) st in
  let* _ := check (bool_decide (x = (Some 1%N))) in
  let* '(x, st) := dfs_next TU32 (view true graph) st in
  let* _ := check (bool_decide (x = (Some 2%N))) in
  let* '(x, st) := dfs_next TU32 (view true graph) st in
  let result := bool_decide (x = (Some 3%N)) || bool_decide (x = (Some 4%N)) in
  let* _ := check (bool_decide (result = true)) in
  Ok tt) = Ok tt.
Proof. by vm_compute. Qed.

(** test_conn_subgraphs_undirected_seperate_components, tests/algorithm.rs l.282-323. *)
Example test_conn_subgraphs_undirected_seperate_components :
  (let graph : graphmap N N := gm_new in
  let* '(r1, graph) := gm_add_node TU32 1 (Some 0%N) graph in
  let* '(r2, graph) := gm_add_node TU32 2 (Some 1%N) graph in
  let* '(r3, graph) := gm_add_node TU32 3 (Some 2%N) graph in
  let* '(r4, graph) := gm_add_node TU32 4 (Some 3%N) graph in
  let* '(r5, graph) := gm_add_edge false TU32 1 2 (Some 10%N) graph in
  let* '(r6, graph) := gm_add_edge false TU32 3 4 (Some 20%N) graph in
  let* subgraphs := conn_subgraphs TU32 (view false graph) in
  let* _ := check (bool_decide (length subgraphs = 2)) in
  let* sub := unwrap (subgraphs !! 0) in
  let* _ := check (bool_decide (v_has_node (view false sub) 1 = true)) in
  let* sub := unwrap (subgraphs !! 0) in
  let* _ := check (bool_decide (v_has_node (view false sub) 2 = true)) in
  let* sub := unwrap (subgraphs !! 0) in
  let* _ := check (bool_decide (v_has_node (view false sub) 3 = false)) in
  let* sub := unwrap (subgraphs !! 0) in
  let* _ := check (bool_decide (v_has_node (view false sub) 4 = false)) in
  let* sub := unwrap (subgraphs !! 1) in
  let* _ := check (bool_decide (v_has_node (view false sub) 1 = false)) in
  let* sub := unwrap (subgraphs !! 1) in
  let* _ := check (bool_decide (v_has_node (view false sub) 2 = false)) in
  let* sub := unwrap (subgraphs !! 1) in
  let* _ := check (bool_decide (v_has_node (view false sub) 3 = true)) in
  let* sub := unwrap (subgraphs !! 1) in
  let* _ := check (bool_decide (v_has_node (view false sub) 4 = true)) in
  let* sub := unwrap (subgraphs !! 0) in
  let* r7 := v_has_edge (view false sub) 1 2 in
  let* _ := check (bool_decide (r7 = true)) in
  let* sub := unwrap (subgraphs !! 0) in
  let* r8 := v_has_edge (view false sub) 3 4 in
  let* _ := check (bool_decide (r8 = false)) in
  let* sub := unwrap (subgraphs !! 1) in
  let* r9 := v_has_edge (view false sub) 1 2 in
  let* _ := check (bool_decide (r9 = false)) in
  let* sub := unwrap (subgraphs !! 1) in
  let* r10 := v_has_edge (view false sub) 3 4 in
  let* _ := check (bool_decide (r10 = true)) in
  let* sub := unwrap (subgraphs !! 0) in
  let* r11 := v_has_edge (view false sub) 2 1 in
  let* _ := check (bool_decide (r11 = true)) in
  let* sub := unwrap (subgraphs !! 0) in
  let* r12 := v_has_edge (view false sub) 4 3 in
  let* _ := check (bool_decide (r12 = false)) in
  let* sub := unwrap (subgraphs !! 1) in
  let* r13 := v_has_edge (view false sub) 2 1 in
  let* _ := check (bool_decide (r13 = false)) in
  let* sub := unwrap (subgraphs !! 1) in
  let* r14 := v_has_edge (view false sub) 4 3 in
  let* _ := check (bool_decide (r14 = true)) in
  let* sub := unwrap (subgraphs !! 0) in
  let* r15 := v_node_label (view false sub) 1 in
  let* _ := check (bool_decide (r15 = (Some 0%N))) in
  let* sub := unwrap (subgraphs !! 0) in
  let* r16 := v_node_label (view false sub) 2 in
  let* _ := check (bool_decide (r16 = (Some 1%N))) in
  let* sub := unwrap (subgraphs !! 1) in
  let* r17 := v_node_label (view false sub) 3 in
  let* _ := check (bool_decide (r17 = (Some 2%N))) in
  let* sub := unwrap (subgraphs !! 1) in
  let* r18 := v_node_label (view false sub) 4 in
  let* _ := check (bool_decide (r18 = (Some 3%N))) in
  let* r19 := v_edge_label (view false graph) 1 2 in
  let* _ := check (bool_decide (r19 = (Some 10%N))) in
  let* r20 := v_edge_label (view false graph) 3 4 in
  let* _ := check (bool_decide (r20 = (Some 20%N))) in
  let* r21 := v_edge_label (view false graph) 2 1 in
  let* _ := check (bool_decide (r21 = (Some 10%N))) in
  let* r22 := v_edge_label (view false graph) 4 3 in
  let* _ := check (bool_decide (r22 = (Some 20%N))) in
  Ok tt) = Ok tt.
Proof. by vm_compute. Qed.

(** test_conn_subgraphs_directed_seperate_components, tests/algorithm.rs l.326-367. *)
Example test_conn_subgraphs_directed_seperate_components :
  (let graph : graphmap N N := gm_new in
  let* '(r1, graph) := gm_add_node TU32 1 (Some 0%N) graph in
  let* '(r2, graph) := gm_add_node TU32 2 (Some 1%N) graph in
  let* '(r3, graph) := gm_add_node TU32 3 (Some 2%N) graph in
  let* '(r4, graph) := gm_add_node TU32 4 (Some 3%N) graph in
  let* '(r5, graph) := gm_add_edge true TU32 1 2 (Some 10%N) graph in
  let* '(r6, graph) := gm_add_edge true TU32 3 4 (Some 20%N) graph in
  let* subgraphs := conn_subgraphs TU32 (view true graph) in
  let* _ := check (bool_decide (length subgraphs = 2)) in
  let* sub := unwrap (subgraphs !! 0) in
  let* _ := check (bool_decide (v_has_node (view true sub) 1 = true)) in
  let* sub := unwrap (subgraphs !! 0) in
  let* _ := check (bool_decide (v_has_node (view true sub) 2 = true)) in
  let* sub := unwrap (subgraphs !! 0) in
  let* _ := check (bool_decide (v_has_node (view true sub) 3 = false)) in
  let* sub := unwrap (subgraphs !! 0) in
  let* _ := check (bool_decide (v_has_node (view true sub) 4 = false)) in
  let* sub := unwrap (subgraphs !! 1) in
  let* _ := check (bool_decide (v_has_node (view true sub) 1 = false)) in
  let* sub := unwrap (subgraphs !! 1) in
  let* _ := check (bool_decide (v_has_node (view true sub) 2 = false)) in
  let* sub := unwrap (subgraphs !! 1) in
  let* _ := check (bool_decide (v_has_node (view true sub) 3 = true)) in
  let* sub := unwrap (subgraphs !! 1) in
  let* _ := check (bool_decide (v_has_node (view true sub) 4 = true)) in
  let* sub := unwrap (subgraphs !! 0) in
  let* r7 := v_has_edge (view true sub) 1 2 in
  let* _ := check (bool_decide (r7 = true)) in
  let* sub := unwrap (subgraphs !! 0) in
  let* r8 := v_has_edge (view true sub) 3 4 in
  let* _ := check (bool_decide (r8 = false)) in
  let* sub := unwrap (subgraphs !! 1) in
  let* r9 := v_has_edge (view true sub) 1 2 in
  let* _ := check (bool_decide (r9 = false)) in
  let* sub := unwrap (subgraphs !! 1) in
  let* r10 := v_has_edge (view true sub) 3 4 in
  let* _ := check (bool_decide (r10 = true)) in
  let* sub := unwrap (subgraphs !! 0) in
  let* r11 := v_has_edge (view true sub) 2 1 in
  let* _ := check (bool_decide (r11 = false)) in
  let* sub := unwrap (subgraphs !! 0) in
  let* r12 := v_has_edge (view true sub) 4 3 in
  let* _ := check (bool_decide (r12 = false)) in
  let* sub := unwrap (subgraphs !! 1) in
  let* r13 := v_has_edge (view true sub) 2 1 in
  let* _ := check (bool_decide (r13 = false)) in
  let* sub := unwrap (subgraphs !! 1) in
  let* r14 := v_has_edge (view true sub) 4 3 in
  let* _ := check (bool_decide (r14 = false)) in
  let* sub := unwrap (subgraphs !! 0) in
  let* r15 := v_node_label (view true sub) 1 in
  let* _ := check (bool_decide (r15 = (Some 0%N))) in
  let* sub := unwrap (subgraphs !! 0) in
  let* r16 := v_node_label (view true sub) 2 in
  let* _ := check (bool_decide (r16 = (Some 1%N))) in
  let* sub := unwrap (subgraphs !! 1) in
  let* r17 := v_node_label (view true sub) 3 in
  let* _ := check (bool_decide (r17 = (Some 2%N))) in
  let* sub := unwrap (subgraphs !! 1) in
  let* r18 := v_node_label (view true sub) 4 in
  let* _ := check (bool_decide (r18 = (Some 3%N))) in
  let* r19 := v_edge_label (view true graph) 1 2 in
  let* _ := check (bool_decide (r19 = (Some 10%N))) in
  let* r20 := v_edge_label (view true graph) 3 4 in
  let* _ := check (bool_decide (r20 = (Some 20%N))) in
  let* r21 := v_edge_label (view true graph) 2 1 in
  let* _ := check (bool_decide (r21 = None)) in
  let* r22 := v_edge_label (view true graph) 4 3 in
  let* _ := check (bool_decide (r22 = None)) in
  Ok tt) = Ok tt.
Proof. by vm_compute. Qed.

(** test_graph_union_directed_graphs, tests/algorithm.rs l.370-409. *)
Example test_graph_union_directed_graphs :
  (let graph0 : graphmap N N := gm_new in
  let* '(r1, graph0) := gm_add_node TU32 1 (Some 0%N) graph0 in
  let* '(r2, graph0) := gm_add_node TU32 2 (Some 1%N) graph0 in
  let* '(r3, graph0) := gm_add_edge true TU32 1 2 (Some 10%N) graph0 in
  let graph1 : graphmap N N := gm_new in
  let* '(r4, graph1) := gm_add_node TU32 3 (Some 2%N) graph1 in
  let* '(r5, graph1) := gm_add_node TU32 4 (Some 3%N) graph1 in
  let* '(r6, graph1) := gm_add_edge true TU32 3 4 (Some 20%N) graph1 in
  let* result_graph := graph_union TU32 (view true graph0) (view true graph1) in
  let* _ := check (bool_decide (v_node_count (view true result_graph) = 4)) in
  let* _ := check (bool_decide (v_edge_count (view true result_graph) = 2)) in
  let* _ := check (bool_decide (v_has_node (view true result_graph) 1 = true)) in
  let* _ := check (bool_decide (v_has_node (view true result_graph) 2 = true)) in
  let* _ := check (bool_decide (v_has_node (view true result_graph) 3 = true)) in
  let* _ := check (bool_decide (v_has_node (view true result_graph) 4 = true)) in
  let* r7 := v_has_edge (view true result_graph) 1 2 in
  let* _ := check (bool_decide (r7 = true)) in
  let* r8 := v_has_edge (view true result_graph) 3 4 in
  let* _ := check (bool_decide (r8 = true)) in
  let* r9 := v_has_edge (view true result_graph) 2 1 in
  let* _ := check (bool_decide (r9 = false)) in
  let* r10 := v_has_edge (view true result_graph) 4 3 in
  let* _ := check (bool_decide (r10 = false)) in
  let* r11 := v_has_edge (view true result_graph) 2 3 in
  let* _ := check (bool_decide (r11 = false)) in
  let* r12 := v_has_edge (view true result_graph) 1 4 in
  let* _ := check (bool_decide (r12 = false)) in
  let* r13 := v_node_label (view true result_graph) 1 in
  let* _ := check (bool_decide (r13 = (Some 0%N))) in
  let* r14 := v_node_label (view true result_graph) 2 in
  let* _ := check (bool_decide (r14 = (Some 1%N))) in
  let* r15 := v_node_label (view true result_graph) 3 in
  let* _ := check (bool_decide (r15 = (Some 2%N))) in
  let* r16 := v_node_label (view true result_graph) 4 in
  let* _ := check (bool_decide (r16 = (Some 3%N))) in
  let* r17 := v_edge_label (view true result_graph) 1 2 in
  let* _ := check (bool_decide (r17 = (Some 10%N))) in
  let* r18 := v_edge_label (view true result_graph) 3 4 in
  let* _ := check (bool_decide (r18 = (Some 20%N))) in
  let* r19 := v_edge_label (view true result_graph) 1 4 in
  let* _ := check (bool_decide (r19 = None)) in
  let* r20 := v_edge_label (view true result_graph) 2 3 in
  let* _ := check (bool_decide (r20 = None)) in
  let* r21 := v_edge_label (view true result_graph) 2 1 in
  let* _ := check (bool_decide (r21 = None)) in
  let* r22 := v_edge_label (view true result_graph) 4 3 in
  let* _ := check (bool_decide (r22 = None)) in
  Ok tt) = Ok tt.
Proof. by vm_compute. Qed.

(** test_graph_union_undirected_graphs, tests/algorithm.rs l.412-451. *)
Example test_graph_union_undirected_graphs :
  (let graph0 : graphmap N N := gm_new in
  let* '(r1, graph0) := gm_add_node TU32 1 (Some 0%N) graph0 in
  let* '(r2, graph0) := gm_add_node TU32 2 (Some 1%N) graph0 in
  let* '(r3, graph0) := gm_add_edge false TU32 1 2 (Some 10%N) graph0 in
  let graph1 : graphmap N N := gm_new in
  let* '(r4, graph1) := gm_add_node TU32 3 (Some 2%N) graph1 in
  let* '(r5, graph1) := gm_add_node TU32 4 (Some 3%N) graph1 in
  let* '(r6, graph1) := gm_add_edge false TU32 3 4 (Some 20%N) graph1 in
  let* result_graph := graph_union TU32 (view false graph0) (view false graph1) in
  let* _ := check (bool_decide (v_node_count (view false result_graph) = 4)) in
  let* _ := check (bool_decide (v_edge_count (view false result_graph) = 2)) in
  let* _ := check (bool_decide (v_has_node (view false result_graph) 1 = true)) in
  let* _ := check (bool_decide (v_has_node (view false result_graph) 2 = true)) in
  let* _ := check (bool_decide (v_has_node (view false result_graph) 3 = true)) in
  let* _ := check (bool_decide (v_has_node (view false result_graph) 4 = true)) in
  let* r7 := v_has_edge (view false result_graph) 1 2 in
  let* _ := check (bool_decide (r7 = true)) in
  let* r8 := v_has_edge (view false result_graph) 3 4 in
  let* _ := check (bool_decide (r8 = true)) in
  let* r9 := v_has_edge (view false result_graph) 2 1 in
  let* _ := check (bool_decide (r9 = true)) in
  let* r10 := v_has_edge (view false result_graph) 4 3 in
  let* _ := check (bool_decide (r10 = true)) in
  let* r11 := v_has_edge (view false result_graph) 2 3 in
  let* _ := check (bool_decide (r11 = false)) in
  let* r12 := v_has_edge (view false result_graph) 1 4 in
  let* _ := check (bool_decide (r12 = false)) in
  let* r13 := v_node_label (view false result_graph) 1 in
  let* _ := check (bool_decide (r13 = (Some 0%N))) in
  let* r14 := v_node_label (view false result_graph) 2 in
  let* _ := check (bool_decide (r14 = (Some 1%N))) in
  let* r15 := v_node_label (view false result_graph) 3 in
  let* _ := check (bool_decide (r15 = (Some 2%N))) in
  let* r16 := v_node_label (view false result_graph) 4 in
  let* _ := check (bool_decide (r16 = (Some 3%N))) in
  let* r17 := v_edge_label (view false result_graph) 1 2 in
  let* _ := check (bool_decide (r17 = (Some 10%N))) in
  let* r18 := v_edge_label (view false result_graph) 3 4 in
  let* _ := check (bool_decide (r18 = (Some 20%N))) in
  let* r19 := v_edge_label (view false result_graph) 1 4 in
  let* _ := check (bool_decide (r19 = None)) in
  let* r20 := v_edge_label (view false result_graph) 2 3 in
  let* _ := check (bool_decide (r20 = None)) in
  let* r21 := v_edge_label (view false result_graph) 2 1 in
  let* _ := check (bool_decide (r21 = (Some 10%N))) in
  let* r22 := v_edge_label (view false result_graph) 4 3 in
  let* _ := check (bool_decide (r22 = (Some 20%N))) in
  Ok tt) = Ok tt.
Proof. by vm_compute. Qed.

(** test_graph_add_directed_graphs, tests/algorithm.rs l.454-493. *)
Example test_graph_add_directed_graphs :
  (let graph0 : graphmap N N := gm_new in
  let* '(r1, graph0) := gm_add_node TU32 1 (Some 0%N) graph0 in
  let* '(r2, graph0) := gm_add_node TU32 2 (Some 1%N) graph0 in
  let* '(r3, graph0) := gm_add_edge true TU32 1 2 (Some 10%N) graph0 in
  let graph1 : graphmap N N := gm_new in
  let* '(r4, graph1) := gm_add_node TU32 3 (Some 2%N) graph1 in
  let* '(r5, graph1) := gm_add_node TU32 4 (Some 3%N) graph1 in
  let* '(r6, graph1) := gm_add_edge true TU32 3 4 (Some 20%N) graph1 in
  let* result_graph := graph_union TU32 (view true graph0) (view true graph1) in
  let* _ := check (bool_decide (v_node_count (view true result_graph) = 4)) in
  let* _ := check (bool_decide (v_edge_count (view true result_graph) = 2)) in
  let* _ := check (bool_decide (v_has_node (view true result_graph) 1 = true)) in
  let* _ := check (bool_decide (v_has_node (view true result_graph) 2 = true)) in
  let* _ := check (bool_decide (v_has_node (view true result_graph) 3 = true)) in
  let* _ := check (bool_decide (v_has_node (view true result_graph) 4 = true)) in
  let* r7 := v_has_edge (view true result_graph) 1 2 in
  let* _ := check (bool_decide (r7 = true)) in
  let* r8 := v_has_edge (view true result_graph) 3 4 in
  let* _ := check (bool_decide (r8 = true)) in
  let* r9 := v_has_edge (view true result_graph) 2 1 in
  let* _ := check (bool_decide (r9 = false)) in
  let* r10 := v_has_edge (view true result_graph) 4 3 in
  let* _ := check (bool_decide (r10 = false)) in
  let* r11 := v_has_edge (view true result_graph) 2 3 in
  let* _ := check (bool_decide (r11 = false)) in
  let* r12 := v_has_edge (view true result_graph) 1 4 in
  let* _ := check (bool_decide (r12 = false)) in
  let* r13 := v_node_label (view true result_graph) 1 in
  let* _ := check (bool_decide (r13 = (Some 0%N))) in
  let* r14 := v_node_label (view true result_graph) 2 in
  let* _ := check (bool_decide (r14 = (Some 1%N))) in
  let* r15 := v_node_label (view true result_graph) 3 in
  let* _ := check (bool_decide (r15 = (Some 2%N))) in
  let* r16 := v_node_label (view true result_graph) 4 in
  let* _ := check (bool_decide (r16 = (Some 3%N))) in
  let* r17 := v_edge_label (view true result_graph) 1 2 in
  let* _ := check (bool_decide (r17 = (Some 10%N))) in
  let* r18 := v_edge_label (view true result_graph) 3 4 in
  let* _ := check (bool_decide (r18 = (Some 20%N))) in
  let* r19 := v_edge_label (view true result_graph) 1 4 in
  let* _ := check (bool_decide (r19 = None)) in
  let* r20 := v_edge_label (view true result_graph) 2 3 in
  let* _ := check (bool_decide (r20 = None)) in
  let* r21 := v_edge_label (view true result_graph) 2 1 in
  let* _ := check (bool_decide (r21 = None)) in
  let* r22 := v_edge_label (view true result_graph) 4 3 in
  let* _ := check (bool_decide (r22 = None)) in
  Ok tt) = Ok tt.
Proof. by vm_compute. Qed.

(** test_graph_add_undirected_graphs, tests/algorithm.rs l.496-537. *)
Example test_graph_add_undirected_graphs :
  (let graph0 : graphmap N N := gm_new in
  let* '(r1, graph0) := gm_add_node TU32 1 (Some 0%N) graph0 in
  let* '(r2, graph0) := gm_add_node TU32 2 (Some 1%N) graph0 in
  let* '(r3, graph0) := gm_add_edge false TU32 1 2 (Some 10%N) graph0 in
  let graph1 : graphmap N N := gm_new in
  let* '(r4, graph1) := gm_add_node TU32 3 (Some 2%N) graph1 in
  let* '(r5, graph1) := gm_add_node TU32 4 (Some 3%N) graph1 in
  let* '(r6, graph1) := gm_add_edge false TU32 3 4 (Some 20%N) graph1 in
  let box0 := graph0 in
  let box1 := graph1 in
  let* result_graph := graph_union TU32 (view false box0) (view false box1) in
  let* _ := check (bool_decide (v_node_count (view false result_graph) = 4)) in
  let* _ := check (bool_decide (v_edge_count (view false result_graph) = 2)) in
  let* _ := check (bool_decide (v_has_node (view false result_graph) 1 = true)) in
  let* _ := check (bool_decide (v_has_node (view false result_graph) 2 = true)) in
  let* _ := check (bool_decide (v_has_node (view false result_graph) 3 = true)) in
  let* _ := check (bool_decide (v_has_node (view false result_graph) 4 = true)) in
  let* r7 := v_has_edge (view false result_graph) 1 2 in
  let* _ := check (bool_decide (r7 = true)) in
  let* r8 := v_has_edge (view false result_graph) 3 4 in
  let* _ := check (bool_decide (r8 = true)) in
  let* r9 := v_has_edge (view false result_graph) 2 1 in
  let* _ := check (bool_decide (r9 = true)) in
  let* r10 := v_has_edge (view false result_graph) 4 3 in
  let* _ := check (bool_decide (r10 = true)) in
  let* r11 := v_has_edge (view false result_graph) 2 3 in
  let* _ := check (bool_decide (r11 = false)) in
  let* r12 := v_has_edge (view false result_graph) 1 4 in
  let* _ := check (bool_decide (r12 = false)) in
  let* r13 := v_node_label (view false result_graph) 1 in
  let* _ := check (bool_decide (r13 = (Some 0%N))) in
  let* r14 := v_node_label (view false result_graph) 2 in
  let* _ := check (bool_decide (r14 = (Some 1%N))) in
  let* r15 := v_node_label (view false result_graph) 3 in
  let* _ := check (bool_decide (r15 = (Some 2%N))) in
  let* r16 := v_node_label (view false result_graph) 4 in
  let* _ := check (bool_decide (r16 = (Some 3%N))) in
  let* r17 := v_edge_label (view false result_graph) 1 2 in
  let* _ := check (bool_decide (r17 = (Some 10%N))) in
  let* r18 := v_edge_label (view false result_graph) 3 4 in
  let* _ := check (bool_decide (r18 = (Some 20%N))) in
  let* r19 := v_edge_label (view false result_graph) 1 4 in
  let* _ := check (bool_decide (r19 = None)) in
  let* r20 := v_edge_label (view false result_graph) 2 3 in
  let* _ := check (bool_decide (r20 = None)) in
  let* r21 := v_edge_label (view false result_graph) 2 1 in
  let* _ := check (bool_decide (r21 = (Some 10%N))) in
  let* r22 := v_edge_label (view false result_graph) 4 3 in
  let* _ := check (bool_decide (r22 = (Some 20%N))) in
  Ok tt) = Ok tt.
Proof. by vm_compute. Qed.

(** test_graph_add_boxed_directed_generalgraphs, tests/algorithm.rs l.540-581. *)
Example test_graph_add_boxed_directed_generalgraphs :
  (let graph0 : graphmap N N := gm_new in
  let* '(r1, graph0) := gm_add_node TU32 1 (Some 0%N) graph0 in
  let* '(r2, graph0) := gm_add_node TU32 2 (Some 1%N) graph0 in
  let* '(r3, graph0) := gm_add_edge true TU32 1 2 (Some 10%N) graph0 in
  let graph1 : graphmap N N := gm_new in
  let* '(r4, graph1) := gm_add_node TU32 3 (Some 2%N) graph1 in
  let* '(r5, graph1) := gm_add_node TU32 4 (Some 3%N) graph1 in
  let* '(r6, graph1) := gm_add_edge true TU32 3 4 (Some 20%N) graph1 in
  let box0 := graph0 in
  let box1 := graph1 in
  let* result_graph := graph_union TU32 (view true box0) (view true box1) in
  let* _ := check (bool_decide (v_node_count (view true result_graph) = 4)) in
  let* _ := check (bool_decide (v_edge_count (view true result_graph) = 2)) in
  let* _ := check (bool_decide (v_has_node (view true result_graph) 1 = true)) in
  let* _ := check (bool_decide (v_has_node (view true result_graph) 2 = true)) in
  let* _ := check (bool_decide (v_has_node (view true result_graph) 3 = true)) in
  let* _ := check (bool_decide (v_has_node (view true result_graph) 4 = true)) in
  let* r7 := v_has_edge (view true result_graph) 1 2 in
  let* _ := check (bool_decide (r7 = true)) in
  let* r8 := v_has_edge (view true result_graph) 3 4 in
  let* _ := check (bool_decide (r8 = true)) in
  let* r9 := v_has_edge (view true result_graph) 2 1 in
  let* _ := check (bool_decide (r9 = false)) in
  let* r10 := v_has_edge (view true result_graph) 4 3 in
  let* _ := check (bool_decide (r10 = false)) in
  let* r11 := v_has_edge (view true result_graph) 2 3 in
  let* _ := check (bool_decide (r11 = false)) in
  let* r12 := v_has_edge (view true result_graph) 1 4 in
  let* _ := check (bool_decide (r12 = false)) in
  let* r13 := v_node_label (view true result_graph) 1 in
  let* _ := check (bool_decide (r13 = (Some 0%N))) in
  let* r14 := v_node_label (view true result_graph) 2 in
  let* _ := check (bool_decide (r14 = (Some 1%N))) in
  let* r15 := v_node_label (view true result_graph) 3 in
  let* _ := check (bool_decide (r15 = (Some 2%N))) in
  let* r16 := v_node_label (view true result_graph) 4 in
  let* _ := check (bool_decide (r16 = (Some 3%N))) in
  let* r17 := v_edge_label (view true result_graph) 1 2 in
  let* _ := check (bool_decide (r17 = (Some 10%N))) in
  let* r18 := v_edge_label (view true result_graph) 3 4 in
  let* _ := check (bool_decide (r18 = (Some 20%N))) in
  let* r19 := v_edge_label (view true result_graph) 1 4 in
  let* _ := check (bool_decide (r19 = None)) in
  let* r20 := v_edge_label (view true result_graph) 2 3 in
  let* _ := check (bool_decide (r20 = None)) in
  let* r21 := v_edge_label (view true result_graph) 2 1 in
  let* _ := check (bool_decide (r21 = None)) in
  let* r22 := v_edge_label (view true result_graph) 4 3 in
  let* _ := check (bool_decide (r22 = None)) in
  Ok tt) = Ok tt.
Proof. by vm_compute. Qed.

(** test_graph_add_boxed_undirected_generalgraphs, tests/algorithm.rs l.584-625. *)
Example test_graph_add_boxed_undirected_generalgraphs :
  (let graph0 : graphmap N N := gm_new in
  let* '(r1, graph0) := gm_add_node TU32 1 (Some 0%N) graph0 in
  let* '(r2, graph0) := gm_add_node TU32 2 (Some 1%N) graph0 in
  let* '(r3, graph0) := gm_add_edge false TU32 1 2 (Some 10%N) graph0 in
  let graph1 : graphmap N N := gm_new in
  let* '(r4, graph1) := gm_add_node TU32 3 (Some 2%N) graph1 in
  let* '(r5, graph1) := gm_add_node TU32 4 (Some 3%N) graph1 in
  let* '(r6, graph1) := gm_add_edge false TU32 3 4 (Some 20%N) graph1 in
  let box0 := graph0 in
  let box1 := graph1 in
  let* result_graph := graph_union TU32 (view false box0) (view false box1) in
  let* _ := check (bool_decide (v_node_count (view false result_graph) = 4)) in
  let* _ := check (bool_decide (v_edge_count (view false result_graph) = 2)) in
  let* _ := check (bool_decide (v_has_node (view false result_graph) 1 = true)) in
  let* _ := check (bool_decide (v_has_node (view false result_graph) 2 = true)) in
  let* _ := check (bool_decide (v_has_node (view false result_graph) 3 = true)) in
  let* _ := check (bool_decide (v_has_node (view false result_graph) 4 = true)) in
  let* r7 := v_has_edge (view false result_graph) 1 2 in
  let* _ := check (bool_decide (r7 = true)) in
  let* r8 := v_has_edge (view false result_graph) 3 4 in
  let* _ := check (bool_decide (r8 = true)) in
  let* r9 := v_has_edge (view false result_graph) 2 1 in
  let* _ := check (bool_decide (r9 = true)) in
  let* r10 := v_has_edge (view false result_graph) 4 3 in
  let* _ := check (bool_decide (r10 = true)) in
  let* r11 := v_has_edge (view false result_graph) 2 3 in
  let* _ := check (bool_decide (r11 = false)) in
  let* r12 := v_has_edge (view false result_graph) 1 4 in
  let* _ := check (bool_decide (r12 = false)) in
  let* r13 := v_node_label (view false result_graph) 1 in
  let* _ := check (bool_decide (r13 = (Some 0%N))) in
  let* r14 := v_node_label (view false result_graph) 2 in
  let* _ := check (bool_decide (r14 = (Some 1%N))) in
  let* r15 := v_node_label (view false result_graph) 3 in
  let* _ := check (bool_decide (r15 = (Some 2%N))) in
  let* r16 := v_node_label (view false result_graph) 4 in
  let* _ := check (bool_decide (r16 = (Some 3%N))) in
  let* r17 := v_edge_label (view false result_graph) 1 2 in
  let* _ := check (bool_decide (r17 = (Some 10%N))) in
  let* r18 := v_edge_label (view false result_graph) 3 4 in
  let* _ := check (bool_decide (r18 = (Some 20%N))) in
  let* r19 := v_edge_label (view false result_graph) 1 4 in
  let* _ := check (bool_decide (r19 = None)) in
  let* r20 := v_edge_label (view false result_graph) 2 3 in
  let* _ := check (bool_decide (r20 = None)) in
  let* r21 := v_edge_label (view false result_graph) 2 1 in
  let* _ := check (bool_decide (r21 = (Some 10%N))) in
  let* r22 := v_edge_label (view false result_graph) 4 3 in
  let* _ := check (bool_decide (r22 = (Some 20%N))) in
  Ok tt) = Ok tt.
Proof. by vm_compute. Qed.

(** test_graph_add_directed_typedgraphs, tests/algorithm.rs l.628-667. *)
Example test_graph_add_directed_typedgraphs :
  (let graph0 : graphmap N N := gm_new in
  let* '(r1, graph0) := gm_add_node TU32 1 (Some 0%N) graph0 in
  let* '(r2, graph0) := gm_add_node TU32 2 (Some 1%N) graph0 in
  let* '(r3, graph0) := gm_add_edge true TU32 1 2 (Some 10%N) graph0 in
  let graph1 : graphmap N N := gm_new in
  let* '(r4, graph1) := gm_add_node TU32 3 (Some 2%N) graph1 in
  let* '(r5, graph1) := gm_add_node TU32 4 (Some 3%N) graph1 in
  let* '(r6, graph1) := gm_add_edge true TU32 3 4 (Some 20%N) graph1 in
  let* result_graph := graph_union TU32 (view true graph0) (view true graph1) in
  let* _ := check (bool_decide (v_node_count (view true result_graph) = 4)) in
  let* _ := check (bool_decide (v_edge_count (view true result_graph) = 2)) in
  let* _ := check (bool_decide (v_has_node (view true result_graph) 1 = true)) in
  let* _ := check (bool_decide (v_has_node (view true result_graph) 2 = true)) in
  let* _ := check (bool_decide (v_has_node (view true result_graph) 3 = true)) in
  let* _ := check (bool_decide (v_has_node (view true result_graph) 4 = true)) in
  let* r7 := v_has_edge (view true result_graph) 1 2 in
  let* _ := check (bool_decide (r7 = true)) in
  let* r8 := v_has_edge (view true result_graph) 3 4 in
  let* _ := check (bool_decide (r8 = true)) in
  let* r9 := v_has_edge (view true result_graph) 2 1 in
  let* _ := check (bool_decide (r9 = false)) in
  let* r10 := v_has_edge (view true result_graph) 4 3 in
  let* _ := check (bool_decide (r10 = false)) in
  let* r11 := v_has_edge (view true result_graph) 2 3 in
  let* _ := check (bool_decide (r11 = false)) in
  let* r12 := v_has_edge (view true result_graph) 1 4 in
  let* _ := check (bool_decide (r12 = false)) in
  let* r13 := v_node_label (view true result_graph) 1 in
  let* _ := check (bool_decide (r13 = (Some 0%N))) in
  let* r14 := v_node_label (view true result_graph) 2 in
  let* _ := check (bool_decide (r14 = (Some 1%N))) in
  let* r15 := v_node_label (view true result_graph) 3 in
  let* _ := check (bool_decide (r15 = (Some 2%N))) in
  let* r16 := v_node_label (view true result_graph) 4 in
  let* _ := check (bool_decide (r16 = (Some 3%N))) in
  let* r17 := v_edge_label (view true result_graph) 1 2 in
  let* _ := check (bool_decide (r17 = (Some 10%N))) in
  let* r18 := v_edge_label (view true result_graph) 3 4 in
  let* _ := check (bool_decide (r18 = (Some 20%N))) in
  let* r19 := v_edge_label (view true result_graph) 1 4 in
  let* _ := check (bool_decide (r19 = None)) in
  let* r20 := v_edge_label (view true result_graph) 2 3 in
  let* _ := check (bool_decide (r20 = None)) in
  let* r21 := v_edge_label (view true result_graph) 2 1 in
  let* _ := check (bool_decide (r21 = None)) in
  let* r22 := v_edge_label (view true result_graph) 4 3 in
  let* _ := check (bool_decide (r22 = None)) in
  Ok tt) = Ok tt.
Proof. by vm_compute. Qed.

(** test_graph_add_undirected_typedgraphs, tests/algorithm.rs l.670-709. *)
Example test_graph_add_undirected_typedgraphs :
  (let graph0 : graphmap N N := gm_new in
  let* '(r1, graph0) := gm_add_node TU32 1 (Some 0%N) graph0 in
  let* '(r2, graph0) := gm_add_node TU32 2 (Some 1%N) graph0 in
  let* '(r3, graph0) := gm_add_edge false TU32 1 2 (Some 10%N) graph0 in
  let graph1 : graphmap N N := gm_new in
  let* '(r4, graph1) := gm_add_node TU32 3 (Some 2%N) graph1 in
  let* '(r5, graph1) := gm_add_node TU32 4 (Some 3%N) graph1 in
  let* '(r6, graph1) := gm_add_edge false TU32 3 4 (Some 20%N) graph1 in
  let* result_graph := graph_union TU32 (view false graph0) (view false graph1) in
  let* _ := check (bool_decide (v_node_count (view false result_graph) = 4)) in
  let* _ := check (bool_decide (v_edge_count (view false result_graph) = 2)) in
  let* _ := check (bool_decide (v_has_node (view false result_graph) 1 = true)) in
  let* _ := check (bool_decide (v_has_node (view false result_graph) 2 = true)) in
  let* _ := check (bool_decide (v_has_node (view false result_graph) 3 = true)) in
  let* _ := check (bool_decide (v_has_node (view false result_graph) 4 = true)) in
  let* r7 := v_has_edge (view false result_graph) 1 2 in
  let* _ := check (bool_decide (r7 = true)) in
  let* r8 := v_has_edge (view false result_graph) 3 4 in
  let* _ := check (bool_decide (r8 = true)) in
  let* r9 := v_has_edge (view false result_graph) 2 1 in
  let* _ := check (bool_decide (r9 = true)) in
  let* r10 := v_has_edge (view false result_graph) 4 3 in
  let* _ := check (bool_decide (r10 = true)) in
  let* r11 := v_has_edge (view false result_graph) 2 3 in
  let* _ := check (bool_decide (r11 = false)) in
  let* r12 := v_has_edge (view false result_graph) 1 4 in
  let* _ := check (bool_decide (r12 = false)) in
  let* r13 := v_node_label (view false result_graph) 1 in
  let* _ := check (bool_decide (r13 = (Some 0%N))) in
  let* r14 := v_node_label (view false result_graph) 2 in
  let* _ := check (bool_decide (r14 = (Some 1%N))) in
  let* r15 := v_node_label (view false result_graph) 3 in
  let* _ := check (bool_decide (r15 = (Some 2%N))) in
  let* r16 := v_node_label (view false result_graph) 4 in
  let* _ := check (bool_decide (r16 = (Some 3%N))) in
  let* r17 := v_edge_label (view false result_graph) 1 2 in
  let* _ := check (bool_decide (r17 = (Some 10%N))) in
  let* r18 := v_edge_label (view false result_graph) 3 4 in
  let* _ := check (bool_decide (r18 = (Some 20%N))) in
  let* r19 := v_edge_label (view false result_graph) 1 4 in
  let* _ := check (bool_decide (r19 = None)) in
  let* r20 := v_edge_label (view false result_graph) 2 3 in
  let* _ := check (bool_decide (r20 = None)) in
  let* r21 := v_edge_label (view false result_graph) 2 1 in
  let* _ := check (bool_decide (r21 = (Some 10%N))) in
  let* r22 := v_edge_label (view false result_graph) 4 3 in
  let* _ := check (bool_decide (r22 = (Some 20%N))) in
  Ok tt) = Ok tt.
Proof. by vm_compute. Qed.

(** test_graph_minus_directed_graphs, tests/algorithm.rs l.712-754. *)
Example test_graph_minus_directed_graphs :
  (let graph0 : graphmap N N := gm_new in
  let* '(r1, graph0) := gm_add_node TU32 1 (Some 0%N) graph0 in
  let* '(r2, graph0) := gm_add_node TU32 2 (Some 1%N) graph0 in
  let* '(r3, graph0) := gm_add_node TU32 3 (Some 2%N) graph0 in
  let* '(r4, graph0) := gm_add_node TU32 4 (Some 3%N) graph0 in
  let* '(r5, graph0) := gm_add_edge true TU32 1 2 (Some 10%N) graph0 in
  let* '(r6, graph0) := gm_add_edge true TU32 3 4 (Some 20%N) graph0 in
  let graph1 : graphmap N N := gm_new in
  let* '(r7, graph1) := gm_add_node TU32 3 (Some 2%N) graph1 in
  let* '(r8, graph1) := gm_add_node TU32 4 (Some 3%N) graph1 in
  let* '(r9, graph1) := gm_add_edge true TU32 3 4 (Some 20%N) graph1 in
  let* result_graph := graph_minus TU32 (view true graph0) (view true graph1) in
  let* _ := check (bool_decide (v_node_count (view true result_graph) = 2)) in
  let* _ := check (bool_decide (v_edge_count (view true result_graph) = 1)) in
  let* _ := check (bool_decide (v_has_node (view true result_graph) 1 = true)) in
  let* _ := check (bool_decide (v_has_node (view true result_graph) 2 = true)) in
  let* _ := check (bool_decide (v_has_node (view true result_graph) 3 = false)) in
  let* _ := check (bool_decide (v_has_node (view true result_graph) 4 = false)) in
  let* r10 := v_has_edge (view true result_graph) 1 2 in
  let* _ := check (bool_decide (r10 = true)) in
  let* r11 := v_has_edge (view true result_graph) 3 4 in
  let* _ := check (bool_decide (r11 = false)) in
  let* r12 := v_has_edge (view true result_graph) 2 1 in
  let* _ := check (bool_decide (r12 = false)) in
  let* r13 := v_has_edge (view true result_graph) 4 3 in
  let* _ := check (bool_decide (r13 = false)) in
  let* r14 := v_has_edge (view true result_graph) 2 3 in
  let* _ := check (bool_decide (r14 = false)) in
  let* r15 := v_has_edge (view true result_graph) 1 4 in
  let* _ := check (bool_decide (r15 = false)) in
  let* r16 := v_node_label (view true result_graph) 1 in
  let* _ := check (bool_decide (r16 = (Some 0%N))) in
  let* r17 := v_node_label (view true result_graph) 2 in
  let* _ := check (bool_decide (r17 = (Some 1%N))) in
  let* r18 := v_node_label (view true result_graph) 3 in
  let* _ := check (bool_decide (r18 = None)) in
  let* r19 := v_node_label (view true result_graph) 4 in
  let* _ := check (bool_decide (r19 = None)) in
  let* r20 := v_edge_label (view true result_graph) 1 2 in
  let* _ := check (bool_decide (r20 = (Some 10%N))) in
  let* r21 := v_edge_label (view true result_graph) 3 4 in
  let* _ := check (bool_decide (r21 = None)) in
  let* r22 := v_edge_label (view true result_graph) 1 4 in
  let* _ := check (bool_decide (r22 = None)) in
  let* r23 := v_edge_label (view true result_graph) 2 3 in
  let* _ := check (bool_decide (r23 = None)) in
  let* r24 := v_edge_label (view true result_graph) 2 1 in
  let* _ := check (bool_decide (r24 = None)) in
  let* r25 := v_edge_label (view true result_graph) 4 3 in
  let* _ := check (bool_decide (r25 = None)) in
  Ok tt) = Ok tt.
Proof. by vm_compute. Qed.

(** test_graph_minus_undirected_graphs, tests/algorithm.rs l.757-799. *)
Example test_graph_minus_undirected_graphs :
  (let graph0 : graphmap N N := gm_new in
  let* '(r1, graph0) := gm_add_node TU32 1 (Some 0%N) graph0 in
  let* '(r2, graph0) := gm_add_node TU32 2 (Some 1%N) graph0 in
  let* '(r3, graph0) := gm_add_node TU32 3 (Some 2%N) graph0 in
  let* '(r4, graph0) := gm_add_node TU32 4 (Some 3%N) graph0 in
  let* '(r5, graph0) := gm_add_edge false TU32 1 2 (Some 10%N) graph0 in
  let* '(r6, graph0) := gm_add_edge false TU32 3 4 (Some 20%N) graph0 in
  let graph1 : graphmap N N := gm_new in
  let* '(r7, graph1) := gm_add_node TU32 3 (Some 2%N) graph1 in
  let* '(r8, graph1) := gm_add_node TU32 4 (Some 3%N) graph1 in
  let* '(r9, graph1) := gm_add_edge false TU32 3 4 (Some 20%N) graph1 in
  let* result_graph := graph_minus TU32 (view false graph0) (view false graph1) in
  let* _ := check (bool_decide (v_node_count (view false result_graph) = 2)) in
  let* _ := check (bool_decide (v_edge_count (view false result_graph) = 1)) in
  let* _ := check (bool_decide (v_has_node (view false result_graph) 1 = true)) in
  let* _ := check (bool_decide (v_has_node (view false result_graph) 2 = true)) in
  let* _ := check (bool_decide (v_has_node (view false result_graph) 3 = false)) in
  let* _ := check (bool_decide (v_has_node (view false result_graph) 4 = false)) in
  let* r10 := v_has_edge (view false result_graph) 1 2 in
  let* _ := check (bool_decide (r10 = true)) in
  let* r11 := v_has_edge (view false result_graph) 3 4 in
  let* _ := check (bool_decide (r11 = false)) in
  let* r12 := v_has_edge (view false result_graph) 2 1 in
  let* _ := check (bool_decide (r12 = true)) in
  let* r13 := v_has_edge (view false result_graph) 4 3 in
  let* _ := check (bool_decide (r13 = false)) in
  let* r14 := v_has_edge (view false result_graph) 2 3 in
  let* _ := check (bool_decide (r14 = false)) in
  let* r15 := v_has_edge (view false result_graph) 1 4 in
  let* _ := check (bool_decide (r15 = false)) in
  let* r16 := v_node_label (view false result_graph) 1 in
  let* _ := check (bool_decide (r16 = (Some 0%N))) in
  let* r17 := v_node_label (view false result_graph) 2 in
  let* _ := check (bool_decide (r17 = (Some 1%N))) in
  let* r18 := v_node_label (view false result_graph) 3 in
  let* _ := check (bool_decide (r18 = None)) in
  let* r19 := v_node_label (view false result_graph) 4 in
  let* _ := check (bool_decide (r19 = None)) in
  let* r20 := v_edge_label (view false result_graph) 1 2 in
  let* _ := check (bool_decide (r20 = (Some 10%N))) in
  let* r21 := v_edge_label (view false result_graph) 3 4 in
  let* _ := check (bool_decide (r21 = None)) in
  let* r22 := v_edge_label (view false result_graph) 1 4 in
  let* _ := check (bool_decide (r22 = None)) in
  let* r23 := v_edge_label (view false result_graph) 2 3 in
  let* _ := check (bool_decide (r23 = None)) in
  let* r24 := v_edge_label (view false result_graph) 2 1 in
  let* _ := check (bool_decide (r24 = (Some 10%N))) in
  let* r25 := v_edge_label (view false result_graph) 4 3 in
  let* _ := check (bool_decide (r25 = None)) in
  Ok tt) = Ok tt.
Proof. by vm_compute. Qed.

(** test_graph_sub_directed_graphs, tests/algorithm.rs l.802-844. *)
Example test_graph_sub_directed_graphs :
  (let graph0 : graphmap N N := gm_new in
  let* '(r1, graph0) := gm_add_node TU32 1 (Some 0%N) graph0 in
  let* '(r2, graph0) := gm_add_node TU32 2 (Some 1%N) graph0 in
  let* '(r3, graph0) := gm_add_node TU32 3 (Some 2%N) graph0 in
  let* '(r4, graph0) := gm_add_node TU32 4 (Some 3%N) graph0 in
  let* '(r5, graph0) := gm_add_edge true TU32 1 2 (Some 10%N) graph0 in
  let* '(r6, graph0) := gm_add_edge true TU32 3 4 (Some 20%N) graph0 in
  let graph1 : graphmap N N := gm_new in
  let* '(r7, graph1) := gm_add_node TU32 3 (Some 2%N) graph1 in
  let* '(r8, graph1) := gm_add_node TU32 4 (Some 3%N) graph1 in
  let* '(r9, graph1) := gm_add_edge true TU32 3 4 (Some 20%N) graph1 in
  let* result_graph := graph_minus TU32 (view true graph0) (view true graph1) in
  let* _ := check (bool_decide (v_node_count (view true result_graph) = 2)) in
  let* _ := check (bool_decide (v_edge_count (view true result_graph) = 1)) in
  let* _ := check (bool_decide (v_has_node (view true result_graph) 1 = true)) in
  let* _ := check (bool_decide (v_has_node (view true result_graph) 2 = true)) in
  let* _ := check (bool_decide (v_has_node (view true result_graph) 3 = false)) in
  let* _ := check (bool_decide (v_has_node (view true result_graph) 4 = false)) in
  let* r10 := v_has_edge (view true result_graph) 1 2 in
  let* _ := check (bool_decide (r10 = true)) in
  let* r11 := v_has_edge (view true result_graph) 3 4 in
  let* _ := check (bool_decide (r11 = false)) in
  let* r12 := v_has_edge (view true result_graph) 2 1 in
  let* _ := check (bool_decide (r12 = false)) in
  let* r13 := v_has_edge (view true result_graph) 4 3 in
  let* _ := check (bool_decide (r13 = false)) in
  let* r14 := v_has_edge (view true result_graph) 2 3 in
  let* _ := check (bool_decide (r14 = false)) in
  let* r15 := v_has_edge (view true result_graph) 1 4 in
  let* _ := check (bool_decide (r15 = false)) in
  let* r16 := v_node_label (view true result_graph) 1 in
  let* _ := check (bool_decide (r16 = (Some 0%N))) in
  let* r17 := v_node_label (view true result_graph) 2 in
  let* _ := check (bool_decide (r17 = (Some 1%N))) in
  let* r18 := v_node_label (view true result_graph) 3 in
  let* _ := check (bool_decide (r18 = None)) in
  let* r19 := v_node_label (view true result_graph) 4 in
  let* _ := check (bool_decide (r19 = None)) in
  let* r20 := v_edge_label (view true result_graph) 1 2 in
  let* _ := check (bool_decide (r20 = (Some 10%N))) in
  let* r21 := v_edge_label (view true result_graph) 3 4 in
  let* _ := check (bool_decide (r21 = None)) in
  let* r22 := v_edge_label (view true result_graph) 1 4 in
  let* _ := check (bool_decide (r22 = None)) in
  let* r23 := v_edge_label (view true result_graph) 2 3 in
  let* _ := check (bool_decide (r23 = None)) in
  let* r24 := v_edge_label (view true result_graph) 2 1 in
  let* _ := check (bool_decide (r24 = None)) in
  let* r25 := v_edge_label (view true result_graph) 4 3 in
  let* _ := check (bool_decide (r25 = None)) in
  Ok tt) = Ok tt.
Proof. by vm_compute. Qed.

(** test_graph_sub_undirected_graphs, tests/algorithm.rs l.847-889. *)
Example test_graph_sub_undirected_graphs :
  (let graph0 : graphmap N N := gm_new in
  let* '(r1, graph0) := gm_add_node TU32 1 (Some 0%N) graph0 in
  let* '(r2, graph0) := gm_add_node TU32 2 (Some 1%N) graph0 in
  let* '(r3, graph0) := gm_add_node TU32 3 (Some 2%N) graph0 in
  let* '(r4, graph0) := gm_add_node TU32 4 (Some 3%N) graph0 in
  let* '(r5, graph0) := gm_add_edge false TU32 1 2 (Some 10%N) graph0 in
  let* '(r6, graph0) := gm_add_edge false TU32 3 4 (Some 20%N) graph0 in
  let graph1 : graphmap N N := gm_new in
  let* '(r7, graph1) := gm_add_node TU32 3 (Some 2%N) graph1 in
  let* '(r8, graph1) := gm_add_node TU32 4 (Some 3%N) graph1 in
  let* '(r9, graph1) := gm_add_edge false TU32 3 4 (Some 20%N) graph1 in
  let* result_graph := graph_minus TU32 (view false graph0) (view false graph1) in
  let* _ := check (bool_decide (v_node_count (view false result_graph) = 2)) in
  let* _ := check (bool_decide (v_edge_count (view false result_graph) = 1)) in
  let* _ := check (bool_decide (v_has_node (view false result_graph) 1 = true)) in
  let* _ := check (bool_decide (v_has_node (view false result_graph) 2 = true)) in
  let* _ := check (bool_decide (v_has_node (view false result_graph) 3 = false)) in
  let* _ := check (bool_decide (v_has_node (view false result_graph) 4 = false)) in
  let* r10 := v_has_edge (view false result_graph) 1 2 in
  let* _ := check (bool_decide (r10 = true)) in
  let* r11 := v_has_edge (view false result_graph) 3 4 in
  let* _ := check (bool_decide (r11 = false)) in
  let* r12 := v_has_edge (view false result_graph) 2 1 in
  let* _ := check (bool_decide (r12 = true)) in
  let* r13 := v_has_edge (view false result_graph) 4 3 in
  let* _ := check (bool_decide (r13 = false)) in
  let* r14 := v_has_edge (view false result_graph) 2 3 in
  let* _ := check (bool_decide (r14 = false)) in
  let* r15 := v_has_edge (view false result_graph) 1 4 in
  let* _ := check (bool_decide (r15 = false)) in
  let* r16 := v_node_label (view false result_graph) 1 in
  let* _ := check (bool_decide (r16 = (Some 0%N))) in
  let* r17 := v_node_label (view false result_graph) 2 in
  let* _ := check (bool_decide (r17 = (Some 1%N))) in
  let* r18 := v_node_label (view false result_graph) 3 in
  let* _ := check (bool_decide (r18 = None)) in
  let* r19 := v_node_label (view false result_graph) 4 in
  let* _ := check (bool_decide (r19 = None)) in
  let* r20 := v_edge_label (view false result_graph) 1 2 in
  let* _ := check (bool_decide (r20 = (Some 10%N))) in
  let* r21 := v_edge_label (view false result_graph) 3 4 in
  let* _ := check (bool_decide (r21 = None)) in
  let* r22 := v_edge_label (view false result_graph) 1 4 in
  let* _ := check (bool_decide (r22 = None)) in
  let* r23 := v_edge_label (view false result_graph) 2 3 in
  let* _ := check (bool_decide (r23 = None)) in
  let* r24 := v_edge_label (view false result_graph) 2 1 in
  let* _ := check (bool_decide (r24 = (Some 10%N))) in
  let* r25 := v_edge_label (view false result_graph) 4 3 in
  let* _ := check (bool_decide (r25 = None)) in
  Ok tt) = Ok tt.
Proof. by vm_compute. Qed.

(** test_graph_sub_boxed_directed_generalgraphs, tests/algorithm.rs l.892-936. *)
Example test_graph_sub_boxed_directed_generalgraphs :
  (let graph0 : graphmap N N := gm_new in
  let* '(r1, graph0) := gm_add_node TU32 1 (Some 0%N) graph0 in
  let* '(r2, graph0) := gm_add_node TU32 2 (Some 1%N) graph0 in
  let* '(r3, graph0) := gm_add_node TU32 3 (Some 2%N) graph0 in
  let* '(r4, graph0) := gm_add_node TU32 4 (Some 3%N) graph0 in
  let* '(r5, graph0) := gm_add_edge true TU32 1 2 (Some 10%N) graph0 in
  let* '(r6, graph0) := gm_add_edge true TU32 3 4 (Some 20%N) graph0 in
  let graph1 : graphmap N N := gm_new in
  let* '(r7, graph1) := gm_add_node TU32 3 (Some 2%N) graph1 in
  let* '(r8, graph1) := gm_add_node TU32 4 (Some 3%N) graph1 in
  let* '(r9, graph1) := gm_add_edge true TU32 3 4 (Some 20%N) graph1 in
  let box0 := graph0 in
  let box1 := graph1 in
  let* result_graph := graph_minus TU32 (view true box0) (view true box1) in
  let* _ := check (bool_decide (v_node_count (view true result_graph) = 2)) in
  let* _ := check (bool_decide (v_edge_count (view true result_graph) = 1)) in
  let* _ := check (bool_decide (v_has_node (view true result_graph) 1 = true)) in
  let* _ := check (bool_decide (v_has_node (view true result_graph) 2 = true)) in
  let* _ := check (bool_decide (v_has_node (view true result_graph) 3 = false)) in
  let* _ := check (bool_decide (v_has_node (view true result_graph) 4 = false)) in
  let* r10 := v_has_edge (view true result_graph) 1 2 in
  let* _ := check (bool_decide (r10 = true)) in
  let* r11 := v_has_edge (view true result_graph) 3 4 in
  let* _ := check (bool_decide (r11 = false)) in
  let* r12 := v_has_edge (view true result_graph) 2 1 in
  let* _ := check (bool_decide (r12 = false)) in
  let* r13 := v_has_edge (view true result_graph) 4 3 in
  let* _ := check (bool_decide (r13 = false)) in
  let* r14 := v_has_edge (view true result_graph) 2 3 in
  let* _ := check (bool_decide (r14 = false)) in
  let* r15 := v_has_edge (view true result_graph) 1 4 in
  let* _ := check (bool_decide (r15 = false)) in
  let* r16 := v_node_label (view true result_graph) 1 in
  let* _ := check (bool_decide (r16 = (Some 0%N))) in
  let* r17 := v_node_label (view true result_graph) 2 in
  let* _ := check (bool_decide (r17 = (Some 1%N))) in
  let* r18 := v_node_label (view true result_graph) 3 in
  let* _ := check (bool_decide (r18 = None)) in
  let* r19 := v_node_label (view true result_graph) 4 in
  let* _ := check (bool_decide (r19 = None)) in
  let* r20 := v_edge_label (view true result_graph) 1 2 in
  let* _ := check (bool_decide (r20 = (Some 10%N))) in
  let* r21 := v_edge_label (view true result_graph) 3 4 in
  let* _ := check (bool_decide (r21 = None)) in
  let* r22 := v_edge_label (view true result_graph) 1 4 in
  let* _ := check (bool_decide (r22 = None)) in
  let* r23 := v_edge_label (view true result_graph) 2 3 in
  let* _ := check (bool_decide (r23 = None)) in
  let* r24 := v_edge_label (view true result_graph) 2 1 in
  let* _ := check (bool_decide (r24 = None)) in
  let* r25 := v_edge_label (view true result_graph) 4 3 in
  let* _ := check (bool_decide (r25 = None)) in
  Ok tt) = Ok tt.
Proof. by vm_compute. Qed.

(** test_graph_sub_boxed_undirected_generalgraphs, tests/algorithm.rs l.939-983. *)
Example test_graph_sub_boxed_undirected_generalgraphs :
  (let graph0 : graphmap N N := gm_new in
  let* '(r1, graph0) := gm_add_node TU32 1 (Some 0%N) graph0 in
  let* '(r2, graph0) := gm_add_node TU32 2 (Some 1%N) graph0 in
  let* '(r3, graph0) := gm_add_node TU32 3 (Some 2%N) graph0 in
  let* '(r4, graph0) := gm_add_node TU32 4 (Some 3%N) graph0 in
  let* '(r5, graph0) := gm_add_edge false TU32 1 2 (Some 10%N) graph0 in
  let* '(r6, graph0) := gm_add_edge false TU32 3 4 (Some 20%N) graph0 in
  let graph1 : graphmap N N := gm_new in
  let* '(r7, graph1) := gm_add_node TU32 3 (Some 2%N) graph1 in
  let* '(r8, graph1) := gm_add_node TU32 4 (Some 3%N) graph1 in
  let* '(r9, graph1) := gm_add_edge false TU32 3 4 (Some 20%N) graph1 in
  let box0 := graph0 in
  let box1 := graph1 in
  let* result_graph := graph_minus TU32 (view false box0) (view false box1) in
  let* _ := check (bool_decide (v_node_count (view false result_graph) = 2)) in
  let* _ := check (bool_decide (v_edge_count (view false result_graph) = 1)) in
  let* _ := check (bool_decide (v_has_node (view false result_graph) 1 = true)) in
  let* _ := check (bool_decide (v_has_node (view false result_graph) 2 = true)) in
  let* _ := check (bool_decide (v_has_node (view false result_graph) 3 = false)) in
  let* _ := check (bool_decide (v_has_node (view false result_graph) 4 = false)) in
  let* r10 := v_has_edge (view false result_graph) 1 2 in
  let* _ := check (bool_decide (r10 = true)) in
  let* r11 := v_has_edge (view false result_graph) 3 4 in
  let* _ := check (bool_decide (r11 = false)) in
  let* r12 := v_has_edge (view false result_graph) 2 1 in
  let* _ := check (bool_decide (r12 = true)) in
  let* r13 := v_has_edge (view false result_graph) 4 3 in
  let* _ := check (bool_decide (r13 = false)) in
  let* r14 := v_has_edge (view false result_graph) 2 3 in
  let* _ := check (bool_decide (r14 = false)) in
  let* r15 := v_has_edge (view false result_graph) 1 4 in
  let* _ := check (bool_decide (r15 = false)) in
  let* r16 := v_node_label (view false result_graph) 1 in
  let* _ := check (bool_decide (r16 = (Some 0%N))) in
  let* r17 := v_node_label (view false result_graph) 2 in
  let* _ := check (bool_decide (r17 = (Some 1%N))) in
  let* r18 := v_node_label (view false result_graph) 3 in
  let* _ := check (bool_decide (r18 = None)) in
  let* r19 := v_node_label (view false result_graph) 4 in
  let* _ := check (bool_decide (r19 = None)) in
  let* r20 := v_edge_label (view false result_graph) 1 2 in
  let* _ := check (bool_decide (r20 = (Some 10%N))) in
  let* r21 := v_edge_label (view false result_graph) 3 4 in
  let* _ := check (bool_decide (r21 = None)) in
  let* r22 := v_edge_label (view false result_graph) 1 4 in
  let* _ := check (bool_decide (r22 = None)) in
  let* r23 := v_edge_label (view false result_graph) 2 3 in
  let* _ := check (bool_decide (r23 = None)) in
  let* r24 := v_edge_label (view false result_graph) 2 1 in
  let* _ := check (bool_decide (r24 = (Some 10%N))) in
  let* r25 := v_edge_label (view false result_graph) 4 3 in
  let* _ := check (bool_decide (r25 = None)) in
  Ok tt) = Ok tt.
Proof. by vm_compute. Qed.

(** test_graph_sub_boxed_directed_typedgraphs, tests/algorithm.rs l.986-1028. *)
Example test_graph_sub_boxed_directed_typedgraphs :
  (let graph0 : graphmap N N := gm_new in
  let* '(r1, graph0) := gm_add_node TU32 1 (Some 0%N) graph0 in
  let* '(r2, graph0) := gm_add_node TU32 2 (Some 1%N) graph0 in
  let* '(r3, graph0) := gm_add_node TU32 3 (Some 2%N) graph0 in
  let* '(r4, graph0) := gm_add_node TU32 4 (Some 3%N) graph0 in
  let* '(r5, graph0) := gm_add_edge true TU32 1 2 (Some 10%N) graph0 in
  let* '(r6, graph0) := gm_add_edge true TU32 3 4 (Some 20%N) graph0 in
  let graph1 : graphmap N N := gm_new in
  let* '(r7, graph1) := gm_add_node TU32 3 (Some 2%N) graph1 in
  let* '(r8, graph1) := gm_add_node TU32 4 (Some 3%N) graph1 in
  let* '(r9, graph1) := gm_add_edge true TU32 3 4 (Some 20%N) graph1 in
  let* result_graph := graph_minus TU32 (view true graph0) (view true graph1) in
  let* _ := check (bool_decide (v_node_count (view true result_graph) = 2)) in
  let* _ := check (bool_decide (v_edge_count (view true result_graph) = 1)) in
  let* _ := check (bool_decide (v_has_node (view true result_graph) 1 = true)) in
  let* _ := check (bool_decide (v_has_node (view true result_graph) 2 = true)) in
  let* _ := check (bool_decide (v_has_node (view true result_graph) 3 = false)) in
  let* _ := check (bool_decide (v_has_node (view true result_graph) 4 = false)) in
  let* r10 := v_has_edge (view true result_graph) 1 2 in
  let* _ := check (bool_decide (r10 = true)) in
  let* r11 := v_has_edge (view true result_graph) 3 4 in
  let* _ := check (bool_decide (r11 = false)) in
  let* r12 := v_has_edge (view true result_graph) 2 1 in
  let* _ := check (bool_decide (r12 = false)) in
  let* r13 := v_has_edge (view true result_graph) 4 3 in
  let* _ := check (bool_decide (r13 = false)) in
  let* r14 := v_has_edge (view true result_graph) 2 3 in
  let* _ := check (bool_decide (r14 = false)) in
  let* r15 := v_has_edge (view true result_graph) 1 4 in
  let* _ := check (bool_decide (r15 = false)) in
  let* r16 := v_node_label (view true result_graph) 1 in
  let* _ := check (bool_decide (r16 = (Some 0%N))) in
  let* r17 := v_node_label (view true result_graph) 2 in
  let* _ := check (bool_decide (r17 = (Some 1%N))) in
  let* r18 := v_node_label (view true result_graph) 3 in
  let* _ := check (bool_decide (r18 = None)) in
  let* r19 := v_node_label (view true result_graph) 4 in
  let* _ := check (bool_decide (r19 = None)) in
  let* r20 := v_edge_label (view true result_graph) 1 2 in
  let* _ := check (bool_decide (r20 = (Some 10%N))) in
  let* r21 := v_edge_label (view true result_graph) 3 4 in
  let* _ := check (bool_decide (r21 = None)) in
  let* r22 := v_edge_label (view true result_graph) 1 4 in
  let* _ := check (bool_decide (r22 = None)) in
  let* r23 := v_edge_label (view true result_graph) 2 3 in
  let* _ := check (bool_decide (r23 = None)) in
  let* r24 := v_edge_label (view true result_graph) 2 1 in
  let* _ := check (bool_decide (r24 = None)) in
  let* r25 := v_edge_label (view true result_graph) 4 3 in
  let* _ := check (bool_decide (r25 = None)) in
  Ok tt) = Ok tt.
Proof. by vm_compute. Qed.

(** test_graph_sub_boxed_undirected_typedgraphs, tests/algorithm.rs l.1031-1073. *)
Example test_graph_sub_boxed_undirected_typedgraphs :
  (let graph0 : graphmap N N := gm_new in
  let* '(r1, graph0) := gm_add_node TU32 1 (Some 0%N) graph0 in
  let* '(r2, graph0) := gm_add_node TU32 2 (Some 1%N) graph0 in
  let* '(r3, graph0) := gm_add_node TU32 3 (Some 2%N) graph0 in
  let* '(r4, graph0) := gm_add_node TU32 4 (Some 3%N) graph0 in
  let* '(r5, graph0) := gm_add_edge false TU32 1 2 (Some 10%N) graph0 in
  let* '(r6, graph0) := gm_add_edge false TU32 3 4 (Some 20%N) graph0 in
  let graph1 : graphmap N N := gm_new in
  let* '(r7, graph1) := gm_add_node TU32 3 (Some 2%N) graph1 in
  let* '(r8, graph1) := gm_add_node TU32 4 (Some 3%N) graph1 in
  let* '(r9, graph1) := gm_add_edge false TU32 3 4 (Some 20%N) graph1 in
  let* result_graph := graph_minus TU32 (view false graph0) (view false graph1) in
  let* _ := check (bool_decide (v_node_count (view false result_graph) = 2)) in
  let* _ := check (bool_decide (v_edge_count (view false result_graph) = 1)) in
  let* _ := check (bool_decide (v_has_node (view false result_graph) 1 = true)) in
  let* _ := check (bool_decide (v_has_node (view false result_graph) 2 = true)) in
  let* _ := check (bool_decide (v_has_node (view false result_graph) 3 = false)) in
  let* _ := check (bool_decide (v_has_node (view false result_graph) 4 = false)) in
  let* r10 := v_has_edge (view false result_graph) 1 2 in
  let* _ := check (bool_decide (r10 = true)) in
  let* r11 := v_has_edge (view false result_graph) 3 4 in
  let* _ := check (bool_decide (r11 = false)) in
  let* r12 := v_has_edge (view false result_graph) 2 1 in
  let* _ := check (bool_decide (r12 = true)) in
  let* r13 := v_has_edge (view false result_graph) 4 3 in
  let* _ := check (bool_decide (r13 = false)) in
  let* r14 := v_has_edge (view false result_graph) 2 3 in
  let* _ := check (bool_decide (r14 = false)) in
  let* r15 := v_has_edge (view false result_graph) 1 4 in
  let* _ := check (bool_decide (r15 = false)) in
  let* r16 := v_node_label (view false result_graph) 1 in
  let* _ := check (bool_decide (r16 = (Some 0%N))) in
  let* r17 := v_node_label (view false result_graph) 2 in
  let* _ := check (bool_decide (r17 = (Some 1%N))) in
  let* r18 := v_node_label (view false result_graph) 3 in
  let* _ := check (bool_decide (r18 = None)) in
  let* r19 := v_node_label (view false result_graph) 4 in
  let* _ := check (bool_decide (r19 = None)) in
  let* r20 := v_edge_label (view false result_graph) 1 2 in
  let* _ := check (bool_decide (r20 = (Some 10%N))) in
  let* r21 := v_edge_label (view false result_graph) 3 4 in
  let* _ := check (bool_decide (r21 = None)) in
  let* r22 := v_edge_label (view false result_graph) 1 4 in
  let* _ := check (bool_decide (r22 = None)) in
  let* r23 := v_edge_label (view false result_graph) 2 3 in
  let* _ := check (bool_decide (r23 = None)) in
  let* r24 := v_edge_label (view false result_graph) 2 1 in
  let* _ := check (bool_decide (r24 = (Some 10%N))) in
  let* r25 := v_edge_label (view false result_graph) 4 3 in
  let* _ := check (bool_decide (r25 = None)) in
  Ok tt) = Ok tt.
Proof. by vm_compute. Qed.
