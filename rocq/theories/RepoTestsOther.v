(** The tests of tests/map.rs, tests/io.rs, tests/graph_gen.rs, the mapped edge vectors of
    tests/static_graph.rs and the examples in the documentation comments of src/, run on the
    model like those of RepoTestsGraphMap.v. A test that draws random numbers is run with one
    sequence of draws. *)
From stdpp Require Import gmap strings.
From Coq Require Import SpecFloat.
From Verif Require Import Base Api Map GraphMap Static Bytes Mmap ViewOps Gen ConnComp Traverse GraphOps Handles Csv RepoTests.

(** test_set_map and test_vec_map, tests/map.rs l.29-54 and l.57-82. *)
Definition test_map (new : list string) (add : list string → string → res (nat * list string))
    (len : list string → nat) (get : list string → nat → option string) (has : list string → string → bool)
    (find : list string → string → option nat) (items : list string → list string) : res unit :=
  let m := new in
  let* _ := check (bool_decide (len m = 0)) in
  let* '(i, m) := add m "zero"%string in let* _ := check (bool_decide (i = 0)) in
  let* '(i, m) := add m "first"%string in let* _ := check (bool_decide (i = 1)) in
  let* '(i, m) := add m "zero"%string in let* _ := check (bool_decide (i = 0)) in
  let* '(i, m) := add m "first"%string in let* _ := check (bool_decide (i = 1)) in
  let* _ := check (bool_decide (len m = 2)) in
  let* _ := check (bool_decide (get m 0 = Some "zero"%string)) in
  let* _ := check (bool_decide (get m 1 = Some "first"%string)) in
  let* _ := check (bool_decide (get m 2 = None)) in
  let* _ := check (has m "zero"%string) in
  let* _ := check (negb (has m "five"%string)) in
  let* _ := check (bool_decide (find m "zero"%string = Some 0)) in
  let* _ := check (bool_decide (find m "first"%string = Some 1)) in
  let* _ := check (bool_decide (find m "five"%string = None)) in
  check (bool_decide (items m = ["zero"; "first"]%string)).
Example test_set_map : test_map sm_new sm_add_item sm_len sm_get_item sm_contains sm_find_index sm_items = Ok tt.
Proof. by vm_compute. Qed.
Example test_vec_map : test_map vm_new vm_add_item vm_len vm_get_item vm_contains vm_find_index vm_items = Ok tt.
Proof. by vm_compute. Qed.
(** test_macro, tests/map.rs l.85-95; the macros add their items one by one. *)
Example test_macro :
  (let* setmap1 := sm_from_iter [1; 2; 3]%N in
   let* _ := check (bool_decide (sm_items setmap1 = [1; 2; 3]%N)) in
   let* vecmap1 := vm_from_iter [1; 2; 3]%N in
   let* _ := check (bool_decide (vm_items vecmap1 = [1; 2; 3]%N)) in
   let* setmap2 := sm_from_iter (N.of_nat <$> seq 1 3) in
   let* _ := check (sm_eq setmap2 setmap1) in
   let* vecmap2 := vm_from_iter (N.of_nat <$> seq 1 3) in
   check (vm_eq vecmap2 vecmap1)) = Ok tt.
Proof. by vm_compute. Qed.

(** test_edge_vec_mmap and test_edge_vec_mmap_label, tests/static_graph.rs l.175-228. *)
Fixpoint each {A} (f : A → res unit) (l : list A) : res unit :=
  match l with [] => Ok tt | x :: l => let* _ := f x in each f l end.
Definition mmap_test (edgevec : evec) (label : N → N → option N) : res unit :=
  let F := fs_run ∅ (ev_dump_ops TU32 TU32 edgevec "edgevec") in
  let* edgevec_mmap := ev_open TU32 TU32 F "edgevec" in
  let* k := ev_num_nodes edgevec in
  let* k' := ev_num_nodes edgevec_mmap in
  let* _ := check (bool_decide (k = k')) in
  let* _ := each (λ node, let* l := ev_neighbors edgevec node in let* l' := ev_neighbors edgevec_mmap node in
    check (bool_decide (l = l'))) (N.of_nat <$> seq 0 k) in
  each (λ node, let* l := ev_neighbors edgevec_mmap node in
    each (λ nbr, let* o := ev_find_edge_label_id edgevec_mmap node nbr in check (bool_decide (o = label node nbr))) l)
    (N.of_nat <$> seq 0 k).
Example test_edge_vec_mmap :
  mmap_test (ev_new [0; 3; 5; 8; 10] [1; 2; 3; 0; 2; 0; 1; 3; 0; 2]%N) (λ _ _, None) = Ok tt.
Proof. by vm_compute. Qed.
Definition expected_label : list (list N) := [[0; 0; 4; 3]; [0; 0; 1; 0]; [4; 1; 0; 2]; [3; 0; 2; 0]]%N.
Example test_edge_vec_mmap_label :
  (let* e := ev_with_labels [0; 3; 5; 8; 10] [1; 2; 3; 0; 2; 0; 1; 3; 0; 2]%N [0; 4; 3; 0; 1; 4; 1; 2; 3; 2]%N in
   mmap_test e (λ node nbr, row ← expected_label !! N.to_nat node; row !! N.to_nat nbr)) = Ok tt.
Proof. by vm_compute. Qed.

(** Draws for the tests of the generators. *)
Definition draws : rng :=
  Rng (λ k, k * 7 * k + 3 * k + 5)
      (λ k, if decide (k mod 3 = 0) then S754_finite false 8388608 (-24) else S754_zero false).

(** test_cvs_unlabeled and test_cvs_labeled, tests/io.rs l.32-74 and l.77-124. *)
Definition csv_test {NL EL} `{EqDecision NL, EqDecision EL} (dir : bool) (tn : text NL) (te : text EL)
    (r : res (graphmap NL EL)) (g' : graphmap NL EL) : res unit :=
  let* g := r in
  let* F := csv_write TU32 tn te (view dir g) "nodes_1.csv" "edges_1.csv" ∅ in
  let* '(g', ok) := csv_read dir TU32 TU32 tn te (Reader (Some "nodes_1.csv"%string) "edges_1.csv" true true) F g' in
  let* _ := check ok in
  let* b := graph_eq (view dir g) (view dir g') in check b.
Example test_cvs_unlabeled dir :
  csv_test dir (t_id TUnit) (t_id TUnit) (random_gnm_graph_unlabeled dir TU32 draws 10 20) gm_new = Ok tt.
Proof. destruct dir; by vm_compute. Qed.
Example test_cvs_labeled dir :
  (let* nls := sm_from_iter ["a"; "b"]%string in let* els := sm_from_iter [1; 2; 3]%N in
   csv_test dir t_string (t_id TU32) (random_gnm_graph dir TU32 draws 10 20 ["a"; "b"]%string [1; 2; 3]%N)
     (gm_with_label_map nls els)) = Ok tt.
Proof. destruct dir; by vm_compute. Qed.

(** test_random_gnp_graph and test_random_gnm_graph, tests/graph_gen.rs l.30-52, with a tenth of
    the nodes and edges; for all sizes and draws see C53_gnm and C54_gnp_partial. *)
Example test_random_gnp_graph :
  (let* empty := @random_gnp_graph_unlabeled N N _ _ true TU32 draws 10 (S754_zero false) in
   let* '(_, e) := @empty_graph_unlabeled N N _ _ TU32 draws 10 in
   let* b := graph_eq (view true empty) (view true e) in
   let* _ := check b in
   let* clique := @random_gnp_graph_unlabeled N N _ _ false TU32 draws 10 (S754_finite false 8388608 (-23)) in
   let* c := @complete_graph_unlabeled N N _ _ false TU32 draws 10 in
   let* b := graph_eq (view false clique) (view false c) in check b) = Ok tt.
Proof. by vm_compute. Qed.
Example test_random_gnm_graph dir :
  (let* g := @random_gnm_graph_unlabeled N N _ _ dir TU32 draws 15 100 in
   let* _ := check (bool_decide (v_node_count (view dir g) = 15)) in
   check (bool_decide (v_edge_count (view dir g) = 100))) = Ok tt.
Proof. destruct dir; by vm_compute. Qed.

(** The examples of Bfs (bfs.rs l.37-56) and Dfs (dfs.rs l.36-55). *)
Definition path4 : res (graphmap N N) :=
  let* '(_, g) := gm_add_edge false TU32 0 1 None gm_new in
  let* '(_, g) := gm_add_edge false TU32 1 2 None g in
  let* '(_, g) := gm_add_edge false TU32 2 3 None g in Ok g.
Example doc_bfs : (let* g := path4 in bfs_run TU32 (view false g) 9 (Some 0%N)) = Ok [0; 1; 2; 3]%N.
Proof. by vm_compute. Qed.
Example doc_dfs : (let* g := path4 in dfs_run TU32 (view false g) 9 (Some 0%N)) = Ok [0; 1; 2; 3]%N.
Proof. by vm_compute. Qed.
(** The example of with_label_map, graph_map/graph.rs l.193-211. *)
Example doc_with_label_map :
  (let* '(_, g) := gm_add_node TU32 0 (Some "a"%string) (@gm_new string string) in
   let* '(_, g) := gm_add_node TU32 1 (Some "b"%string) g in
   let* '(_, g) := gm_add_edge false TU32 0 1 None g in
   let p := gm_with_label_map (v_node_label_map (view false g)) (v_edge_label_map (view false g)) in
   let* '(_, p) := gm_add_node TU32 1 (Some "b"%string) p in
   let* '(_, p) := gm_add_node TU32 0 (Some "a"%string) p in
   let* '(_, p) := gm_add_edge false TU32 0 1 None p in
   let* _ := each (λ n, let* l := nt_get_label_id (gmh_get_node g n) in let* l' := nt_get_label_id (gmh_get_node p n) in
     check (bool_decide (l = l'))) [0; 1]%N in
   Ok tt) = Ok tt.
Proof. by vm_compute. Qed.
