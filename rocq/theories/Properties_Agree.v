(** C91-C92: the traversals and ConnComp agree; what is fed to a Hasher. *)
From Verif Require Import Base Api Spec SpecTraverse Traverse TraverseProps SpecConn ConnComp ConnCompProps Map GraphMap GraphMapProps ViewOps AgreeProps AgreeWit HashProps ViewOpsWit.

(** ** C91. On an undirected graph, from any node with an edge: Bfs and Dfs start with the
    nodes that get_connected_nodes lists, which are those is_connected accepts. [keys]: the
    keys of the HashMap in any order. *)
Theorem C91_traversals_and_components {NL EL} (idt : idty) (V : gview NL EL) (A : agraph NL EL) s n :
  represents V A → iterates V → (∀ m, v_max_seen_id V = Ok (Some m) → (m < id_card idt)%N) →
  ag_dir A = false → a_has_edge A s n →
  ∃ c lb ld, cc_new V = Ok c ∧ (∀ fuel, v_node_count V < fuel → bfs_run idt V fuel (Some s) = Ok lb ∧ dfs_run idt V fuel (Some s) = Ok ld) ∧
    ∀ keys, lists_exactly keys (λ k, is_Some (cc_get_parent k c)) →
      ∃ l c', cc_get_connected_nodes keys s c = Ok (Some l, c') ∧
        take (length l) lb ≡ₚ l ∧ take (length l) ld ≡ₚ l ∧
        (∀ x, (∃ c'', cc_is_connected s x c = Ok (true, c'')) ↔ x ∈ l).
Proof. intros H1 H2 H3. exact (agree idt V A H1 H2 H3 s n). Qed.
Print Assumptions C91_traversals_and_components.
(** For a GraphMap after any history of calls. *)
Theorem C91_graphmap {NL EL} `{EqDecision NL, EqDecision EL} (idt lt : idty) (g : graphmap NL EL) ord s n :
  gm_reachable false lt g → hash_order g ord →
  let V := gm_view false ord g in
  (∀ m, v_max_seen_id V = Ok (Some m) → (m < id_card idt)%N) → v_has_edge V s n = Ok true →
  ∃ c lb ld, cc_new V = Ok c ∧ (∀ fuel, v_node_count V < fuel → bfs_run idt V fuel (Some s) = Ok lb ∧ dfs_run idt V fuel (Some s) = Ok ld) ∧
    ∀ keys, lists_exactly keys (λ k, is_Some (cc_get_parent k c)) →
      ∃ l c', cc_get_connected_nodes keys s c = Ok (Some l, c') ∧
        take (length l) lb ≡ₚ l ∧ take (length l) ld ≡ₚ l ∧
        (∀ x, (∃ c'', cc_is_connected s x c = Ok (true, c'')) ↔ x ∈ l).
Proof. exact (agree_graphmap idt lt g ord s n). Qed.
Print Assumptions C91_graphmap.
Example C91_case : let V := run_view false ag_h in
  gm_reachable false TU8 (run_gm false ag_h) ∧ hash_order (run_gm false ag_h) (map_to_list (g_nodes (run_gm false ag_h))).*1 ∧
  (∀ m, v_max_seen_id V = Ok (Some m) → (m < id_card TU8)%N) ∧ v_has_edge V 5%N 2%N = Ok true ∧
  bfs_run TU8 V 6 (Some 5%N) = Ok [5; 0; 2; 3; 7]%N ∧ dfs_run TU8 V 6 (Some 5%N) = Ok [5; 2; 0; 3; 7]%N.
Proof. exact ag_case. Qed.
(** On any graph ConnComp joins a node to everything that can be reached from it. *)
Theorem C91_reachable_is_connected {NL EL} (V : gview NL EL) (A : agraph NL EL) s x :
  represents V A → iterates V → reaches A s x → s ≠ x →
  ∃ c c', cc_new V = Ok c ∧ cc_is_connected s x c = Ok (true, c').
Proof. intros H1 H2. exact (reach_joined V A H1 H2 s x). Qed.
Print Assumptions C91_reachable_is_connected.
Example C91_directed_case : let V := run_view true ag_h in let A := sp_g (run_spec true ag_h) in
  represents V A ∧ iterates V ∧ reaches A 0%N 2%N ∧ ¬ a_has_edge A 0%N 2%N.
Proof. exact ag_directed_case. Qed.

(** ** C92. Two graphs of one type feed the same input to a Hasher exactly when they are the
    same graph: same nodes, edges and labels. For boxed graphs the direction is included. *)
Theorem C92_hash_input {NL EL} (V V' : gview NL EL) (A A' : agraph NL EL) :
  represents V A → represents V' A' → ag_dir A = ag_dir A' → graph_hash V = graph_hash V' ↔ A = A'.
Proof. exact (graph_hash_inj V V' A A'). Qed.
Print Assumptions C92_hash_input.
Theorem C92_boxed_hash_input {NL EL} (V V' : gview NL EL) (A A' : agraph NL EL) :
  represents V A → represents V' A' → box_hash V = box_hash V' ↔ A = A'.
Proof. exact (box_hash_inj V V' A A'). Qed.
Print Assumptions C92_boxed_hash_input.
Example C92_case dir : (∃ (V V' : gview N N) A A', represents V A ∧ represents V' A' ∧ ag_dir A = ag_dir A' ∧ ag_dir A = dir ∧
    exact_count V A ∧ exact_count V' A' ∧ a_num_edges A = 2 ∧ a_num_nodes A = 4 ∧ V ≠ V' ∧ A = A' ∧ graph_eq V V' = Ok true ∧ v_equal V V' = Ok true) ∧
  ∃ (V V' : gview N N) A A' h h', represents V A ∧ represents V' A' ∧ ag_dir A = dir ∧ ag_dir A' = dir ∧ exact_count V A ∧ exact_count V' A' ∧
    graph_eq V V' = Ok true ∧ graph_eq V' V = Ok false ∧ A ≠ A' ∧ graph_hash V = Ok h ∧ graph_hash V' = Ok h' ∧ h ≠ h'.
Proof. exact (conj (eq_case dir) (eq_refuted dir)). Qed.
