(** C120: what a graph shows decides what it will do. [look_alike V V'] (SpecAlike.v): the
    queries tell the same nodes, edges and labels. The two graphs may have been built by
    different calls, number their labels differently, count edges differently and iterate
    in different orders. *)
From Verif Require Import Base Api Spec SpecHist Map GraphMap Static IntoStatic ConnComp SpecConnGrow Traverse ViewOps Reorder SpecAlike AlikeProps AlikeWit.

(** ** C120. The same calls on two graphs that look alike: both panic, or they return the
    same and the graphs still look alike. edge_count() changes by the same amount.
    [labels_fit]: as many labels as the label id type can number. *)
Theorem C120_future {NL EL} `{EqDecision NL, EqDecision EL} dir lt lt' (nls nls' : list NL) (els els' : list EL) h1 h2 h rs1 rs2 g1 g2 it1 it2 :
  NoDup nls → NoDup els → NoDup nls' → NoDup els' →
  Forall (λ o, is_raw o = false) h1 → Forall (λ o, is_raw o = false) h2 → Forall (λ o, on_graph o = true) h →
  gm_run dir lt h1 (gm_with_label_map nls els) = Ok (rs1, g1) → gm_run dir lt' h2 (gm_with_label_map nls' els') = Ok (rs2, g2) →
  labels_fit lt (g_nlm g1) → labels_fit lt (g_elm g1) → labels_fit lt' (g_nlm g2) → labels_fit lt' (g_elm g2) →
  hash_order g1 it1 → hash_order g2 it2 → look_alike (gm_view dir it1 g1) (gm_view dir it2 g2) →
  (gm_run dir lt h g1 = Panic ∧ gm_run dir lt' h g2 = Panic) ∨
  ∃ rs rs' g1' g2', gm_run dir lt h g1 = Ok (rs, g1') ∧ gm_run dir lt' h g2 = Ok (rs', g2') ∧
    (labels_fit lt (g_nlm g1') → labels_fit lt (g_elm g1') → labels_fit lt' (g_nlm g2') → labels_fit lt' (g_elm g2') →
     rs = rs' ∧ ∀ o1 o2, hash_order g1' o1 → hash_order g2' o2 →
       let V1 := gm_view dir it1 g1 in let V2 := gm_view dir it2 g2 in
       let V1' := gm_view dir o1 g1' in let V2' := gm_view dir o2 g2' in
       look_alike V1' V2' ∧ v_edge_count V1' + v_edge_count V2 = v_edge_count V2' + v_edge_count V1 ∧
       (v_max_seen_id V1 = v_max_seen_id V2 → v_max_seen_id V1' = v_max_seen_id V2')).
Proof. exact (future dir lt lt' nls nls' els els' h1 h2 h rs1 rs2 g1 g2 it1 it2). Qed.
Print Assumptions C120_future.
Example C120_case (dir : bool) : ∃ rs1 rs2 g1 g2, gm_run dir TU8 al_h1 (gm_with_label_map [] []) = Ok (rs1, g1) ∧ gm_run dir TU8 al_h2 (gm_with_label_map [] []) = Ok (rs2, g2) ∧
  labels_fit TU8 (g_nlm g1) ∧ labels_fit TU8 (g_elm g1) ∧ labels_fit TU8 (g_nlm g2) ∧ labels_fit TU8 (g_elm g2) ∧
  look_alike (gm_view dir (map_to_list (g_nodes g1)).*1 g1) (gm_view dir (map_to_list (g_nodes g2)).*1 g2) ∧
  g_nlm g1 = [7; 8]%N ∧ g_nlm g2 = [8; 7]%N ∧ g_elm g1 = [5]%N ∧ g_elm g2 = [6; 4; 5]%N ∧ gm_edge_count g1 = 2 ∧ gm_edge_count g2 = 3 ∧
  rmap fst (gm_run dir TU8 al_h g1) = Ok [RBool false; RNode (Some (3, None)); RBool false; REdge (Some (1, 2, Some 6)); RBool true]%N ∧
  rmap fst (gm_run dir TU8 al_h g2) = Ok [RBool false; RNode (Some (3, None)); RBool false; REdge (Some (1, 2, Some 6)); RBool true]%N.
Proof. exact (al_case dir). Qed.

(** The queries that look_alike leaves open, for any two graphs behind the traits (of
    whatever implementation): iterators differ in order only, neighbour lists not at all. *)
Theorem C120_lists {NL EL} `{EqDecision NL, EqDecision EL} (V V' : gview NL EL) A A' : represents V A → represents V' A' → look_alike V V' →
  v_node_count V = v_node_count V' ∧ v_node_indices V ≡ₚ v_node_indices V' ∧
  (∃ es es', v_edge_indices V = Ok es ∧ v_edge_indices V' = Ok es' ∧ es ≡ₚ es') ∧
  ∀ n, v_has_node V n = true → v_neighbors V n = v_neighbors V' n ∧ v_degree V n = v_degree V' n ∧
    (v_directed V = true → v_in_neighbors V n = v_in_neighbors V' n ∧ v_in_degree V n = v_in_degree V' n).
Proof. exact (alike_lists V V' A A'). Qed.
Print Assumptions C120_lists.
(** Bfs and Dfs from the same start yield the same nodes in the same order. *)
Theorem C120_traversals {NL EL} `{EqDecision NL, EqDecision EL} idt idt' (V V' : gview NL EL) A A' s : represents V A → represents V' A' → look_alike V V' →
  (∀ m, v_max_seen_id V = Ok (Some m) → (m < id_card idt)%N) → (∀ m, v_max_seen_id V' = Ok (Some m) → (m < id_card idt')%N) → v_has_node V s = true →
  (∃ l, ∀ fuel, v_node_count V < fuel → bfs_run idt V fuel (Some s) = Ok l ∧ bfs_run idt' V' fuel (Some s) = Ok l) ∧
  (∃ l, ∀ fuel, v_node_count V < fuel → dfs_run idt V fuel (Some s) = Ok l ∧ dfs_run idt' V' fuel (Some s) = Ok l).
Proof. exact (alike_traversals idt idt' V V' A A' s). Qed.
Print Assumptions C120_traversals.
(** The same components, hash input and label counts. *)
Theorem C120_results {NL EL} `{EqDecision NL, EqDecision EL} (V V' : gview NL EL) A A' : represents V A → represents V' A' → iterates V → iterates V' → look_alike V V' →
  (∃ c c', cc_new V = Ok c ∧ cc_new V' = Ok c' ∧ cc_get_count c = cc_get_count c' ∧ ∀ a b, connected c a b ↔ connected c' a b) ∧
  (∃ k, box_hash V = Ok k ∧ box_hash V' = Ok k) ∧
  (∃ c c', v_node_label_counter V = Ok c ∧ v_node_label_counter V' = Ok c' ∧ ∀ l, counter_get l c = counter_get l c') ∧
  (∃ c c', v_edge_label_counter V = Ok c ∧ v_edge_label_counter V' = Ok c' ∧ ∀ l, counter_get l c = counter_get l c').
Proof. exact (alike_results V V' A A'). Qed.
Print Assumptions C120_results.
Example C120_algorithms_case (dir : bool) : ∃ (V V' : gview N N) A A', represents V A ∧ represents V' A' ∧ iterates V ∧ iterates V' ∧ look_alike V V' ∧
  v_max_seen_id V = Ok (Some 3%N) ∧ v_max_seen_id V' = Ok (Some 9%N) ∧ v_has_node V 3 = true ∧ v_edge_count V ≠ v_edge_count V' ∧ v_node_label_map V ≠ v_node_label_map V' ∧
  bfs_run TU8 V 5 (Some 3%N) = Ok [3; 2; 1]%N.
Proof. exact (al_algorithms dir). Qed.
(** equal() decides it when edge_count() is right. *)
Theorem C120_equal {NL EL} `{EqDecision NL, EqDecision EL} (V V' : gview NL EL) A A' : represents V A → represents V' A' → exact_count V A → exact_count V' A' →
  (v_equal V V' = Ok true ↔ look_alike V V').
Proof. exact (alike_equal V V' A A'). Qed.
Print Assumptions C120_equal.
Example C120_equal_case (dir : bool) : ∃ (V V' : gview N N) A, represents V A ∧ represents V' A ∧ exact_count V A ∧ exact_count V' A ∧ v_equal V V' = Ok true ∧ v_node_label_map V ≠ v_node_label_map V'.
Proof. exact (al_equal_case dir). Qed.
(** into_static keeps it, whatever the types. *)
Theorem C120_static {NL EL} `{EqDecision NL, EqDecision EL} it lt it' lt' dir (g g' : graphmap NL EL) ord ord' A A' n :
  represents (gm_view dir ord g) A → represents (gm_view dir ord' g') A' → look_alike (gm_view dir ord g) (gm_view dir ord' g') → a_has_node A n →
  (∀ n, a_has_node A n → (n < id_max it)%N ∧ (n < id_max it')%N) → (∀ n m, a_has_node A n → (m < n)%N → a_has_node A m) →
  (N.of_nat (length (g_nlm g)) ≤ id_max lt)%N → (N.of_nat (length (g_elm g)) ≤ id_max lt)%N →
  (N.of_nat (length (g_nlm g')) ≤ id_max lt')%N → (N.of_nat (length (g_elm g')) ≤ id_max lt')%N →
  ∃ sg sg', gm_into_static it lt dir g = Ok sg ∧ gm_into_static it' lt' dir g' = Ok sg' ∧ look_alike (sg_view it lt dir sg) (sg_view it' lt' dir sg').
Proof. exact (alike_static it lt it' lt' dir g g' ord ord' A A' n). Qed.
Print Assumptions C120_static.
Example C120_static_case (dir : bool) : ∃ (g g' : graphmap N N) ord ord' A A', represents (gm_view dir ord g) A ∧ represents (gm_view dir ord' g') A' ∧
  look_alike (gm_view dir ord g) (gm_view dir ord' g') ∧ a_has_node A 1 ∧ (∀ n, a_has_node A n → (n < id_max TU8)%N) ∧
  (∀ n m, a_has_node A n → (m < n)%N → a_has_node A m) ∧ g_nlm g = [7]%N ∧ g_nlm g' = [8; 7]%N.
Proof. exact (al_static dir). Qed.
(** reorder_id does not: one graph, two orders of its hash map, and different nodes are
    numbered 0 and 1. *)
Example C120_reorder_differs (dir : bool) : gm_reachable dir TU8 (al_g dir) ∧ hash_order (al_g dir) [3; 8]%N ∧ hash_order (al_g dir) [8; 3]%N ∧
  rmap rr_map (gm_reorder_id dir TU8 TU8 [3; 8]%N [] [] true false false (al_g dir)) = Ok (Some [3; 8]%N) ∧
  rmap rr_map (gm_reorder_id dir TU8 TU8 [8; 3]%N [] [] true false false (al_g dir)) = Ok (Some [8; 3]%N).
Proof. exact (al_reorder dir). Qed.
