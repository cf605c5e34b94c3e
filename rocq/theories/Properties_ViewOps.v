(** C20-C24, C60: comparing, hashing, cloning and counting labels, for any graphs behind the
    traits ([represents V A], Spec.v). [ag_nodes A ⊆ ag_nodes A'] says that every node of [A]
    is in [A'] with the same label, and likewise for edges. *)
From Verif Require Import Base Api Spec SpecOps ViewOps ViewOpsProps Map GraphMap GraphOps ViewOpsWit.

(** ** C20. == is not symmetric and does not agree with Hash. *)
Theorem C20_eq_refuted dir : ∃ (V V' : gview N N) A A' h h', represents V A ∧ represents V' A' ∧ ag_dir A = dir ∧ ag_dir A' = dir ∧
  exact_count V A ∧ exact_count V' A' ∧
  graph_eq V V' = Ok true ∧ graph_eq V' V = Ok false ∧ A ≠ A' ∧ graph_hash V = Ok h ∧ graph_hash V' = Ok h' ∧ h ≠ h'.
Proof. exact (eq_refuted dir). Qed.
Print Assumptions C20_eq_refuted.
(** Among graphs with as many nodes and (exactly counted) edges it means the same graph, and
    agrees with Hash. *)
Theorem C20_eq_partial {NL EL} `{EqDecision NL, EqDecision EL} (V V' : gview NL EL) (A A' : agraph NL EL) :
  represents V A → represents V' A' → ag_dir A = ag_dir A' →
  v_node_count V = v_node_count V' → exact_count V A → exact_count V' A' → v_edge_count V = v_edge_count V' →
  ∃ b, graph_eq V V' = Ok b ∧ (b = true ↔ A = A') ∧ (b = true → ∃ h, graph_hash V = Ok h ∧ graph_hash V' = Ok h).
Proof. exact (eq_same_counts V V' A A'). Qed.
Print Assumptions C20_eq_partial.
Example C20_case dir : ∃ (V V' : gview N N) A A', represents V A ∧ represents V' A' ∧ ag_dir A = ag_dir A' ∧ ag_dir A = dir ∧
  exact_count V A ∧ exact_count V' A' ∧ a_num_edges A = 2 ∧ a_num_nodes A = 4 ∧ V ≠ V' ∧ A = A' ∧ graph_eq V V' = Ok true ∧ v_equal V V' = Ok true.
Proof. exact (eq_case dir). Qed.

(** ** C21. == is inclusion, unless the counts are bitwise complements. *)
Theorem C21_eq_is_inclusion {NL EL} `{EqDecision NL, EqDecision EL} (V V' : gview NL EL) (A A' : agraph NL EL) :
  represents V A → represents V' A' → ag_dir A = ag_dir A' →
  ∃ b, graph_eq V V' = Ok b ∧
    (b = true ↔ ag_nodes A ⊆ ag_nodes A' ∧ ag_edges A ⊆ ag_edges A' ∧
       usize_not (v_node_count V) ≠ N.of_nat (v_node_count V') ∧ usize_not (v_edge_count V) ≠ N.of_nat (v_edge_count V')).
Proof. exact (eq_thm V V' A A'). Qed.
Print Assumptions C21_eq_is_inclusion.
(** No graphs that fit into memory have such counts. *)
Theorem C21_eq_in_memory {NL EL} `{EqDecision NL, EqDecision EL} (V V' : gview NL EL) (A A' : agraph NL EL) :
  represents V A → represents V' A' → ag_dir A = ag_dir A' →
  (N.of_nat (v_node_count V + v_node_count V') < 2 ^ 64 - 1)%N → (N.of_nat (v_edge_count V + v_edge_count V') < 2 ^ 64 - 1)%N →
  ∃ b, graph_eq V V' = Ok b ∧ (b = true ↔ ag_nodes A ⊆ ag_nodes A' ∧ ag_edges A ⊆ ag_edges A').
Proof. exact (eq_small V V' A A'). Qed.
Print Assumptions C21_eq_in_memory.
Example C21_case dir : ∃ (V V' : gview N N) A A' h h', represents V A ∧ represents V' A' ∧ ag_dir A = dir ∧ ag_dir A' = dir ∧
  exact_count V A ∧ exact_count V' A' ∧
  graph_eq V V' = Ok true ∧ graph_eq V' V = Ok false ∧ A ≠ A' ∧ graph_hash V = Ok h ∧ graph_hash V' = Ok h' ∧ h ≠ h'.
Proof. exact (eq_refuted dir). Qed.

(** ** C22. Directedness, nodes, edges and labels are all there is to [A]. *)
Theorem C22_equal {NL EL} `{EqDecision NL, EqDecision EL} (V V' : gview NL EL) (A A' : agraph NL EL) :
  represents V A → represents V' A' → exact_count V A → exact_count V' A' →
  ∃ b, v_equal V V' = Ok b ∧ (b = true ↔ A = A').
Proof. exact (equal_thm V V' A A'). Qed.
Print Assumptions C22_equal.
Theorem C22_equivalence {NL EL} `{EqDecision NL, EqDecision EL} (V1 V2 V3 : gview NL EL) (A1 A2 A3 : agraph NL EL) :
  represents V1 A1 → represents V2 A2 → represents V3 A3 → exact_count V1 A1 → exact_count V2 A2 → exact_count V3 A3 →
  v_equal V1 V1 = Ok true ∧ v_equal V1 V2 = v_equal V2 V1 ∧
  (v_equal V1 V2 = Ok true → v_equal V2 V3 = Ok true → v_equal V1 V3 = Ok true).
Proof. exact (equal_equivalence V1 V2 V3 A1 A2 A3). Qed.
Print Assumptions C22_equivalence.
Example C22_case dir : ∃ (V V' : gview N N) A A', represents V A ∧ represents V' A' ∧ ag_dir A = ag_dir A' ∧ ag_dir A = dir ∧
  exact_count V A ∧ exact_count V' A' ∧ a_num_edges A = 2 ∧ a_num_nodes A = 4 ∧ V ≠ V' ∧ A = A' ∧ graph_eq V V' = Ok true ∧ v_equal V V' = Ok true.
Proof. exact (eq_case dir). Qed.
Example C22_unequal_case dir : ∃ (V V' : gview N N) A A', represents V A ∧ represents V' A' ∧ ag_dir A = dir ∧ ag_dir A' = dir ∧
  exact_count V A ∧ exact_count V' A' ∧ v_equal V V' = Ok false.
Proof. exact (unequal_case dir). Qed.

(** ** C23. [h] is the sequence of all values fed to the hasher. *)
Theorem C23_equal_hash {NL EL} `{EqDecision NL, EqDecision EL} (V V' : gview NL EL) (A A' : agraph NL EL) :
  represents V A → represents V' A' → exact_count V A → exact_count V' A' →
  v_equal V V' = Ok true → ∃ h, box_hash V = Ok h ∧ box_hash V' = Ok h.
Proof. exact (equal_hash V V' A A'). Qed.
Print Assumptions C23_equal_hash.
(** It depends on nothing but the graph: not on the implementation, the history, the
    iteration orders or edge_count(). *)
Theorem C23_hash_of_graph {NL EL} (V V' : gview NL EL) (A : agraph NL EL) :
  represents V A → represents V' A → ∃ h, box_hash V = Ok h ∧ box_hash V' = Ok h.
Proof. exact (box_hash_thm V V' A). Qed.
Print Assumptions C23_hash_of_graph.
Example C23_case dir : ∃ (V V' : gview N N) A A', represents V A ∧ represents V' A' ∧ ag_dir A = ag_dir A' ∧ ag_dir A = dir ∧
  exact_count V A ∧ exact_count V' A' ∧ a_num_edges A = 2 ∧ a_num_nodes A = 4 ∧ V ≠ V' ∧ A = A' ∧ graph_eq V V' = Ok true ∧ v_equal V V' = Ok true.
Proof. exact (eq_case dir). Qed.

(** ** C24. [it] is any iteration order of the clone. *)
Theorem C24_clone {NL EL} `{EqDecision NL, EqDecision EL} (lt : idty) (V : gview NL EL) (A : agraph NL EL) nls els :
  represents V A → uses_labels A nls els → labels_fit lt nls → labels_fit lt els →
  ∃ g, box_clone lt V = Ok g ∧ ∀ it, hash_order g it → shows (gm_view (ag_dir A) it g) A.
Proof. exact (clone_thm lt V A nls els). Qed.
Print Assumptions C24_clone.
(** The clone is equal to the original exactly when the original's edge_count() is right. *)
Theorem C24_clone_equal {NL EL} `{EqDecision NL, EqDecision EL} (lt : idty) (V : gview NL EL) (A : agraph NL EL) nls els :
  represents V A → uses_labels A nls els → labels_fit lt nls → labels_fit lt els →
  ∃ g, box_clone lt V = Ok g ∧ ∀ it, hash_order g it →
    ∃ b, v_equal V (gm_view (ag_dir A) it g) = Ok b ∧ (b = true ↔ exact_count V A).
Proof. exact (clone_equal_thm lt V A nls els). Qed.
Print Assumptions C24_clone_equal.
Example C24_case dir : ∃ (V V' : gview N N) A A', represents V A ∧ represents V' A' ∧ ag_dir A = dir ∧ ag_dir A' = dir ∧
  uses_labels A [7]%N [5]%N ∧ uses_labels A' [7]%N [5]%N ∧ exact_count V A ∧ ¬ exact_count V' A' ∧ a_num_edges A = 2.
Proof. exact (clone_case dir). Qed.

(** ** C60. The counter of a label is the number of nodes (edges) that carry it. *)
Theorem C60_node_label_counter {NL EL} `{EqDecision NL, EqDecision EL} (V : gview NL EL) (A : agraph NL EL) :
  represents V A → ∃ c, v_node_label_counter V = Ok c ∧
    ∀ l, counter_get l c = size (filter (λ p : N * option NL, p.2 = Some l) (ag_nodes A)).
Proof. exact (node_counter_thm V A). Qed.
Print Assumptions C60_node_label_counter.
Theorem C60_edge_label_counter {NL EL} `{EqDecision NL, EqDecision EL} (V : gview NL EL) (A : agraph NL EL) :
  represents V A → ∃ c, v_edge_label_counter V = Ok c ∧
    ∀ l, counter_get l c = size (filter (λ p : (N * N) * option EL, p.2 = Some l) (ag_edges A)).
Proof. exact (edge_counter_thm V A). Qed.
Print Assumptions C60_edge_label_counter.
Example C60_case dir : ∃ (V : gview N N) A, represents V A ∧ ag_dir A = dir ∧
  rmap (counter_get 7%N) (v_node_label_counter V) = Ok 2 ∧ rmap (counter_get 5%N) (v_edge_label_counter V) = Ok 1 ∧
  rmap (counter_get 5%N) (v_node_label_counter V) = Ok 0.
Proof. exact (counter_case dir). Qed.
