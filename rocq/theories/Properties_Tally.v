(** C116: the counts a graph reports fit together, for any implementation. *)
From Verif Require Import Base BaseFacts Api Spec SpecConn ConnComp SpecConnGrow Map GraphMap TraverseProps TallyProps TallyWit.

(** ** C116. Directed graphs: out-degrees and in-degrees both add up to the number of edges. *)
Theorem C116_directed {NL EL} (V : gview NL EL) A : represents V A → v_directed V = true →
  ∃ ds is es, rmapl (v_degree V) (v_node_indices V) = Ok ds ∧ rmapl (v_in_degree V) (v_node_indices V) = Ok is ∧ v_edge_indices V = Ok es ∧
    sum_list ds = length es ∧ sum_list is = length es ∧ length es ≤ v_node_count V * v_node_count V.
Proof. exact (directed_sum V A). Qed.
Print Assumptions C116_directed.
(** Undirected graphs: a self-loop counts once in the degree of its node, any other edge once at each end. *)
Theorem C116_undirected {NL EL} (V : gview NL EL) A : represents V A → v_directed V = false →
  ∃ ds es, rmapl (v_degree V) (v_node_indices V) = Ok ds ∧ v_edge_indices V = Ok es ∧
    sum_list ds + length (filter (λ e, e.1 = e.2) es) = 2 * length es ∧ 2 * length es ≤ v_node_count V * S (v_node_count V).
Proof. exact (undirected_sum V A). Qed.
Print Assumptions C116_undirected.
(** ConnComp: [k] nodes that have edges, in [c] components, need at least [k - c] edges, and a connected graph
    one edge less than it has nodes. *)
Theorem C116_components {NL EL} (V : gview NL EL) A : represents V A → iterates V →
  ∃ c es, cc_new V = Ok c ∧ v_edge_indices V = Ok es ∧ cc_get_count c ≤ length es ∧
    (∀ ns, NoDup ns → (∀ n, n ∈ ns → ∃ m, (n, m) ∈ es ∨ (m, n) ∈ es) → length ns ≤ cc_get_count c + length es) ∧
    ((∀ a b, v_has_node V a = true → v_has_node V b = true → connected c a b) → v_node_count V ≤ S (length es)).
Proof. exact (component_count V A). Qed.
Print Assumptions C116_components.
(** A path of three nodes with a loop at its end and an edge apart. *)
Example C116_case (dir : bool) : ∃ (V : gview N N) A, represents V A ∧ iterates V ∧ v_directed V = dir ∧ v_node_count V = 5 ∧
  rmap length (v_edge_indices V) = Ok 4 ∧ rmap sum_list (rmapl (v_degree V) (v_node_indices V)) = Ok (if dir then 4 else 7) ∧
  (∃ c, cc_new V = Ok c ∧ cc_get_count c = 2).
Proof. exact (tally_case dir). Qed.
(** A path of three nodes is connected and has as few edges as it can. *)
Example C116_connected_case (dir : bool) : ∃ (V : gview N N) A, represents V A ∧ iterates V ∧ v_node_count V = 3 ∧ rmap length (v_edge_indices V) = Ok 2 ∧
  ∃ c, cc_new V = Ok c ∧ ∀ a b, v_has_node V a = true → v_has_node V b = true → connected c a b.
Proof. exact (tally_connected dir). Qed.
