(** C81: counters of label ids, and the label maps compared with the labels in use. *)
From Verif Require Import Base Api Spec SpecOps ViewOps LabelIds Map GraphMap TraverseProps Static IntoStatic LabelIdsProps.

(** ** C81. The counter of a label id is the number of nodes (edges) with the label it stands
    for, on a graph whose nodes() and edges() agree with get_node and get_edge. *)
Theorem C81_node_label_ids {NL EL} `{EqDecision NL, EqDecision EL} (V : gview NL EL) (A : agraph NL EL) :
  represents V A → iterates V → NoDup (v_node_label_map V) → ∃ c, v_node_label_id_counter V = Ok c ∧
    ∀ i l, v_node_label_map V !! N.to_nat i = Some l →
      counter_get i c = size (filter (λ p : N * option NL, p.2 = Some l) (ag_nodes A)).
Proof. intros R I. exact (node_id_counter_thm V A R I). Qed.
Print Assumptions C81_node_label_ids.
Theorem C81_edge_label_ids_partial {NL EL} `{EqDecision NL, EqDecision EL} (V : gview NL EL) (A : agraph NL EL) :
  represents V A → iterates V → NoDup (v_edge_label_map V) → ∃ c, v_edge_label_id_counter V = Ok c ∧
    ∀ i l, v_edge_label_map V !! N.to_nat i = Some l →
      counter_get i c = size (filter (λ p : (N * N) * option EL, p.2 = Some l) (ag_edges A)).
Proof. intros R I. exact (edge_id_counter_thm V A R I). Qed.
Print Assumptions C81_edge_label_ids_partial.
Example C81_case dir : ∃ (V : gview N N) A, represents V A ∧ iterates V ∧ ag_dir A = dir ∧ NoDup (v_node_label_map V) ∧ NoDup (v_edge_label_map V) ∧
  v_node_label_map V = [7]%N ∧ v_edge_label_map V = [5]%N ∧
  rmap (counter_get 0%N) (v_node_label_id_counter V) = Ok 2 ∧ rmap (counter_get 0%N) (v_edge_label_id_counter V) = Ok 1.
Proof. exact (id_counter_case dir). Qed.
(** Undirected static graphs with edge labels are different: label 5 has id 0 and one edge,
    but the counter of id 0 is 2. *)
Theorem C81_static_refuted : ∃ (g : graphmap N N) sg, gm_reachable false TU8 g ∧ gm_into_static TU8 TU8 false g = Ok sg ∧
  v_edge_label_map (sg_view TU8 TU8 false sg) = [5; 6]%N ∧
  rmap (counter_get 5%N) (v_edge_label_counter (sg_view TU8 TU8 false sg)) = Ok 1 ∧
  rmap (counter_get 0%N) (v_edge_label_id_counter (sg_view TU8 TU8 false sg)) = Ok 2.
Proof. exact static_id_counter_bad. Qed.
Print Assumptions C81_static_refuted.

(** ** C82. The labels in use are among node_labels() and edge_labels(). *)
Theorem C82_labels_in_use {NL EL} (V : gview NL EL) (A : agraph NL EL) :
  represents V A → uses_labels A (v_node_labels V) (v_edge_labels V) ∧
    (∀ ls, NoDup ls → (∀ l, l ∈ ls → ∃ n, ag_nodes A !! n = Some (Some l)) → length ls ≤ v_num_node_labels V) ∧
    (∀ ls, NoDup ls → (∀ l, l ∈ ls → ∃ e, ag_edges A !! e = Some (Some l)) → length ls ≤ v_num_edge_labels V) ∧
    (v_has_node_labels V = false → ∀ n l, ag_nodes A !! n ≠ Some (Some l)) ∧
    (v_has_edge_labels V = false → ∀ e l, ag_edges A !! e ≠ Some (Some l)).
Proof. intros R. exact (conj (maps_cover V A R) (conj (maps_size V A R) (conj (maps_size_edges V A R) (maps_none V A R)))). Qed.
Print Assumptions C82_labels_in_use.
(** Not the other way round: the label of a node and of an edge, both gone. *)
Theorem C82_unused_labels dir : ∃ (V : gview N N) A, represents V A ∧ gm_reachable dir TU8 (run_gm dir used_wit) ∧ V = run_view dir used_wit ∧
  (∀ n l, ag_nodes A !! n ≠ Some (Some l)) ∧ (∀ e, ag_edges A !! e = None) ∧
  v_has_node_labels V = true ∧ v_has_edge_labels V = true ∧ v_num_node_labels V = 1 ∧ v_num_edge_labels V = 1.
Proof. exact (unused_wit dir). Qed.
Print Assumptions C82_unused_labels.
