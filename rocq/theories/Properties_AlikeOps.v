(** C120 for the operations on whole graphs. *)
From Verif Require Import Base Api Spec SpecOps Map GraphMap GraphOps SpecAlike AlikeOps.

(** ** C120. Unions of graphs that look alike look alike, and so do differences; one difference panics
    when the other does. *)
Theorem C120_union {NL EL} `{EqDecision NL, EqDecision EL} lt lt' (V0 V0' V1 V1' : gview NL EL) A0 A0' A1 A1' nls els :
  represents V0 A0 → represents V0' A0' → look_alike V0 V0' → represents V1 A1 → represents V1' A1' → look_alike V1 V1' →
  (ag_dir A0 = true ∨ ag_dir A1 = false) → uses_labels A0 nls els → uses_labels A1 nls els →
  labels_fit lt nls → labels_fit lt els → labels_fit lt' nls → labels_fit lt' els →
  ∃ g g', graph_union lt V0 V1 = Ok g ∧ graph_union lt' V0' V1' = Ok g' ∧
    ∀ it it', hash_order g it → hash_order g' it' → let V := gm_view (ag_dir A0) it g in let V' := gm_view (ag_dir A0) it' g' in
      look_alike V V' ∧ v_edge_count V = v_edge_count V'.
Proof. exact (alike_union lt lt' V0 V0' V1 V1' A0 A0' A1 A1' nls els). Qed.
Print Assumptions C120_union.
Theorem C120_minus {NL EL} `{EqDecision NL, EqDecision EL} lt lt' (V0 V0' V1 V1' : gview NL EL) A0 A0' A1 A1' nls els :
  represents V0 A0 → represents V0' A0' → look_alike V0 V0' → represents V1 A1 → represents V1' A1' → look_alike V1 V1' →
  uses_labels A0 nls els → labels_fit lt nls → labels_fit lt els → labels_fit lt' nls → labels_fit lt' els →
  (graph_minus lt V0 V1 = Panic ∧ graph_minus lt' V0' V1' = Panic) ∨
  ∃ g g', graph_minus lt V0 V1 = Ok g ∧ graph_minus lt' V0' V1' = Ok g' ∧
    ∀ it it', hash_order g it → hash_order g' it' → let V := gm_view (ag_dir A0) it g in let V' := gm_view (ag_dir A0) it' g' in
      look_alike V V' ∧ v_edge_count V = v_edge_count V'.
Proof. exact (alike_minus lt lt' V0 V0' V1 V1' A0 A0' A1 A1' nls els). Qed.
Print Assumptions C120_minus.
Example C120_operations_case (dir : bool) : ∃ (V0 V0' V1 : gview N N) A0 A1, represents V0 A0 ∧ represents V0' A0 ∧ look_alike V0 V0' ∧ represents V1 A1 ∧
  look_alike V1 V1 ∧ ag_dir A0 = dir ∧ ag_dir A1 = dir ∧ uses_labels A0 [7; 8]%N [5; 6]%N ∧ uses_labels A1 [7; 8]%N [5; 6]%N ∧
  v_node_label_map V0 ≠ v_node_label_map V0' ∧ a_has_edge A0 1 2 ∧ a_has_node A1 2 ∧
  (∃ g, graph_minus TU8 V0 V1 = Ok g) ∧ ∃ g, graph_union TU8 V0 V1 = Ok g.
Proof. exact (alike_ops_case dir). Qed.
