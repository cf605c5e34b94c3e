(** Counters as machine words. *)
From Verif Require Import Base Api Spec.

(** The calls that may add one to the edge counter. *)
Definition counts {NL EL} (o : gop NL EL) : bool := match o with OAddEdge _ _ _ | OUpdateEdgeLabel _ _ _ => true | _ => false end.
(** The same answers to everything except edge_count, which is [k]. *)
Definition with_edge_count {NL EL} (k : nat) (V : gview NL EL) : gview NL EL :=
  {| v_directed := v_directed V; v_is_di := v_is_di V; v_node_count := v_node_count V; v_edge_count := k;
     v_has_node := v_has_node V; v_has_edge := v_has_edge V; v_get_node := v_get_node V; v_get_edge := v_get_edge V;
     v_node_indices := v_node_indices V; v_edge_indices := v_edge_indices V; v_nodes := v_nodes V; v_edges := v_edges V;
     v_degree := v_degree V; v_neighbors := v_neighbors V; v_in_degree := v_in_degree V; v_in_neighbors := v_in_neighbors V;
     v_max_seen_id := v_max_seen_id V; v_node_label_map := v_node_label_map V; v_edge_label_map := v_edge_label_map V |}.
