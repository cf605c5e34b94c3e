(** C120: two graphs that look alike. *)
From Verif Require Import Base Api Spec.

(** The same nodes and edges with the same labels, as the queries tell. Nothing is said about
    the order of iterators, label ids, label lists, edge_count and max_seen_id. *)
Record look_alike {NL EL} (V V' : gview NL EL) : Prop := {
  la_directed : v_directed V = v_directed V';
  la_has_node : ∀ n, v_has_node V n = v_has_node V' n;
  la_node_label : ∀ n, v_has_node V n = true → v_node_label V n = v_node_label V' n;
  la_has_edge : ∀ s t, v_has_node V s = true → v_has_edge V s t = v_has_edge V' s t;
  la_edge_label : ∀ s t, v_has_node V s = true → v_has_edge V s t = Ok true → v_edge_label V s t = v_edge_label V' s t;
}.
