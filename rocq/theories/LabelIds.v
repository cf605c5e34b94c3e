(** Model of the counters of label ids, src/generic/graph.rs l.119-125. *)
From Verif Require Import Base Api ViewOps.

(** get_node_label_id_counter, l.119-121: the label ids of nodes(). *)
Definition v_node_label_id_counter {NL EL} (V : gview NL EL) : res (list N) :=
  let* ns := v_nodes V in Ok (omap snd ns).
(** get_edge_label_id_counter, l.123-125: the label ids of edges(). *)
Definition v_edge_label_id_counter {NL EL} (V : gview NL EL) : res (list N) :=
  let* es := v_edges V in Ok (omap snd es).
