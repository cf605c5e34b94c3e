(** When the order of calls matters. *)
From Verif Require Import Base Api Spec.

(** The node ids a call names. *)
Definition named {NL EL} (o : gop NL EL) : list N :=
  match o with
  | OAddNode n _ | ORemoveNode n | OUpdateNodeLabel n _ | OSetNodeLabelId n _ => [n]
  | OAddEdge x y _ | ORemoveEdge x y | OUpdateEdgeLabel x y _ | OSetEdgeLabelId x y _ => [x; y]
  | _ => []
  end.
(** Calls that add, remove or relabel a node or an edge. *)
Definition on_graph {NL EL} (o : gop NL EL) : bool :=
  match o with
  | OAddNode _ _ | OAddEdge _ _ _ | ORemoveNode _ | ORemoveEdge _ _ | OUpdateNodeLabel _ _ | OUpdateEdgeLabel _ _ _ => true
  | _ => false
  end.
Definition is_add {NL EL} (o : gop NL EL) : bool :=
  match o with OAddNode _ _ | OAddEdge _ _ _ => true | _ => false end.
(** No call of the history names a node that a call of the other one names. *)
Definition apart {NL EL} (h h' : list (gop NL EL)) : Prop := ∀ n, n ∈ h ≫= named → n ∈ h' ≫= named → False.
(** Calls that add the same node or the same edge give it the same label. *)
Definition agree {NL EL} (dir : bool) (o o' : gop NL EL) : Prop :=
  match o, o' with
  | OAddNode n l, OAddNode n' l' => n = n' → l = l'
  | OAddEdge x y l, OAddEdge x' y' l' => ekey dir x y = ekey dir x' y' → l = l'
  | _, _ => True
  end.

(** All queries on the two graphs answer as the same abstract graph does. *)
Definition same_graph {NL EL} (V V' : gview NL EL) : Prop :=
  ∃ A, represents V A ∧ represents V' A ∧ answers_missing V A ∧ answers_missing V' A.
(** The two graphs cannot be told apart, also not by edge_count and max_seen_id. The label
    lists have the same labels. *)
Record same_answers {NL EL} (V V' : gview NL EL) : Prop := {
  sa_graph : same_graph V V';
  sa_count : v_edge_count V = v_edge_count V';
  sa_max : v_max_seen_id V = v_max_seen_id V';
  sa_labels : v_node_label_map V ≡ₚ v_node_label_map V' ∧ v_edge_label_map V ≡ₚ v_edge_label_map V';
}.
