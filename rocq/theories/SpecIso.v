(** What a graph and a renamed copy of it have in common. *)
From Verif Require Import Base Api Spec SpecReorder SpecConn ConnComp SpecConnGrow SpecTraverse Traverse ViewOps.

(** [W] is [V] with nodes renamed by [f], as far as the queries and algorithms show. *)
Record same_shape {NL EL} `{EqDecision NL, EqDecision EL} (f : N → N) (V W : gview NL EL) : Prop := {
  sh_node_count : v_node_count W = v_node_count V;
  sh_edge_number : ∃ es es', v_edge_indices V = Ok es ∧ v_edge_indices W = Ok es' ∧ length es' = length es;
  sh_degree : ∀ n, v_has_node V n = true → v_degree W (f n) = v_degree V n ∧
    ∃ l l', v_neighbors V n = Ok l ∧ v_neighbors W (f n) = Ok l' ∧ l' ≡ₚ f <$> l;
  sh_in_degree : v_directed V = true → ∀ n, v_has_node V n = true → v_in_degree W (f n) = v_in_degree V n ∧
    ∃ l l', v_in_neighbors V n = Ok l ∧ v_in_neighbors W (f n) = Ok l' ∧ l' ≡ₚ f <$> l;
  (** the label counters *)
  sh_node_labels : ∃ c c', v_node_label_counter V = Ok c ∧ v_node_label_counter W = Ok c' ∧ ∀ l, counter_get l c' = counter_get l c;
  sh_edge_labels : ∃ c c', v_edge_label_counter V = Ok c ∧ v_edge_label_counter W = Ok c' ∧ ∀ l, counter_get l c' = counter_get l c;
  (** ConnComp *)
  sh_components : ∃ c c', cc_new V = Ok c ∧ cc_new W = Ok c' ∧ cc_get_count c' = cc_get_count c ∧
    ∀ a b, v_has_node V a = true → v_has_node V b = true → connected c' (f a) (f b) ↔ connected c a b;
}.
(** The nodes a traversal visits before it starts again elsewhere are the same, up to renaming. *)
Definition same_traversal (f : N → N) (k : nat) (l l' : list N) : Prop := take k l' ≡ₚ f <$> take k l.

(** ** The same calls with other node ids *)
Definition ren_op {NL EL} (f : N → N) (o : gop NL EL) : gop NL EL :=
  match o with
  | OAddNode n l => OAddNode (f n) l
  | OAddEdge s t l => OAddEdge (f s) (f t) l
  | ORemoveNode n => ORemoveNode (f n)
  | ORemoveEdge s t => ORemoveEdge (f s) (f t)
  | OUpdateNodeLabel n l => OUpdateNodeLabel (f n) l
  | OUpdateEdgeLabel s t l => OUpdateEdgeLabel (f s) (f t) l
  | OAddNodeLabel l => OAddNodeLabel l
  | OAddEdgeLabel l => OAddEdgeLabel l
  | ORefineEdgeCount => ORefineEdgeCount
  | OSetNodeLabelId n lid => OSetNodeLabelId (f n) lid
  | OSetEdgeLabelId s t lid => OSetEdgeLabelId (f s) (f t) lid
  end.
(** A returned node or edge carries its new id; nothing else changes. *)
Definition ren_out {NL EL} (f : N → N) (r : gout NL EL) : gout NL EL :=
  match r with
  | RNode o => RNode ((λ p, (f p.1, p.2)) <$> o)
  | REdge o => REdge ((λ p, (f p.1.1, f p.1.2, p.2)) <$> o)
  | RBool b => RBool b
  | RLabelId o => RLabelId o
  | RUnit => RUnit
  end.
(** Asked about [f x] the second graph answers what the first says about [x], and it has no other nodes. *)
Record same_answers_at {NL EL} (f : N → N) (V W : gview NL EL) : Prop := {
  sa_has_node : ∀ x, v_has_node W (f x) = v_has_node V x;
  sa_only : ∀ y, v_has_node W y = true → ∃ x, y = f x;
  sa_has_edge : ∀ x y, v_has_edge W (f x) (f y) = v_has_edge V x y;
  sa_node_label : ∀ x, v_node_label W (f x) = v_node_label V x;
  sa_edge_label : ∀ x y, v_edge_label W (f x) (f y) = v_edge_label V x y;
  sa_edge_count : v_edge_count W = v_edge_count V;
  sa_node_label_map : v_node_label_map W = v_node_label_map V;
  sa_edge_label_map : v_edge_label_map W = v_edge_label_map V;
}.
