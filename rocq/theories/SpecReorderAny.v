(** Specification of the graphs that reorder_id can renumber. *)
From Verif Require Import Base Api.

(** A node shows a label id that has no name. *)
Definition nameless_node {NL EL} (V : gview NL EL) : Prop :=
  ∃ x i, v_get_node V x = Ok (Some (x, Some i)) ∧ length (v_node_label_map V) ≤ N.to_nat i.
(** An edge shows a label id that has no name, or that no edge read from its smaller end shows
    (an undirected edge written from one end only). *)
Definition nameless_edge {NL EL} (dir : bool) (V : gview NL EL) : Prop :=
  ∃ x y i, v_get_edge V x y = Ok (Some (x, y, Some i)) ∧
    (length (v_edge_label_map V) ≤ N.to_nat i ∨
     dir = false ∧ ∀ a b, (a ≤ b)%N → v_get_edge V a b ≠ Ok (Some (a, b, Some i))).
(** The label ids shown are values of the label id type. *)
Definition label_ids_typed {NL EL} (lt : idty) (V : gview NL EL) : Prop :=
  (∀ x i, v_get_node V x = Ok (Some (x, Some i)) → (i < id_card lt)%N) ∧
  (∀ x y i, v_get_edge V x y = Ok (Some (x, y, Some i)) → (i < id_card lt)%N).
