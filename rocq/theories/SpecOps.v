(** Specification of operations that build graphs out of graphs. *)
From Verif Require Import Base Api Spec.

(** All labels of the graph are among [nls] and [els]. *)
Definition uses_labels {NL EL} (A : agraph NL EL) (nls : list NL) (els : list EL) : Prop :=
  (∀ n l, ag_nodes A !! n = Some (Some l) → l ∈ nls) ∧
  (∀ e l, ag_edges A !! e = Some (Some l) → l ∈ els).

(** The nodes and edges of both; what is in both has its label from [A1] (the union
    [m1 ∪ m0] of finite maps prefers [m1]). *)
Definition a_union {NL EL} (A0 A1 : agraph NL EL) : agraph NL EL :=
  AG (ag_dir A0) (ag_nodes A1 ∪ ag_nodes A0) (ag_edges A1 ∪ ag_edges A0).

(** [A'] is the subgraph of [A] induced by the nodes that satisfy [P], labels included. *)
Record is_induced {NL EL} (P : N → Prop) (A A' : agraph NL EL) : Prop := {
  ind_dir : ag_dir A' = ag_dir A;
  ind_nodes : ∀ n l, ag_nodes A' !! n = Some l ↔ ag_nodes A !! n = Some l ∧ P n;
  ind_edges : ∀ s t l, a_edge_at A' s t = Some l ↔ a_edge_at A s t = Some l ∧ P s ∧ P t;
  ind_wf : ag_wf A';
}.

(** A node without any edge. *)
Definition isolated {NL EL} (A : agraph NL EL) (n : N) : Prop :=
  a_has_node A n ∧ ∀ x, ¬ a_has_edge A n x ∧ ¬ a_has_edge A x n.
(** Joined by a path that ignores directions. *)
Definition weakly_connected {NL EL} (A : agraph NL EL) : N → N → Prop := rtsc (a_has_edge A).

(** The observations of [V] are those of [A], edge_count() included. *)
Definition shows {NL EL} (V : gview NL EL) (A : agraph NL EL) : Prop :=
  represents V A ∧ answers_missing V A ∧ iterates V ∧ exact_count V A.
