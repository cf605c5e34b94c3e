(** Specification of renaming the nodes of a graph. *)
From Verif Require Import Base Api Spec.

(** [B] is [A] with every node [x] renamed to [f x]; labels are untouched. *)
Record renames {NL EL} (f : N → N) (A B : agraph NL EL) : Prop := {
  rn_dir : ag_dir B = ag_dir A;
  rn_wf : ag_wf B;
  rn_inj : ∀ x y, a_has_node A x → a_has_node A y → f x = f y → x = y;
  rn_nodes : ∀ y l, ag_nodes B !! y = Some l ↔ ∃ x, ag_nodes A !! x = Some l ∧ f x = y;
  rn_edges : ∀ s t, a_has_node A s → a_has_node A t → a_edge_at B (f s) (f t) = a_edge_at A s t;
}.

(** [f] maps the nodes of [A] one to one onto 0, ..., n-1. *)
Definition onto_prefix {NL EL} (f : N → N) (A : agraph NL EL) : Prop :=
  (∀ x, a_has_node A x → (f x < N.of_nat (size (ag_nodes A)))%N) ∧
  (∀ y, (y < N.of_nat (size (ag_nodes A)))%N → ∃ x, a_has_node A x ∧ f x = y).

(** The total degree of a node: outgoing plus, in a directed graph, incoming edges. *)
Definition a_out_degree {NL EL} (A : agraph NL EL) (x : N) : nat :=
  length (filter (λ y, a_has_edge A x y) (map_to_list (ag_nodes A)).*1).
Definition a_in_degree {NL EL} (A : agraph NL EL) (x : N) : nat :=
  if ag_dir A then length (filter (λ y, a_has_edge A y x) (map_to_list (ag_nodes A)).*1) else 0.
Definition a_total_degree {NL EL} (A : agraph NL EL) (x : N) : nat := a_out_degree A x + a_in_degree A x.

(** How many nodes or edges carry the label. *)
Definition a_node_label_count {NL EL} `{EqDecision NL} (A : agraph NL EL) (l : NL) : nat :=
  size (filter (λ p : N * option NL, p.2 = Some l) (ag_nodes A)).
Definition a_edge_label_count {NL EL} `{EqDecision EL} (A : agraph NL EL) (l : EL) : nat :=
  size (filter (λ p : (N * N) * option EL, p.2 = Some l) (ag_edges A)).

(** [ls] numbers exactly the labels in use, rare ones first. *)
Definition by_frequency {X} (count : X → nat) (ls : list X) : Prop :=
  NoDup ls ∧ (∀ x, x ∈ ls ↔ 0 < count x) ∧
  ∀ i j x y, ls !! i = Some x → ls !! j = Some y → i < j → count x ≤ count y.
