(** Vocabulary for the graph that a caught panic leaves (C109). *)
From Verif Require Import Base Api Spec.

(** The step that would have removed the edge from [s] to [id] when node [id] was removed did not take place. *)
Definition edge_kept (dir : bool) (id s : N) : Prop := dir = true ∨ (id < s)%N.
(** The graph seen through [V'] is the one seen through [V] without node [id], except that edges from other nodes to [id] are still
    there (in an undirected graph only from larger nodes) and in a directed graph larger nodes still list [id] as an in-neighbour. *)
Record half_removed {NL EL} (dir : bool) (id : N) (V V' : gview NL EL) : Prop := {
  hr_has_node : ∀ n, v_has_node V' n = true ↔ v_has_node V n = true ∧ n ≠ id;
  hr_get_node : ∀ n, n ≠ id → v_get_node V' n = v_get_node V n;
  hr_has_edge : ∀ s t, v_has_edge V' s t = Ok true ↔ v_has_edge V s t = Ok true ∧ s ≠ id ∧ (t = id → edge_kept dir id s);
  hr_get_edge : ∀ s t, v_has_edge V' s t = Ok true → v_get_edge V' s t = v_get_edge V s t;
  hr_neighbors : ∀ n l, n ≠ id → v_neighbors V n = Ok l →
    ∃ l', v_neighbors V' n = Ok l' ∧ increasing l' ∧ ∀ x, x ∈ l' ↔ x ∈ l ∧ (x = id → edge_kept dir id n);
  hr_in_neighbors : dir = true → ∀ n l, n ≠ id → v_in_neighbors V n = Ok l →
    ∃ l', v_in_neighbors V' n = Ok l' ∧ increasing l' ∧ ∀ x, x ∈ l' ↔ x ∈ l ∧ (x = id → (id < n)%N);
  hr_node_count : v_node_count V = S (v_node_count V');
  hr_edge_count : v_edge_count V' = v_edge_count V;
  hr_max : v_max_seen_id V' = v_max_seen_id V;
  hr_labels : v_node_label_map V' = v_node_label_map V ∧ v_edge_label_map V' = v_edge_label_map V;
}.
(** Some other node is joined to [id] by an edge that the interrupted call leaves in part. *)
Definition dangling {NL EL} (dir : bool) (id : N) (V : gview NL EL) : Prop :=
  ∃ x, x ≠ id ∧ (v_has_edge V x id = Ok true ∧ edge_kept dir id x ∨ dir = true ∧ v_has_edge V id x = Ok true ∧ (id < x)%N).
