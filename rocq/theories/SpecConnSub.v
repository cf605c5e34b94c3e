(** Specification of subgraph enumeration along the components of another graph. *)
From Verif Require Import Base Api Spec SpecOps.

(** The graphs one after the other; what is in several has its label from the last. *)
Definition a_unions {NL EL} (dir : bool) (As : list (agraph NL EL)) : agraph NL EL :=
  foldl a_union (AG dir ∅ ∅) As.
(** A node at an end of an edge. *)
Definition on_edge {NL EL} (A : agraph NL EL) (n : N) : Prop := ∃ x, a_has_edge A n x ∨ a_has_edge A x n.
(** [A'] is the part of [A] that belongs to the nodes that satisfy [P]: those nodes and the edges
    listed from them, with their labels, and the far ends of these edges, which have no label if
    they do not satisfy [P]. An undirected edge is listed once, from the end that comes first in
    its key. *)
Record is_part {NL EL} (P : N → Prop) (A A' : agraph NL EL) : Prop := {
  part_dir : ag_dir A' = ag_dir A;
  part_nodes : ∀ n l, ag_nodes A' !! n = Some l ↔
    P n ∧ ag_nodes A !! n = Some l ∨ ¬ P n ∧ l = None ∧ ∃ x, P x ∧ is_Some (ag_edges A !! (x, n));
  part_edges : ∀ e l, ag_edges A' !! e = Some l ↔ ag_edges A !! e = Some l ∧ P e.1;
  part_wf : ag_wf A';
}.
