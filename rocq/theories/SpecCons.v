(** What the arrays handed to a constructor of a static graph describe. *)
From Verif Require Import Base Api Spec SpecStatic Static SpecSGraph.

(** [e]: the edges by start node; [in_e]: by target; [ls]: node labels; [nlm], [elm]: label maps. *)
Definition arrays_describe {NL EL} (lt : idty) (e : evec) (in_e : option evec) (ls : option (list N)) (nlm : list NL) (elm : list EL) (A : agraph NL EL) : Prop :=
  arrays_of lt (SGraph (N.to_nat (csr_nodes (ev_offsets e))) 0 e in_e ls nlm elm) A.
(** [V] is the graph [A] with these label maps, reporting [m] edges. *)
Definition shows {NL EL} (V : gview NL EL) (A : agraph NL EL) (nlm : list NL) (elm : list EL) (m : nat) : Prop :=
  represents V A ∧ answers_missing V A ∧ v_node_label_map V = nlm ∧ v_edge_label_map V = elm ∧ v_edge_count V = m.
(** The number of edges reported: the one given, else the length of the edge array (half of it for undirected graphs). *)
Definition edge_number (dir : bool) (e : evec) (given : option nat) : nat :=
  match given with Some m => m | None => if dir then length (ev_edges e) else length (ev_edges e) / 2 end.
