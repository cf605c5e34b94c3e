(** When the arrays of a static graph describe a labelled graph. *)
From Verif Require Import Base Api Spec SpecStatic Static.

(** [arrays_of lt g A]: the nodes of [A] are 0, 1, ..., n-1; the slice of [s] in the edge
    array holds the targets of the edges from [s] (in the in-edge array: the sources of the
    edges to it); the label arrays hold, at the position of the node or edge, the index of
    its label in the label map, or [L::max_value()] for none. *)
Record arrays_of {NL EL} (lt : idty) (g : sgraph NL EL) (A : agraph NL EL) : Prop := {
  so_wf : ag_wf A;
  so_csr : csr_wf (ev_offsets (sg_evec g)) (ev_edges (sg_evec g));
  so_count : N.of_nat (sg_num_nodes g) = csr_nodes (ev_offsets (sg_evec g));
  so_nodes : ∀ n, a_has_node A n ↔ (n < csr_nodes (ev_offsets (sg_evec g)))%N;
  so_edges : ∀ s t, a_has_edge A s t ↔ t ∈ row (ev_offsets (sg_evec g)) (ev_edges (sg_evec g)) s;
  so_node_labels : ∀ n, a_has_node A n →
    match sg_labels g with
    | None => label_of (ag_nodes A !! n) = None
    | Some ls => ∃ i, ls !! N.to_nat n = Some i ∧ label_of (ag_nodes A !! n) = denotes (sg_nlm g) (static_label lt i)
    end;
  so_edge_labels : ∀ s t k, row (ev_offsets (sg_evec g)) (ev_edges (sg_evec g)) s !! k = Some t →
    match ev_label_vec (sg_evec g) with
    | None => label_of (a_edge_at A s t) = None
    | Some ls => ∃ i, row (ev_offsets (sg_evec g)) ls s !! k = Some i ∧
                      label_of (a_edge_at A s t) = denotes (sg_elm g) (static_label lt i)
    end;
  so_in : ag_dir A = true → ∃ e, sg_in g = Some e ∧ csr_wf (ev_offsets e) (ev_edges e) ∧
    csr_nodes (ev_offsets e) = csr_nodes (ev_offsets (sg_evec g)) ∧
    ∀ s t, a_has_edge A s t ↔ s ∈ row (ev_offsets e) (ev_edges e) t;
}.

(** Two graphs answer every query that does not mention labels alike. *)
Record same_structure {NL EL} (V W : gview NL EL) : Prop := {
  ss_directed : v_directed W = v_directed V ∧ v_is_di W = v_is_di V;
  ss_counts : v_node_count W = v_node_count V ∧ v_edge_count W = v_edge_count V;
  ss_has_node : ∀ n, v_has_node W n = v_has_node V n;
  ss_has_edge : ∀ s t, v_has_edge W s t = v_has_edge V s t;
  ss_node_indices : v_node_indices W = v_node_indices V;
  ss_edge_indices : v_edge_indices W = v_edge_indices V;
  ss_degree : ∀ n, v_degree W n = v_degree V n;
  ss_neighbors : ∀ n, v_neighbors W n = v_neighbors V n;
  ss_in_degree : ∀ n, v_in_degree W n = v_in_degree V n;
  ss_in_neighbors : ∀ n, v_in_neighbors W n = v_in_neighbors V n;
  ss_max_seen : v_max_seen_id W = v_max_seen_id V;
}.
(** ... every query about node labels ... *)
Definition same_node_labels {NL EL} (V W : gview NL EL) : Prop :=
  (∀ n, v_get_node W n = v_get_node V n) ∧ (∀ n, v_node_label W n = v_node_label V n) ∧
  v_nodes W = v_nodes V ∧ v_node_label_map W = v_node_label_map V.
(** ... and about edge labels. *)
Definition same_edge_labels {NL EL} (V W : gview NL EL) : Prop :=
  (∀ s t, v_get_edge W s t = v_get_edge V s t) ∧ (∀ s t, v_edge_label W s t = v_edge_label V s t) ∧
  v_edges W = v_edges V ∧ v_edge_label_map W = v_edge_label_map V.
(** No node (edge) shows a label. *)
Definition no_node_labels {NL EL} (V : gview NL EL) : Prop :=
  (∀ n, v_get_node V n = Ok (if v_has_node V n then Some (n, None) else None)) ∧ (∀ n, v_node_label V n = Ok None) ∧
  v_nodes V = Ok ((λ n, (n, None)) <$> v_node_indices V) ∧ v_node_label_map V = [].
Definition no_edge_labels {NL EL} (V : gview NL EL) : Prop :=
  (∀ s t b, v_has_edge V s t = Ok b → v_get_edge V s t = Ok (if (b : bool) then Some (s, t, None) else None) ∧ v_edge_label V s t = Ok None) ∧
  (∀ es, v_edge_indices V = Ok es → v_edges V = Ok ((λ e, (e, None)) <$> es)) ∧ v_edge_label_map V = [].

(** [W] shows the edges of [V]: the queries about edges agree for every pair of nodes of [V]
    and no other edge is visible. *)
Record same_edges {NL EL} (V W : gview NL EL) : Prop := {
  se_directed : v_directed W = v_directed V ∧ v_is_di W = v_is_di V;
  se_count : v_edge_count W = v_edge_count V;
  se_has_edge : ∀ s t, v_has_edge W s t = v_has_edge V s t;
  se_edge_label : ∀ s t, v_edge_label W s t = v_edge_label V s t;
  se_neighbors : ∀ n, v_has_node V n = true → v_neighbors W n = v_neighbors V n ∧ v_degree W n = v_degree V n;
  se_in_neighbors : v_directed V = true → ∀ n, v_has_node V n = true →
    v_in_neighbors W n = v_in_neighbors V n ∧ v_in_degree W n = v_in_degree V n;
  se_edge_indices : ∃ l l', v_edge_indices V = Ok l ∧ v_edge_indices W = Ok l' ∧ l' ≡ₚ l;
  se_edge_label_map : v_edge_label_map W = v_edge_label_map V;
}.
