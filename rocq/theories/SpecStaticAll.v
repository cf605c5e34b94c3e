(** What into_static makes of any graph: gaps in the node ids and labels that share
    their id with the mark for "no label" included. *)
From Verif Require Import Base Api Spec.

(** The label id that is left: the largest value of the type marks a missing label, and
    without a label list no label ids are stored. *)
Definition kept_lid {X} (lt : idty) (lm : list X) (lid : option N) : option N :=
  match lm with
  | [] => None
  | _ => if decide (lid = Some (id_max lt)) then None else lid
  end.
(** The label id of a node, none if there is no such node. *)
Definition node_lid {NL EL} (V : gview NL EL) (n : N) : option N :=
  match v_get_node V n with Ok (Some (_, lid)) => lid | _ => None end.

(** The label ids met when reading the neighbours of the nodes [ids] one after the other. *)
Definition label_column {NL EL} (V : gview NL EL) (ids : list N) : list (option N) :=
  ids ≫= λ n, match v_neighbors V n with
              | Ok l => (λ m, match v_get_edge V n m with Ok (Some (_, lid)) => lid | _ => None end) <$> l
              | _ => []
              end.

(** [W] is the frozen form of [V]. The nodes are renamed to 0 .. count-1: [W] has exactly
    these nodes, whatever the ids in [V] were. Labels are still looked up under the old
    id. Everything about edges is still asked, and answered, under the old ids. *)
Record frozen {NL EL} (lt : idty) (V W : gview NL EL) : Prop := {
  fz_directed : v_directed W = v_directed V ∧ v_is_di W = v_is_di V;
  fz_counts : v_node_count W = v_node_count V ∧ v_edge_count W = v_edge_count V;
  fz_has_node : ∀ n, v_has_node W n = true ↔ (n < N.of_nat (v_node_count V))%N;
  fz_node_indices : v_node_indices W = N.of_nat <$> seq 0 (v_node_count V);
  fz_get_node : ∀ n, v_get_node W n =
    Ok (if decide (n < N.of_nat (v_node_count V))%N then Some (n, kept_lid lt (v_node_label_map V) (node_lid V n)) else None);
  fz_nodes : v_nodes W = rmapl (λ n, let* o := v_get_node W n in unwrap o) (v_node_indices W);
  fz_max_seen : v_max_seen_id W = Ok (Some (N.of_nat (v_node_count V) - 1)%N);
  fz_has_edge : ∀ s t, v_has_edge W s t = v_has_edge V s t;
  fz_get_edge : ∀ s t, v_get_edge W s t =
    rmap (fmap (λ e, (e.1, kept_lid lt (v_edge_label_map V) e.2))) (v_get_edge V s t);
  fz_neighbors : ∀ n, v_has_node V n = true → v_neighbors W n = v_neighbors V n ∧ v_degree W n = v_degree V n;
  fz_in_neighbors : v_directed V = true → ∀ n, v_has_node V n = true →
    v_in_neighbors W n = v_in_neighbors V n ∧ v_in_degree W n = v_in_degree V n;
  (** an unused id below a used one has no neighbours, one above all used ones panics *)
  fz_gap : ∀ n m, v_has_node V n = false → v_has_node V m = true → (n < m)%N →
    v_neighbors W n = Ok [] ∧ v_degree W n = Ok 0 ∧
    (v_directed V = true → v_in_neighbors W n = Ok [] ∧ v_in_degree W n = Ok 0);
  fz_above : ∀ n, (∀ m, v_has_node V m = true → (m < n)%N) →
    v_neighbors W n = Panic ∧ v_degree W n = Panic ∧
    (v_directed V = true → v_in_neighbors W n = Panic ∧ v_in_degree W n = Panic);
  fz_edge_indices : ∃ l l', v_edge_indices V = Ok l ∧ v_edge_indices W = Ok l' ∧ l' ≡ₚ l;
  fz_edges : v_directed V = true ∨ v_edge_label_map V = [] →
    v_edges W = let* es := v_edge_indices W in rmapl (λ e, let* o := v_get_edge W e.1 e.2 in unwrap o) es;
  (** with edge labels, the k-th edge is always listed with the k-th label of that column;
      in undirected graphs the column has every edge twice, so labels are mixed up *)
  fz_edges_labelled : v_edge_label_map V ≠ [] → ∀ ids, StronglySorted N.lt ids → (∀ n, n ∈ ids ↔ v_has_node V n = true) →
    v_edges W = let* es := v_edge_indices W in
      Ok (zip es (kept_lid lt (v_edge_label_map V) <$> label_column V ids));
  fz_labels : v_node_label_map W = v_node_label_map V ∧ v_edge_label_map W = v_edge_label_map V;
}.
