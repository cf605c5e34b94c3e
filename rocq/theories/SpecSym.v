(** C118: what it means for a directed graph to stand for an undirected one. *)
From Verif Require Import Base Api Spec.

(** The directed calls that stand for an undirected call: what names an edge is done
    once for each direction, a self-loop once. *)
Definition both_ways {NL EL} (o : gop NL EL) : list (gop NL EL) :=
  match o with
  | OAddEdge x y l => if decide (x = y) then [o] else [o; OAddEdge y x l]
  | ORemoveEdge x y => if decide (x = y) then [o] else [o; ORemoveEdge y x]
  | OUpdateEdgeLabel x y l => if decide (x = y) then [o] else [o; OUpdateEdgeLabel y x l]
  | _ => [o]
  end.
(** What each undirected call returns: the first answer of its group. *)
Fixpoint first_answers {NL EL} (h : list (gop NL EL)) (rs : list (gout NL EL)) : list (gout NL EL) :=
  match h with
  | [] => []
  | o :: h => take 1 rs ++ first_answers h (drop (length (both_ways o)) rs)
  end.
(** The other direction of an edge. *)
Definition turned (e : N * N) : N * N := (e.2, e.1).

(** [stands_for D U]: the directed [D] answers as the undirected [U] does. *)
Record stands_for {NL EL} (D U : gview NL EL) : Prop := {
  st_kinds : v_is_di U = false ∧ v_is_di D = true;
  st_node_count : v_node_count D = v_node_count U;
  st_has_node n : v_has_node D n = v_has_node U n;
  st_has_edge x y : v_has_edge D x y = v_has_edge U x y;
  st_node_label n : v_node_label D n = v_node_label U n;
  st_edge_label x y : v_edge_label D x y = v_edge_label U x y;
  st_neighbors n : v_neighbors D n = v_neighbors U n;
  st_degree n : v_degree D n = v_degree U n;
  st_in_neighbors n : v_in_neighbors D n = v_neighbors U n;
  st_in_degree n : v_in_degree D n = v_degree U n;
  st_node_indices : v_node_indices D ≡ₚ v_node_indices U;
  st_edge_indices : ∃ es es', v_edge_indices U = Ok es ∧ v_edge_indices D = Ok es' ∧
    es' ≡ₚ es ++ (turned <$> filter (λ e, e.1 ≠ e.2) es);
  st_max_seen_id : v_max_seen_id D = v_max_seen_id U;
  st_node_labels : v_node_label_map D = v_node_label_map U;
  st_edge_labels : v_edge_label_map D = v_edge_label_map U;
}.
