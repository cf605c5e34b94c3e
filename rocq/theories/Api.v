(** The public API as data: the mutating calls a user can make on a graph, what
    those calls return, and the observations offered by the traits GraphTrait,
    GraphLabelTrait and DiGraphTrait (src/generic/graph.rs l.70-138, l.168-265).
    No implementation here. *)
From Verif Require Import Base.

(** Mutating calls. [OSetNodeLabelId]/[OSetEdgeLabelId] stand for
    [let n = g.get_node_mut(id); if n.is_some() { n.set_label_id(l) }] and the same
    with get_edge_mut; they return whether the target was found. *)
Inductive gop (NL EL : Type) :=
  | OAddNode (n : N) (l : option NL)
  | OAddEdge (s t : N) (l : option EL)
  | ORemoveNode (n : N)
  | ORemoveEdge (s t : N)
  | OUpdateNodeLabel (n : N) (l : option NL)
  | OUpdateEdgeLabel (s t : N) (l : option EL)
  | OAddNodeLabel (l : option NL)
  | OAddEdgeLabel (l : option EL)
  | ORefineEdgeCount
  | OSetNodeLabelId (n : N) (lid : option N)
  | OSetEdgeLabelId (s t : N) (lid : option N).
Arguments OAddNode {_ _}. Arguments OAddEdge {_ _}. Arguments ORemoveNode {_ _}.
Arguments ORemoveEdge {_ _}. Arguments OUpdateNodeLabel {_ _}. Arguments OUpdateEdgeLabel {_ _}.
Arguments OAddNodeLabel {_ _}. Arguments OAddEdgeLabel {_ _}. Arguments ORefineEdgeCount {_ _}.
Arguments OSetNodeLabelId {_ _}. Arguments OSetEdgeLabelId {_ _}.

(** Return values. The node/edge returned by remove_* carries a label id; it is
    reported here as the label that id denotes in the graph's label map. *)
Inductive gout (NL EL : Type) :=
  | RBool (b : bool)
  | RNode (o : option (N * option NL))
  | REdge (o : option (N * N * option EL))
  | RLabelId (o : option N)
  | RUnit.
Arguments RBool {_ _}. Arguments RNode {_ _}. Arguments REdge {_ _}.
Arguments RLabelId {_ _}. Arguments RUnit {_ _}.

(** Everything that can be observed about a graph behind [&GeneralGraph]. A
    lookup that may panic returns a [res]; [v_in_*] are the DiGraphTrait methods
    (reachable through as_digraph when [v_is_di]). Iterators are the lists they
    yield. A node is (id, label id), an edge (start, target, label id). *)
Record gview (NL EL : Type) := GView {
  v_directed : bool;
  v_is_di : bool;
  v_node_count : nat;
  v_edge_count : nat;
  v_has_node : N → bool;
  v_has_edge : N → N → res bool;
  v_get_node : N → res (option (N * option N));
  v_get_edge : N → N → res (option (N * N * option N));
  v_node_indices : list N;
  v_edge_indices : res (list (N * N));
  v_nodes : res (list (N * option N));
  v_edges : res (list (N * N * option N));
  v_degree : N → res nat;
  v_neighbors : N → res (list N);
  v_in_degree : N → res nat;
  v_in_neighbors : N → res (list N);
  v_max_seen_id : res (option N);
  v_node_label_map : list NL;
  v_edge_label_map : list EL;
}.
Arguments GView {_ _}.
Arguments v_directed {_ _}. Arguments v_is_di {_ _}. Arguments v_node_count {_ _}.
Arguments v_edge_count {_ _}. Arguments v_has_node {_ _}. Arguments v_has_edge {_ _}.
Arguments v_get_node {_ _}. Arguments v_get_edge {_ _}. Arguments v_node_indices {_ _}.
Arguments v_edge_indices {_ _}. Arguments v_nodes {_ _}. Arguments v_edges {_ _}.
Arguments v_degree {_ _}. Arguments v_neighbors {_ _}. Arguments v_in_degree {_ _}.
Arguments v_in_neighbors {_ _}. Arguments v_max_seen_id {_ _}.
Arguments v_node_label_map {_ _}. Arguments v_edge_label_map {_ _}.

(** GraphLabelTrait::get_node_label, src/generic/graph.rs l.179-184. *)
Definition v_node_label {NL EL} (V : gview NL EL) (n : N) : res (option NL) :=
  let* o := v_get_node V n in
  Ok (match o with
      | Some (_, Some lid) => v_node_label_map V !! id_id lid
      | _ => None
      end).
(** GraphLabelTrait::get_edge_label, src/generic/graph.rs l.188-193. *)
Definition v_edge_label {NL EL} (V : gview NL EL) (s t : N) : res (option EL) :=
  let* o := v_get_edge V s t in
  Ok (match o with
      | Some (_, _, Some lid) => v_edge_label_map V !! id_id lid
      | _ => None
      end).
