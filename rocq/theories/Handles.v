(** Model of the handles through which nodes and edges are seen: NodeType, MutNodeType and
    OwnedNodeType (src/generic/node.rs), EdgeType, MutEdgeType and OwnedEdgeType
    (src/generic/edge.rs). In GraphMap.v and Static.v a handle is replaced by what it shows,
    an option; here are the enums themselves with their accessors, and the calls that make them. *)
From stdpp Require Import gmap strings.
From Verif Require Import Base Api Map GraphMap Static.

(** ** Nodes *)
(** NodeType, node.rs l.57-61: a reference to a NodeMap, a StaticNode by value, or None. *)
Inductive node_type := NTNodeMap (n : nodemap) | NTStaticNode (id : N) (label : option N) | NTNone.
(** is_none, l.152-157; is_some, l.31-33. *)
Definition nt_is_none (h : node_type) : bool := match h with NTNone => true | _ => false end.
Definition nt_is_some (h : node_type) : bool := negb (nt_is_none h).
(** get_id, l.160-166. *)
Definition nt_get_id (h : node_type) : res N :=
  match h with NTNodeMap n => Ok (nm_id n) | NTStaticNode i _ => Ok i | NTNone => Panic end.
(** get_label_id, l.169-175: None, not a panic, on None. *)
Definition nt_get_label_id (h : node_type) : res (option N) :=
  match h with NTNodeMap n => Ok (nm_label n) | NTStaticNode _ l => Ok l | NTNone => Ok None end.
(** unwrap_nodemap, l.132-138; unwrap_staticnode, l.141-147. *)
Definition nt_unwrap_nodemap (h : node_type) : res nodemap :=
  match h with NTNodeMap n => Ok n | NTStaticNode _ _ => Panic | NTNone => Panic end.
Definition nt_unwrap_staticnode (h : node_type) : res (N * option N) :=
  match h with NTNodeMap _ => Panic | NTStaticNode i l => Ok (i, l) | NTNone => Panic end.

(** MutNodeType, l.45-48, and OwnedNodeType, l.51-54: a NodeMap or None. *)
Inductive mut_node_type := MNNodeMap (n : nodemap) | MNNone.
(** is_none, l.73-78 and l.108-113. *)
Definition mn_is_none (h : mut_node_type) : bool := match h with MNNone => true | _ => false end.
Definition mn_is_some (h : mut_node_type) : bool := negb (mn_is_none h).
(** get_id, l.81-86 and l.115-120. *)
Definition mn_get_id (h : mut_node_type) : res N := match h with MNNodeMap n => Ok (nm_id n) | MNNone => Panic end.
(** get_label_id, l.89-94 and l.122-127: unlike NodeType's, it panics on None. *)
Definition mn_get_label_id (h : mut_node_type) : res (option N) :=
  match h with MNNodeMap n => Ok (nm_label n) | MNNone => Panic end.
(** set_label_id (MutNodeType only), l.99-104. *)
Definition mn_set_label_id (l : option N) (h : mut_node_type) : res mut_node_type :=
  match h with MNNodeMap n => Ok (MNNodeMap (nm_set_label_id l n)) | MNNone => Panic end.
(** unwrap_nodemap_ref, l.65-70. *)
Definition mn_unwrap_nodemap_ref (h : mut_node_type) : res nodemap :=
  match h with MNNodeMap n => Ok n | MNNone => Panic end.

(** ** Edges *)
(** EdgeType, edge.rs l.55-58, and OwnedEdgeType, l.49-52. *)
Inductive edge_type := ETEdge (s t : N) (l : option N) | ETNone.
(** is_none, l.164-169 and l.123-128. *)
Definition et_is_none (h : edge_type) : bool := match h with ETNone => true | _ => false end.
Definition et_is_some (h : edge_type) : bool := negb (et_is_none h).
(** get_start l.172 and l.130, get_target l.180 and l.137, through Edge, graph_map/edge.rs l.98-105. *)
Definition et_get_start (h : edge_type) : res N := match h with ETEdge s _ _ => Ok s | ETNone => Panic end.
Definition et_get_target (h : edge_type) : res N := match h with ETEdge _ t _ => Ok t | ETNone => Panic end.
(** EdgeType::get_label_id, l.188-193. *)
Definition et_get_label_id (h : edge_type) : res (option N) := match h with ETEdge _ _ l => Ok l | ETNone => Ok None end.
(** OwnedEdgeType::get_label_id, l.144-149. *)
Definition oe_get_label_id (h : edge_type) : res (option N) := match h with ETEdge _ _ l => Ok l | ETNone => Panic end.
(** EdgeType::unwrap, l.154-159. *)
Definition et_unwrap (h : edge_type) : res (N * N * option N) := match h with ETEdge s t l => Ok (s, t, l) | ETNone => Panic end.
(** MutEdgeType, l.43-46; the reference to the label is shown as the label. *)
Inductive mut_edge_type := MEEdgeRef (s t : N) (l : option N) | MENone.
Definition me_is_none (h : mut_edge_type) : bool := match h with MENone => true | _ => false end.
Definition me_is_some (h : mut_edge_type) : bool := negb (me_is_none h).
Definition me_get_start (h : mut_edge_type) : res N := match h with MEEdgeRef s _ _ => Ok s | MENone => Panic end.
Definition me_get_target (h : mut_edge_type) : res N := match h with MEEdgeRef _ t _ => Ok t | MENone => Panic end.
Definition me_get_label_id (h : mut_edge_type) : res (option N) := match h with MEEdgeRef _ _ l => Ok l | MENone => Panic end.
(** unwrap_edge, l.62-67: panics on both; unwrap_edge_ref, l.70-75. *)
Definition me_unwrap_edge (h : mut_edge_type) : res (N * N * option N) :=
  match h with MEEdgeRef _ _ _ => Panic | MENone => Panic end.
Definition me_unwrap_edge_ref (h : mut_edge_type) : res (N * N * option N) :=
  match h with MEEdgeRef s t l => Ok (s, t, l) | MENone => Panic end.

(** ** Where the handles come from *)
Section gm.
  Context {NL EL : Type}.
  Implicit Types g : graphmap NL EL.
  (** TypedGraphMap::get_node, graph_map/graph.rs l.426-431. *)
  Definition gmh_get_node g (id : N) : node_type :=
    match g_nodes g !! id with Some n => NTNodeMap n | None => NTNone end.
  (** get_node_mut, l.291-296; the node removed by remove_node, l.299-324. *)
  Definition gmh_get_node_mut g (id : N) : mut_node_type :=
    match g_nodes g !! id with Some n => MNNodeMap n | None => MNNone end.
  Definition gmh_remove_node (dir : bool) (id : N) g : res (mut_node_type * graphmap NL EL) :=
    let* '(o, g) := gm_remove_node dir id g in
    Ok (match o with Some n => MNNodeMap n | None => MNNone end, g).
  (** get_edge, l.434-443. *)
  Definition gmh_get_edge g (s t : N) : res edge_type :=
    let* o := gm_get_edge g s t in
    Ok (match o with Some (s, t, l) => ETEdge s t l | None => ETNone end).
  (** get_edge_mut, l.362-369, with NodeMap::get_neighbor_mut, node.rs l.195-199. *)
  Definition gmh_get_edge_mut g (s t : N) : res mut_edge_type :=
    if gm_has_edge g s t then
      let* n := unwrap (g_nodes g !! s) in
      Ok (match nm_get_neighbor n t with Some l => MEEdgeRef (nm_id n) t l | None => MENone end)
    else Ok MENone.
  (** remove_edge, l.372-395. *)
  Definition gmh_remove_edge (dir : bool) (s t : N) g : res (edge_type * graphmap NL EL) :=
    let* '(o, g) := gm_remove_edge dir s t g in
    Ok (match o with Some (s, t, l) => ETEdge s t l | None => ETNone end, g).
  (** nodes, l.494, for an iteration order. *)
  Definition gmh_nodes g (it : list N) : list node_type := NTNodeMap <$> gm_values g it.

  (** TypedStaticGraph::get_node, static_graph/graph.rs l.459-468 (StaticGraphMmap::get_node,
      graph_mmap.rs l.157-168, is the same). *)
  Definition sgh_get_node (lt : idty) (g : sgraph NL EL) (id : N) : res node_type :=
    let* o := sg_get_node lt g id in
    Ok (match o with Some (i, l) => NTStaticNode i l | None => NTNone end).
End gm.
