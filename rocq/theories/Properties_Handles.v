(** C96: the handles nodes and edges are seen through: NodeType, MutNodeType, OwnedNodeType,
    EdgeType, MutEdgeType and OwnedEdgeType. [nt_*] are the methods of NodeType, [mn_*] those of
    MutNodeType and OwnedNodeType, [et_*] of EdgeType and OwnedEdgeType (whose get_label_id is
    [oe_get_label_id]), [me_*] of MutEdgeType (Handles.v). *)
From stdpp Require Import gmap strings.
From Verif Require Import Base Api Map Spec GraphMap GraphMapWit Static SpecStatic SpecSGraph StaticWit Handles HandlesProps.

(** ** C96. get_node and get_node_mut of a GraphMap. *)
Theorem C96_node_handle {NL EL} `{EqDecision NL, EqDecision EL} (dir : bool) (lt : idty) (g : graphmap NL EL) ord n :
  gm_reachable dir lt g →
    let V := gm_view dir ord g in let h := gmh_get_node g n in let m := gmh_get_node_mut g n in
    nt_is_some h = v_has_node V n ∧ mn_is_some m = v_has_node V n ∧
    (v_has_node V n = true →
      (∃ l, v_get_node V n = Ok (Some (n, l)) ∧ nt_get_id h = Ok n ∧ nt_get_label_id h = Ok l ∧ mn_get_id m = Ok n ∧ mn_get_label_id m = Ok l) ∧
      (∃ x, nt_unwrap_nodemap h = Ok x ∧ mn_unwrap_nodemap_ref m = Ok x ∧ v_neighbors V n = Ok (nm_neighbors x) ∧
         v_degree V n = Ok (nm_degree x) ∧ v_in_neighbors V n = Ok (nm_in_neighbors x) ∧ v_in_degree V n = Ok (nm_in_degree x)) ∧
      nt_unwrap_staticnode h = Panic) ∧
    (v_has_node V n = false →
      nt_get_id h = Panic ∧ nt_get_label_id h = Ok None ∧ nt_unwrap_nodemap h = Panic ∧ nt_unwrap_staticnode h = Panic ∧
      mn_get_id m = Panic ∧ mn_get_label_id m = Panic ∧ (∀ l, mn_set_label_id l m = Panic) ∧ mn_unwrap_nodemap_ref m = Panic).
Proof. exact (node_handle dir lt g ord n). Qed.
Print Assumptions C96_node_handle.
Example C96_node_case :
  gm_reachable true TU8 (wit_g true) ∧ gm_has_node (wit_g true) 4 = true ∧ gm_has_node (wit_g true) 3 = false ∧
  nt_get_id (gmh_get_node (wit_g true) 4) = Ok 4%N ∧ nt_get_label_id (gmh_get_node (wit_g true) 3) = Ok None ∧
  mn_get_label_id (gmh_get_node_mut (wit_g true) 3) = Panic.
Proof. split; [apply wit_g_reachable|by vm_compute]. Qed.
(** set_label_id through the handle get_node_mut gives: the handle and the graph show the new
    label id, the node keeps its id and neighbours and no other node changes. *)
Theorem C96_set_label {NL EL} `{EqDecision NL, EqDecision EL} (dir : bool) (lt : idty) (g : graphmap NL EL) n l ord :
  gm_reachable dir lt g → gm_has_node g n = true →
    ∃ m' x g', mn_set_label_id l (gmh_get_node_mut g n) = Ok m' ∧ gm_set_node_label_id n l g = (true, g') ∧
      mn_get_id m' = Ok n ∧ mn_get_label_id m' = Ok l ∧ mn_unwrap_nodemap_ref m' = Ok x ∧
      gm_neighbors g n = Ok (nm_neighbors x) ∧ gm_in_neighbors g n = Ok (nm_in_neighbors x) ∧
      gmh_get_node_mut g' n = m' ∧ v_get_node (gm_view dir ord g') n = Ok (Some (n, l)) ∧
      ∀ k, k ≠ n → gmh_get_node_mut g' k = gmh_get_node_mut g k.
Proof. exact (set_label_handle dir lt g n l ord). Qed.
Print Assumptions C96_set_label.
Example C96_set_label_case : gm_reachable true TU8 (wit_g true) ∧ gm_has_node (wit_g true) 4 = true ∧
  (let* m := mn_set_label_id (Some 9%N) (gmh_get_node_mut (wit_g true) 4) in mn_get_label_id m) = Ok (Some 9%N).
Proof. split; [apply wit_g_reachable|by vm_compute]. Qed.
(** nodes() yields the handles get_node gives, none of them None. *)
Theorem C96_nodes {NL EL} `{EqDecision NL, EqDecision EL} (dir : bool) (lt : idty) (g : graphmap NL EL) ord :
  gm_reachable dir lt g → hash_order g ord →
    gmh_nodes g ord = gmh_get_node g <$> v_node_indices (gm_view dir ord g) ∧
    Forall (λ h, nt_is_some h = true) (gmh_nodes g ord).
Proof. exact (nodes_handles dir lt g ord). Qed.
Print Assumptions C96_nodes.
(** remove_node returns the node as it was, with its label and neighbours; it is None when there
    was no such node. (It panics on a node with a loop: C09.) *)
Theorem C96_removed_node {NL EL} `{EqDecision NL, EqDecision EL} (dir : bool) (lt : idty) (g : graphmap NL EL) n :
  gm_reachable dir lt g →
    match gmh_remove_node dir n g with
    | Ok (h, g') => gm_has_edge g n n = false ∧ h = gmh_get_node_mut g n ∧ gmh_get_node_mut g' n = MNNone
    | r => r = Panic ∧ gm_has_edge g n n = true
    end.
Proof. exact (removed_handle dir lt g n). Qed.
Print Assumptions C96_removed_node.
Example C96_removed_case : match gmh_remove_node true 4 (wit_g true) with
  | Ok (h, _) => rmap nm_neighbors (mn_unwrap_nodemap_ref h) = Ok [1%N] | _ => False end.
Proof. by vm_compute. Qed.
(** get_edge and get_edge_mut: the ends are the ones asked for, in that order, also in an
    undirected graph. MutEdgeType::unwrap_edge panics on every handle. *)
Theorem C96_edge_handle {NL EL} `{EqDecision NL, EqDecision EL} (dir : bool) (lt : idty) (g : graphmap NL EL) ord x y :
  gm_reachable dir lt g →
    let V := gm_view dir ord g in
    ∃ b h m, v_has_edge V x y = Ok b ∧ gmh_get_edge g x y = Ok h ∧ gmh_get_edge_mut g x y = Ok m ∧
      et_is_some h = b ∧ me_is_some m = b ∧
      me_unwrap_edge m = Panic ∧
      (b = true → ∃ l, v_get_edge V x y = Ok (Some (x, y, l)) ∧
         et_get_start h = Ok x ∧ et_get_target h = Ok y ∧ et_get_label_id h = Ok l ∧ et_unwrap h = Ok (x, y, l) ∧
         me_get_start m = Ok x ∧ me_get_target m = Ok y ∧ me_get_label_id m = Ok l ∧ me_unwrap_edge_ref m = Ok (x, y, l)) ∧
      (b = false → et_get_start h = Panic ∧ et_get_target h = Panic ∧ et_get_label_id h = Ok None ∧ et_unwrap h = Panic ∧
         me_get_start m = Panic ∧ me_get_target m = Panic ∧ me_get_label_id m = Panic ∧ me_unwrap_edge_ref m = Panic).
Proof. exact (edge_handle dir lt g ord x y). Qed.
Print Assumptions C96_edge_handle.
Theorem C96_removed_edge {NL EL} `{EqDecision NL, EqDecision EL} (dir : bool) (lt : idty) (g : graphmap NL EL) x y :
  gm_reachable dir lt g → ∃ h g', gmh_remove_edge dir x y g = Ok (h, g') ∧
    gmh_get_edge g x y = Ok h ∧ gmh_get_edge g' x y = Ok ETNone ∧ (et_is_none h = true → oe_get_label_id h = Panic).
Proof. exact (removed_edge dir lt g x y). Qed.
Print Assumptions C96_removed_edge.
Example C96_edge_case : gmh_get_edge (wit_g false) 1 4 = Ok (ETEdge 1 4 (Some 1%N)) ∧ gmh_get_edge (wit_g false) 4 1 = Ok (ETEdge 4 1 (Some 1%N)) ∧
  gmh_get_edge_mut (wit_g false) 4 1 = Ok (MEEdgeRef 4 1 (Some 1%N)) ∧ gmh_get_edge_mut (wit_g false) 4 2 = Ok MENone.
Proof. by vm_compute. Qed.
(** get_node of a StaticGraph. *)
Theorem C96_static_node {NL EL} (it lt : idty) (dir : bool) (g : sgraph NL EL) A n : arrays_of lt g A →
  let V := sg_view it lt dir g in
  ∃ h, sgh_get_node lt g n = Ok h ∧ nt_is_some h = v_has_node V n ∧ nt_unwrap_nodemap h = Panic ∧
    (v_has_node V n = true → ∃ l, v_get_node V n = Ok (Some (n, l)) ∧ nt_get_id h = Ok n ∧ nt_get_label_id h = Ok l ∧ nt_unwrap_staticnode h = Ok (n, l)) ∧
    (v_has_node V n = false → nt_get_id h = Panic ∧ nt_get_label_id h = Ok None ∧ nt_unwrap_staticnode h = Panic).
Proof. exact (static_handle it lt dir g A n). Qed.
Print Assumptions C96_static_node.
Example C96_static_case : ∃ e in_e (g : sgraph N N) A, sg_new true e in_e None None = Ok g ∧ arrays_of TU8 g A ∧ a_num_nodes A = 3.
Proof. destruct (st_tri_case true) as (e & i & g & A & H1 & H2 & _ & H3). exists e, i, g, A. split_and!; [done|done|]. by destruct_and?. Qed.
