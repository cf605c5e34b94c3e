(** Writes to a single NodeMap, on its own or through the handle get_node_mut() gives:
    graph_map/node.rs l.57-65 and l.164-225, generic/node.rs l.60-68. *)
From Verif Require Import Base Api Map GraphMap.

(** A call on a NodeMap, with MutNodeMapTrait (node.rs l.57-65) and MutNodeTrait. *)
Inductive nop :=
  | NAddInEdge (adj : N)
  | NAddEdge (adj : N) (label : option N)
  | NRemoveInEdge (adj : N)
  | NRemoveEdge (adj : N)
  | NSetNeighbor (adj : N) (label : option N)         (* get_neighbor_mut(adj), then set_label_id if there is one *)
  | NMapNeighbors (f : N → option N → option N)       (* neighbors_iter_mut(), then set_label_id on each *)
  | NMapNonLess (f : N → option N → option N)         (* non_less_neighbors_iter_mut(), likewise *)
  | NSetLabel (label : option N).                     (* set_label_id *)
(** What it returns: the bool, or the removed edge; for get_neighbor_mut whether there is one. *)
Inductive nout := NBool (b : bool) | NEdge (e : option (N * N * option N)) | NUnit.

(** neighbors_iter_mut, node.rs l.211-216: every label is replaced. *)
Definition nm_map_neighbors (f : N → option N → option N) (n : nodemap) : nodemap :=
  NodeMap (nm_id n) (nm_label n) (map_imap (λ x l, Some (f x l)) (nm_nbrs n)) (nm_in n).
(** non_less_neighbors_iter_mut, node.rs l.219-224: range_mut(self.id..). *)
Definition nm_map_non_less (f : N → option N → option N) (n : nodemap) : nodemap :=
  NodeMap (nm_id n) (nm_label n) (map_imap (λ x l, Some (if decide (nm_id n ≤ x)%N then f x l else l)) (nm_nbrs n)) (nm_in n).
Definition nm_step (o : nop) (n : nodemap) : nout * nodemap :=
  match o with
  | NAddInEdge x => (NBool (negb (nm_has_in_neighbor n x)), nm_add_in_edge x n)   (* node.rs l.166-173 *)
  | NAddEdge x l => let '(b, n) := nm_add_edge x l n in (NBool b, n)
  | NRemoveInEdge x => (NBool (nm_has_in_neighbor n x), nm_remove_in_edge x n)    (* BTreeSet::remove, l.189 *)
  | NRemoveEdge x => let '(e, n) := nm_remove_edge x n in (NEdge e, n)
  | NSetNeighbor x l => match nm_set_neighbor_label x l n with Some n => (NBool true, n) | None => (NBool false, n) end
  | NMapNeighbors f => (NUnit, nm_map_neighbors f n)
  | NMapNonLess f => (NUnit, nm_map_non_less f n)
  | NSetLabel l => (NUnit, nm_set_label_id l n)
  end.
Fixpoint nm_run (h : list nop) (n : nodemap) : list nout * nodemap :=
  match h with
  | [] => ([], n)
  | o :: h => let '(r, n) := nm_step o n in let '(rs, n) := nm_run h n in (r :: rs, n)
  end.

Section handle.
  Context {NL EL : Type}.
  (** g.get_node_mut(k).unwrap_nodemap_ref(), then calls on the NodeMap: graph.rs l.291 and
      generic/node.rs l.63-68 (panics when there is no node). *)
  Definition gm_node_write (k : N) (h : list nop) (g : graphmap NL EL) : res (list nout * graphmap NL EL) :=
    let* n := unwrap (g_nodes g !! k) in
    let '(rs, n) := nm_run h n in
    Ok (rs, set_nodes (<[k := n]> (g_nodes g)) g).
End handle.

(** A call on the graph, or calls on one of its nodes through get_node_mut(). *)
Inductive wop (NL EL : Type) := WCall (o : gop NL EL) | WNode (k : N) (h : list nop).
Arguments WCall {_ _}. Arguments WNode {_ _}.
Section mixed.
  Context {NL EL : Type} `{EqDecision NL, EqDecision EL} (dir : bool) (lt : idty).
  Notation graph := (graphmap NL EL).
  Definition w_step (o : wop NL EL) (g : graph) : res graph :=
    match o with
    | WCall o => rmap snd (gm_step dir lt o g)
    | WNode k h => rmap snd (gm_node_write k h g)
    end.
  Definition w_reachable (g : graph) : Prop :=
    ∃ nls els h, NoDup nls ∧ NoDup els ∧ rfold (λ g o, w_step o g) h (gm_with_label_map nls els) = Ok g.
(** Both ends of an edge written through handles, as add_edge does (graph.rs l.344-353). *)
  Definition both_ends (s t : N) (lid : option N) (g : graph) : res graph :=
    let* g := rmap snd (gm_node_write s [NAddEdge t lid] g) in
    if dir then rmap snd (gm_node_write t [NAddInEdge s] g)
    else if decide (s = t) then Ok g else rmap snd (gm_node_write t [NAddEdge s lid] g).
End mixed.
