(** Model of src/graph_impl/graph_map/{node,edge,graph}.rs: the mutable,
    hash-map based graph TypedGraphMap<Id, NL, EL, Ty, L>.

    Parameters: [dir] is Ty::is_directed(), [lt] is the label id type L. The node
    id type only restricts which ids exist and plays no role here. The HashMap
    [node_map] is a finite map; functions that iterate over it take the
    iteration order [it] (a list of its keys) as an argument. *)
From Verif Require Import Base Api Map.

(** NodeMap, node.rs l.26-32. *)
Record nodemap := NodeMap {
  nm_id : N;
  nm_label : option N;
  nm_nbrs : gmap N (option N);
  nm_in : gset N;
}.
#[export] Instance nodemap_eq_dec : EqDecision nodemap.
Proof. solve_decision. Defined.

(** NodeMap::new, node.rs l.36. *)
Definition nm_new (id : N) (label : option N) : nodemap := NodeMap id label ∅ ∅.
(** set_label_id, node.rs l.85. *)
Definition nm_set_label_id (l : option N) (n : nodemap) : nodemap :=
  NodeMap (nm_id n) l (nm_nbrs n) (nm_in n).
(** has_in_neighbor, node.rs l.92. *)
Definition nm_has_in_neighbor (n : nodemap) (x : N) : bool := bool_decide (x ∈ nm_in n).
(** has_neighbor, node.rs l.97. *)
Definition nm_has_neighbor (n : nodemap) (x : N) : bool := bool_decide (is_Some (nm_nbrs n !! x)).
(** in_degree, node.rs l.102. *)
Definition nm_in_degree (n : nodemap) : nat := size (nm_in n).
(** degree, node.rs l.107. *)
Definition nm_degree (n : nodemap) : nat := size (nm_nbrs n).
(** neighbors_iter / neighbors, node.rs l.112 and l.122. *)
Definition nm_neighbors (n : nodemap) : list N := bt_keys (nm_nbrs n).
(** in_neighbors_iter / in_neighbors, node.rs l.117 and l.127. *)
Definition nm_in_neighbors (n : nodemap) : list N := bs_iter (nm_in n).
(** get_neighbor, node.rs l.132. *)
Definition nm_get_neighbor (n : nodemap) (x : N) : option (option N) := nm_nbrs n !! x.
(** non_less_neighbors_iter, node.rs l.137. *)
Definition nm_non_less_neighbors (n : nodemap) : list N := (bt_range_from (nm_id n) (nm_nbrs n)).*1.
(** neighbors_iter_full, node.rs l.142-150. *)
Definition nm_neighbors_full (n : nodemap) : list (N * N * option N) :=
  (λ p, (nm_id n, p.1, p.2)) <$> bt_iter (nm_nbrs n).
(** non_less_neighbors_iter_full, node.rs l.153-161. *)
Definition nm_non_less_neighbors_full (n : nodemap) : list (N * N * option N) :=
  (λ p, (nm_id n, p.1, p.2)) <$> bt_range_from (nm_id n) (nm_nbrs n).
(** add_in_edge, node.rs l.166-173 (its bool result is ignored by every caller). *)
Definition nm_add_in_edge (adj : N) (n : nodemap) : nodemap :=
  if nm_has_in_neighbor n adj then n
  else NodeMap (nm_id n) (nm_label n) (nm_nbrs n) ({[adj]} ∪ nm_in n).
(** add_edge, node.rs l.176-186: insert or overwrite the label; true iff new. *)
Definition nm_add_edge (adj : N) (l : option N) (n : nodemap) : bool * nodemap :=
  (bool_decide (nm_nbrs n !! adj = None),
   NodeMap (nm_id n) (nm_label n) (<[adj := l]> (nm_nbrs n)) (nm_in n)).
(** remove_in_edge, node.rs l.189. *)
Definition nm_remove_in_edge (adj : N) (n : nodemap) : nodemap :=
  NodeMap (nm_id n) (nm_label n) (nm_nbrs n) (nm_in n ∖ {[adj]}).
(** remove_edge, node.rs l.194-199: the removed Edge, or OwnedEdgeType::None. *)
Definition nm_remove_edge (adj : N) (n : nodemap) : option (N * N * option N) * nodemap :=
  match nm_nbrs n !! adj with
  | Some l => (Some (nm_id n, adj, l), NodeMap (nm_id n) (nm_label n) (delete adj (nm_nbrs n)) (nm_in n))
  | None => (None, n)
  end.
(** get_neighbor_mut, node.rs l.202-208, followed by set_label_id through the
    returned MutEdge (edge.rs l.60); None when there is no such neighbour. *)
Definition nm_set_neighbor_label (adj : N) (l : option N) (n : nodemap) : option nodemap :=
  match nm_nbrs n !! adj with
  | Some _ => Some (NodeMap (nm_id n) (nm_label n) (<[adj := l]> (nm_nbrs n)) (nm_in n))
  | None => None
  end.

(** TypedGraphMap, graph.rs l.74-87. *)
Record graphmap (NL EL : Type) := GraphMap {
  g_nodes : gmap N nodemap;
  g_nedges : nat;
  g_nlm : list NL;
  g_elm : list EL;
  g_max : option N;
}.
Arguments GraphMap {_ _}. Arguments g_nodes {_ _}. Arguments g_nedges {_ _}.
Arguments g_nlm {_ _}. Arguments g_elm {_ _}. Arguments g_max {_ _}.

Section graphmap.
  Context {NL EL : Type} `{EqDecision NL, EqDecision EL}.
  Context (dir : bool) (lt : idty).
  Notation graph := (graphmap NL EL).
  Implicit Types g : graph.

  (** new, graph.rs l.165 (also with_capacity l.176). *)
  Definition gm_new : graph := GraphMap ∅ 0 [] [] None.
  (** with_label_map, graph.rs l.212. *)
  Definition gm_with_label_map (nlm : list NL) (elm : list EL) : graph := GraphMap ∅ 0 nlm elm None.

  (** Field updates. *)
  Definition set_nodes (m : gmap N nodemap) g : graph := GraphMap m (g_nedges g) (g_nlm g) (g_elm g) (g_max g).
  Definition set_nedges (k : nat) g : graph := GraphMap (g_nodes g) k (g_nlm g) (g_elm g) (g_max g).
  Definition set_nlm (l : list NL) g : graph := GraphMap (g_nodes g) (g_nedges g) l (g_elm g) (g_max g).
  Definition set_elm (l : list EL) g : graph := GraphMap (g_nodes g) (g_nedges g) (g_nlm g) l (g_max g).
  Definition set_max (o : option N) g : graph := GraphMap (g_nodes g) (g_nedges g) (g_nlm g) (g_elm g) o.

  (** [self.node_map.get_mut(&k).unwrap()] followed by an update of that node. *)
  Definition upd_node (k : N) (f : nodemap → nodemap) g : res graph :=
    let* n := unwrap (g_nodes g !! k) in Ok (set_nodes (<[k := f n]> (g_nodes g)) g).

  (** *** Queries *)
  (** has_node, graph.rs l.446. *)
  Definition gm_has_node g (id : N) : bool := bool_decide (is_Some (g_nodes g !! id)).
  (** get_node, graph.rs l.426; observed as (get_id, get_label_id). *)
  Definition gm_get_node g (id : N) : option (N * option N) :=
    (λ n, (nm_id n, nm_label n)) <$> g_nodes g !! id.
  (** has_edge, graph.rs l.451. *)
  Definition gm_has_edge g (s t : N) : bool :=
    match g_nodes g !! s with Some n => nm_has_neighbor n t | None => false end.
  (** get_edge, graph.rs l.434-443. *)
  Definition gm_get_edge g (s t : N) : res (option (N * N * option N)) :=
    if gm_has_edge g s t then
      let* n := unwrap (g_nodes g !! s) in
      let* l := unwrap (nm_get_neighbor n t) in
      Ok (Some (s, t, l))
    else Ok None.
  (** node_count, graph.rs l.459. *)
  Definition gm_node_count g : nat := size (g_nodes g).
  (** edge_count, graph.rs l.464. *)
  Definition gm_edge_count g : nat := g_nedges g.
  (** The values of node_map in iteration order [it]. *)
  Definition gm_values g (it : list N) : list nodemap := omap (λ k, g_nodes g !! k) it.
  (** node_indices, graph.rs l.474: the keys. *)
  Definition gm_node_indices (it : list N) : list N := it.
  (** edge_indices, graph.rs l.479-491. *)
  Definition gm_edge_indices g (it : list N) : list (N * N) :=
    gm_values g it ≫= λ n,
      (λ i, (nm_id n, i)) <$> (if dir then nm_neighbors n else nm_non_less_neighbors n).
  (** nodes, graph.rs l.494. *)
  Definition gm_node_list g (it : list N) : list (N * option N) :=
    (λ n, (nm_id n, nm_label n)) <$> gm_values g it.
  (** edges, graph.rs l.499-515. *)
  Definition gm_edge_list g (it : list N) : list (N * N * option N) :=
    gm_values g it ≫= λ n, if dir then nm_neighbors_full n else nm_non_less_neighbors_full n.
  (** degree, graph.rs l.518-524. *)
  Definition gm_degree g (id : N) : res nat :=
    match g_nodes g !! id with Some n => Ok (nm_degree n) | None => Panic end.
  (** neighbors_iter / neighbors, graph.rs l.527-542. *)
  Definition gm_neighbors g (id : N) : res (list N) :=
    match g_nodes g !! id with Some n => Ok (nm_neighbors n) | None => Panic end.
  (** in_degree, graph.rs l.603. *)
  Definition gm_in_degree g (id : N) : res nat :=
    match g_nodes g !! id with Some n => Ok (nm_in_degree n) | None => Panic end.
  (** in_neighbors_iter / in_neighbors, graph.rs l.612-627. *)
  Definition gm_in_neighbors g (id : N) : res (list N) :=
    match g_nodes g !! id with Some n => Ok (nm_in_neighbors n) | None => Panic end.
  (** max_seen_id, graph.rs l.545. *)
  Definition gm_max_seen_id g : option N := g_max g.

  (** All observations, for an iteration order [it]. as_digraph: graph.rs l.673
      (directed) and the default None, src/generic/graph.rs l.46 (undirected). *)
  Definition gm_view (it : list N) g : gview NL EL := {|
    v_directed := dir;
    v_is_di := dir;
    v_node_count := gm_node_count g;
    v_edge_count := gm_edge_count g;
    v_has_node := gm_has_node g;
    v_has_edge s t := Ok (gm_has_edge g s t);
    v_get_node n := Ok (gm_get_node g n);
    v_get_edge := gm_get_edge g;
    v_node_indices := gm_node_indices it;
    v_edge_indices := Ok (gm_edge_indices g it);
    v_nodes := Ok (gm_node_list g it);
    v_edges := Ok (gm_edge_list g it);
    v_degree := gm_degree g;
    v_neighbors := gm_neighbors g;
    v_in_degree := gm_in_degree g;
    v_in_neighbors := gm_in_neighbors g;
    v_max_seen_id := Ok (gm_max_seen_id g);
    v_node_label_map := g_nlm g;
    v_edge_label_map := g_elm g;
  |}.

  (** *** Mutations *)
  (** [label.map(|x| L::new(self.node_label_map.add_item(x)))], used in
      add_node_label graph.rs l.234 and add_node l.265. *)
  Definition gm_add_node_label (l : option NL) g : res (option N * graph) :=
    match l with
    | Some x => let* '(i, m) := sm_add_item (g_nlm g) x in Ok (Some (id_new lt i), set_nlm m g)
    | None => Ok (None, g)
    end.
  (** The same for edge labels, add_edge_label graph.rs l.238 and add_edge l.339. *)
  Definition gm_add_edge_label (l : option EL) g : res (option N * graph) :=
    match l with
    | Some x => let* '(i, m) := sm_add_item (g_elm g) x in Ok (Some (id_new lt i), set_elm m g)
    | None => Ok (None, g)
    end.
  (** add_node, graph.rs l.264-288. *)
  Definition gm_add_node (id : N) (label : option NL) g : res (bool * graph) :=
    let* '(label_id, g) := gm_add_node_label label g in
    if gm_has_node g id then
      let* g := upd_node id (nm_set_label_id label_id) g in
      Ok (false, g)
    else
      let g := set_nodes (<[id := nm_new id label_id]> (g_nodes g)) g in
      let g := match g_max g with
               | Some i => if decide (i < id)%N then set_max (Some id) g else g
               | None => set_max (Some id) g
               end in
      Ok (true, g).
  (** get_node_mut, graph.rs l.291, then set_label_id when the node exists. *)
  Definition gm_set_node_label_id (id : N) (lid : option N) g : bool * graph :=
    match g_nodes g !! id with
    | Some n => (true, set_nodes (<[id := nm_set_label_id lid n]> (g_nodes g)) g)
    | None => (false, g)
    end.
  (** remove_node, graph.rs l.299-324; returns the removed NodeMap. *)
  Definition gm_remove_node (id : N) g : res (option nodemap * graph) :=
    match g_nodes g !! id with
    | None => Ok (None, g)
    | Some node =>
        let g := set_nodes (delete id (g_nodes g)) g in
        let* g :=
          if dir then
            let* g := rfold (λ g nb, upd_node nb (nm_remove_in_edge id) g) (nm_neighbors node) g in
            rfold (λ g nb, upd_node nb (λ n, (nm_remove_edge id n).2) g) (nm_in_neighbors node) g
          else
            rfold (λ g nb, upd_node nb (λ n, (nm_remove_edge id n).2) g) (nm_neighbors node) g in
        let* k := usub (g_nedges g) (nm_degree node + nm_in_degree node) in
        Ok (Some node, set_nedges k g)
    end.
  (** add_edge, graph.rs l.331-359. *)
  Definition gm_add_edge (s t : N) (label : option EL) g : res (bool * graph) :=
    let* g := if gm_has_node g s then Ok g else rmap snd (gm_add_node s None g) in
    let* g := if gm_has_node g t then Ok g else rmap snd (gm_add_node t None g) in
    let* '(label_id, g) := gm_add_edge_label label g in
    let* ns := unwrap (g_nodes g !! s) in
    let '(result, ns') := nm_add_edge t label_id ns in
    let g := set_nodes (<[s := ns']> (g_nodes g)) g in
    let* g :=
      if dir then upd_node t (nm_add_in_edge s) g
      else if decide (s = t) then Ok g
      else upd_node t (λ n, (nm_add_edge s label_id n).2) g in
    Ok (result, set_nedges (S (g_nedges g)) g).
  (** get_edge_mut, graph.rs l.362-369, then set_label_id when the edge exists. *)
  Definition gm_set_edge_label_id (s t : N) (lid : option N) g : res (bool * graph) :=
    if gm_has_edge g s t then
      let* n := unwrap (g_nodes g !! s) in
      match nm_set_neighbor_label t lid n with
      | Some n' => Ok (true, set_nodes (<[s := n']> (g_nodes g)) g)
      | None => Ok (false, g)
      end
    else Ok (false, g).
  (** remove_edge, graph.rs l.372-395. *)
  Definition gm_remove_edge (s t : N) g : res (option (N * N * option N) * graph) :=
    if gm_has_edge g s t then
      let* ns := unwrap (g_nodes g !! s) in
      let '(edge, ns') := nm_remove_edge t ns in
      let g := set_nodes (<[s := ns']> (g_nodes g)) g in
      let* g :=
        if dir then upd_node t (nm_remove_in_edge s) g
        else upd_node t (λ n, (nm_remove_edge s n).2) g in
      let* k := usub (g_nedges g) 1 in
      Ok (edge, set_nedges k g)
    else Ok (None, g).
  (** update_node_label, graph.rs l.573-581. *)
  Definition gm_update_node_label (id : N) (label : option NL) g : res (bool * graph) :=
    if gm_has_node g id then rmap (λ p, (true, p.2)) (gm_add_node id label g) else Ok (false, g).
  (** update_edge_label, graph.rs l.584-592. *)
  Definition gm_update_edge_label (s t : N) (label : option EL) g : res (bool * graph) :=
    if gm_has_edge g s t then rmap (λ p, (true, p.2)) (gm_add_edge s t label g) else Ok (false, g).
  (** refine_edge_count, graph.rs l.243-246, for an iteration order. *)
  Definition gm_refine_edge_count (it : list N) g : graph :=
    set_nedges (length (gm_edge_indices g it)) g.
  (** from_edges, graph.rs l.223-232. *)
  Definition gm_from_edges (es : list (N * N)) : res graph :=
    rfold (λ g e, let* '(_, g) := gm_add_node e.1 None g in
                  let* '(_, g) := gm_add_node e.2 None g in
                  rmap snd (gm_add_edge e.1 e.2 None g)) es gm_new.
  (** nodes_mut, graph.rs l.398, assigning [f id label] to every node. *)
  Definition gm_map_node_labels (f : N → option N → option N) g : graph :=
    set_nodes ((λ n, nm_set_label_id (f (nm_id n) (nm_label n)) n) <$> g_nodes g) g.
  (** edges_mut, graph.rs l.405-419 with node.rs l.211-224 (neighbors_iter_mut,
      non_less_neighbors_iter_mut), assigning [f s t label] to every edge yielded. *)
  Definition nm_map_edge_labels (f : N → N → option N → option N) (n : nodemap) : nodemap :=
    NodeMap (nm_id n) (nm_label n)
      (map_imap (λ t l, Some (if dir || bool_decide (nm_id n ≤ t)%N then f (nm_id n) t l else l)) (nm_nbrs n))
      (nm_in n).
  Definition gm_map_edge_labels (f : N → N → option N → option N) g : graph :=
    set_nodes (nm_map_edge_labels f <$> g_nodes g) g.

  (** *** One API call, and histories of calls *)
  (** The label a returned node/edge's label id denotes in the graph. *)
  Definition lookup_label {X} (m : list X) (lid : option N) : option X :=
    match lid with Some i => sm_get_item m (id_id i) | None => None end.

  Definition gm_step (o : gop NL EL) g : res (gout NL EL * graph) :=
    match o with
    | OAddNode n l => rmap (λ p, (RBool p.1, p.2)) (gm_add_node n l g)
    | OAddEdge s t l => rmap (λ p, (RBool p.1, p.2)) (gm_add_edge s t l g)
    | ORemoveNode n =>
        rmap (λ p, (RNode ((λ x, (nm_id x, lookup_label (g_nlm p.2) (nm_label x))) <$> p.1), p.2))
          (gm_remove_node n g)
    | ORemoveEdge s t =>
        rmap (λ p, (REdge ((λ e, (e.1.1, e.1.2, lookup_label (g_elm p.2) e.2)) <$> p.1), p.2))
          (gm_remove_edge s t g)
    | OUpdateNodeLabel n l => rmap (λ p, (RBool p.1, p.2)) (gm_update_node_label n l g)
    | OUpdateEdgeLabel s t l => rmap (λ p, (RBool p.1, p.2)) (gm_update_edge_label s t l g)
    | OAddNodeLabel l => rmap (λ p, (RLabelId p.1, p.2)) (gm_add_node_label l g)
    | OAddEdgeLabel l => rmap (λ p, (RLabelId p.1, p.2)) (gm_add_edge_label l g)
    | ORefineEdgeCount => Ok (RUnit, gm_refine_edge_count (map_to_list (g_nodes g)).*1 g)
    | OSetNodeLabelId n lid => let p := gm_set_node_label_id n lid g in Ok (RBool p.1, p.2)
    | OSetEdgeLabelId s t lid => rmap (λ p, (RBool p.1, p.2)) (gm_set_edge_label_id s t lid g)
    end.

  Fixpoint gm_run (h : list (gop NL EL)) g : res (list (gout NL EL) * graph) :=
    match h with
    | [] => Ok ([], g)
    | o :: h' =>
        let* '(r, g') := gm_step o g in
        rmap (λ p, (r :: p.1, p.2)) (gm_run h' g')
    end.
End graphmap.

(** [it] is a possible iteration order of the node HashMap. *)
Definition hash_order {NL EL} (g : graphmap NL EL) (it : list N) : Prop :=
  it ≡ₚ (map_to_list (g_nodes g)).*1.

(** Graphs a user can obtain: start from an empty graph with given label maps
    (SetMaps, hence without repetition) and make any calls. *)
Definition gm_reachable {NL EL} `{EqDecision NL, EqDecision EL} (dir : bool) (lt : idty)
    (g : graphmap NL EL) : Prop :=
  ∃ nls els h rs, NoDup nls ∧ NoDup els ∧ gm_run dir lt h (gm_with_label_map nls els) = Ok (rs, g).
