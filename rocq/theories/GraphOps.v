(** Model of src/algorithm/graph_union.rs, graph_minus.rs and conn_subgraphs.rs, on any
    graphs behind the traits. The results are GraphMaps with label id type [lt]. *)
From Verif Require Import Base Api Spec Map GraphMap ConnComp.

Section ops.
  Context {NL EL : Type} `{EqDecision NL, EqDecision EL} (lt : idty).
  Notation graph := (graphmap NL EL).
  Implicit Types (V : gview NL EL) (g : graph).

  (** The loops of the macros add_graph! (graph_union.rs l.28-43) and sub_graph!
      (graph_minus.rs l.28-43); [dir] is the directedness of the result. *)
  Definition add_nodes_of V g : res graph :=
    rfold (λ g id, let* l := v_node_label V id in rmap snd (gm_add_node lt id l g)) (v_node_indices V) g.
  Definition add_edges_of (dir : bool) V g : res graph :=
    let* es := v_edge_indices V in
    rfold (λ g e, let* l := v_edge_label V e.1 e.2 in rmap snd (gm_add_edge dir lt e.1 e.2 l g)) es g.
  Definition remove_nodes_of (dir : bool) V g : res graph :=
    rfold (λ g id, rmap snd (gm_remove_node dir id g)) (v_node_indices V) g.
  Definition remove_edges_of (dir : bool) V g : res graph :=
    let* es := v_edge_indices V in
    rfold (λ g e, rmap snd (gm_remove_edge dir e.1 e.2 g)) es g.

  (** graph_union, graph_union.rs l.71-89, and the Add impls l.92-171, which run the same
      loops; new_general_graphmap, graph_map/graph.rs l.62. *)
  Definition graph_union V0 V1 : res graph :=
    let dir := v_directed V0 in
    let* g := add_nodes_of V0 gm_new in
    let* g := add_nodes_of V1 g in
    let* g := add_edges_of dir V0 g in
    add_edges_of dir V1 g.
  (** graph_minus, graph_minus.rs l.74-92, and the Sub impls l.95-174. *)
  Definition graph_minus V0 V1 : res graph :=
    let dir := v_directed V0 in
    let* g := add_nodes_of V0 gm_new in
    let* g := add_edges_of dir V0 g in
    let* g := remove_nodes_of dir V1 g in
    remove_edges_of dir V1 g.
  (** Clone for Box<GeneralGraph>, src/generic/graph.rs l.56-68: union with an empty
      graph, whose views for the (only) iteration order have no nodes. *)
  Definition box_clone V : res graph :=
    graph_union V (gm_view (v_is_di V) [] gm_new).

  (** ConnSubgraph, conn_subgraphs.rs l.54-66. *)
  Record csub := CSub { cs_subs : list graph; cs_roots : list N; cs_cc : ccomp }.
  (** root_to_subgraph, l.99-106: the first index with that root. *)
  Fixpoint root_to_subgraph (roots : list N) (root : N) : option nat :=
    match roots with
    | [] => None
    | r :: roots => if decide (r = root) then Some 0 else S <$> root_to_subgraph roots root
    end.
  (** The shared part of process_nodes l.119-137 and process_edges l.149-167: apply [add] to
      the subgraph of [root], pushing an empty one first if there is none. *)
  Definition cs_place (add : graph → res graph) (root : N) (cs : csub) : res csub :=
    match root_to_subgraph (cs_roots cs) root with
    | Some i =>
        let* g := unwrap (cs_subs cs !! i) in
        let* g := add g in
        Ok (CSub (<[i := g]> (cs_subs cs)) (cs_roots cs) (cs_cc cs))
    | None =>
        let* g := add gm_new in
        Ok (CSub (cs_subs cs ++ [g]) (cs_roots cs ++ [root]) (cs_cc cs))
    end.
  Definition cs_set_cc (c : ccomp) (cs : csub) : csub := CSub (cs_subs cs) (cs_roots cs) c.
  (** process_nodes, l.114-139. *)
  Definition cs_process_nodes V (cs : csub) : res csub :=
    rfold (λ cs id,
      let* '(o, c) := cc_get_root id (cs_cc cs) in
      let* root := unwrap o in
      let* label := v_node_label V id in
      cs_place (λ g, rmap snd (gm_add_node lt id label g)) root (cs_set_cc c cs)) (v_node_indices V) cs.
  (** process_edges, l.142-169. *)
  Definition cs_process_edges V (cs : csub) : res csub :=
    let* es := v_edges V in
    rfold (λ cs e,
      let start := e.1.1 in let target := e.1.2 in
      let* '(o, c) := cc_get_root start (cs_cc cs) in
      let* root := unwrap o in
      let* label := v_edge_label V start target in
      cs_place (λ g, rmap snd (gm_add_edge (v_directed V) lt start target label g)) root (cs_set_cc c cs)) es cs.
  (** ConnSubgraph::new, l.74-97, and into_result, l.109. *)
  Definition conn_subgraphs V : res (list graph) :=
    let* c := cc_new V in
    let* cs := cs_process_nodes V (CSub [] [] c) in
    let* cs := cs_process_edges V cs in
    Ok (cs_subs cs).
End ops.
