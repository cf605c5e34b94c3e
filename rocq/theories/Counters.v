(** The edge counter of a GraphMap as a machine word. The other model files let usize counters
    grow without bound; here a usize holds the values below [W] (2^32 or 2^64) and arithmetic on
    the counter either panics on overflow ([checks], debug builds) or wraps (release builds). *)
From stdpp Require Import gmap.
From Verif Require Import Base Api Spec Map GraphMap.

Section counters.
  Context {NL EL : Type} `{EqDecision NL, EqDecision EL}.
  Context (W : nat) (checks dir : bool) (lt : idty).
  Notation graph := (graphmap NL EL).
  Implicit Types g : graph.

  (** [a + b], [a - b] and Iterator::count on usize. *)
  Definition u_add (a b : nat) : res nat :=
    if decide (a + b < W) then Ok (a + b) else if checks then Panic else Ok ((a + b) mod W).
  Definition u_sub (a b : nat) : res nat :=
    if decide (b ≤ a) then Ok (a - b) else if checks then Panic else Ok (W + a - b).
  Definition u_count (n : nat) : res nat :=
    if decide (n < W) then Ok n else if checks then Panic else Ok (n mod W).

  (** remove_node, graph_map/graph.rs l.299-324; [self.num_of_edges -= node.degree() + node.in_degree()]. A length is below [W]. *)
  Definition u_remove_node (id : N) g : res (option nodemap * graph) :=
    match g_nodes g !! id with
    | None => Ok (None, g)
    | Some node =>
        let g := set_nodes (delete id (g_nodes g)) g in
        let* g :=
          if dir then
            let* g := rfold (λ g nb, upd_node nb (nm_remove_in_edge id) g) (nm_neighbors node) g in
            rfold (λ g nb, upd_node nb (λ n, (nm_remove_edge id n).2) g) (nm_in_neighbors node) g
          else
            rfold (λ g nb, upd_node nb (λ n, (nm_remove_edge id n).2) g) (nm_neighbors node) g in
        let* d := u_count (nm_degree node) in
        let* d' := u_count (nm_in_degree node) in
        let* d := u_add d d' in
        let* k := u_sub (g_nedges g) d in
        Ok (Some node, set_nedges k g)
    end.
  (** add_edge, l.331-359; [self.num_of_edges += 1]. *)
  Definition u_add_edge (s t : N) (label : option EL) g : res (bool * graph) :=
    let* g := if gm_has_node g s then Ok g else rmap snd (gm_add_node lt s None g) in
    let* g := if gm_has_node g t then Ok g else rmap snd (gm_add_node lt t None g) in
    let* '(label_id, g) := gm_add_edge_label lt label g in
    let* ns := unwrap (g_nodes g !! s) in
    let '(result, ns') := nm_add_edge t label_id ns in
    let g := set_nodes (<[s := ns']> (g_nodes g)) g in
    let* g :=
      if dir then upd_node t (nm_add_in_edge s) g
      else if decide (s = t) then Ok g
      else upd_node t (λ n, (nm_add_edge s label_id n).2) g in
    let* k := u_add (g_nedges g) 1 in
    Ok (result, set_nedges k g).
  (** remove_edge, l.372-395; [self.num_of_edges -= 1]. *)
  Definition u_remove_edge (s t : N) g : res (option (N * N * option N) * graph) :=
    if gm_has_edge g s t then
      let* ns := unwrap (g_nodes g !! s) in
      let '(edge, ns') := nm_remove_edge t ns in
      let g := set_nodes (<[s := ns']> (g_nodes g)) g in
      let* g :=
        if dir then upd_node t (nm_remove_in_edge s) g
        else upd_node t (λ n, (nm_remove_edge s n).2) g in
      let* k := u_sub (g_nedges g) 1 in
      Ok (edge, set_nedges k g)
    else Ok (None, g).
  (** update_edge_label, l.584-592. *)
  Definition u_update_edge_label (s t : N) (label : option EL) g : res (bool * graph) :=
    if gm_has_edge g s t then rmap (λ p, (true, p.2)) (u_add_edge s t label g) else Ok (false, g).
  (** refine_edge_count, l.243-246. *)
  Definition u_refine_edge_count (it : list N) g : res graph :=
    rmap (λ k, set_nedges k g) (u_count (length (gm_edge_indices dir g it))).
  (** One call, and histories; the calls not listed leave the counter alone. *)
  Definition u_step (o : gop NL EL) g : res (gout NL EL * graph) :=
    match o with
    | OAddEdge s t l => rmap (λ p, (RBool p.1, p.2)) (u_add_edge s t l g)
    | ORemoveNode n =>
        rmap (λ p, (RNode ((λ x, (nm_id x, lookup_label (g_nlm p.2) (nm_label x))) <$> p.1), p.2)) (u_remove_node n g)
    | ORemoveEdge s t =>
        rmap (λ p, (REdge ((λ e, (e.1.1, e.1.2, lookup_label (g_elm p.2) e.2)) <$> p.1), p.2)) (u_remove_edge s t g)
    | OUpdateEdgeLabel s t l => rmap (λ p, (RBool p.1, p.2)) (u_update_edge_label s t l g)
    | ORefineEdgeCount => rmap (λ g, (RUnit, g)) (u_refine_edge_count (map_to_list (g_nodes g)).*1 g)
    | o => gm_step dir lt o g
    end.
  Fixpoint u_run (h : list (gop NL EL)) g : res (list (gout NL EL) * graph) :=
    match h with
    | [] => Ok ([], g)
    | o :: h' =>
        let* '(r, g') := u_step o g in
        rmap (λ p, (r :: p.1, p.2)) (u_run h' g')
    end.
End counters.
