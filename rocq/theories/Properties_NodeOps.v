(** C84: the node type NodeMap under any sequence of calls. C85: writing to the nodes of a
    graph through get_node_mut(). *)
From Verif Require Import Base Api Spec Map GraphMap NodeOps SpecNodeOps NodeOpsProps NodeHandle.

(** ** C84. [nbr_after], [in_after] and [label_after] (SpecNodeOps.v) read the neighbours,
    in-neighbours and label off the calls, latest call first. *)
Theorem C84_node_history (id : N) (label : option N) (h : list nop) rs n :
  nm_run h (nm_new id label) = (rs, n) →
  node_shows id (label_after label (reverse h)) (nbr_after id (λ _, None) (reverse h)) (in_after (λ _, False) (reverse h)) n ∧
  returns_all id (λ _, None) (λ _, False) h rs.
Proof. exact (new_history id label h rs n). Qed.
Print Assumptions C84_node_history.
Example C84_case : ∃ rs n, nm_run [NAddEdge 7 (Some 1); NAddEdge 3 None; NAddInEdge 9; NAddEdge 7 (Some 2); NRemoveEdge 3;
    NAddEdge 5 None; NMapNonLess (λ _ _, Some 8); NSetNeighbor 4 None; NRemoveInEdge 9; NSetLabel (Some 6)]%N (nm_new 6 None) = (rs, n) ∧
  rs = [NBool true; NBool true; NBool true; NBool false; NEdge (Some (6, 3, None)); NBool true; NUnit; NBool false; NBool true; NUnit]%N ∧
  nm_neighbors_full n = [(6, 5, None); (6, 7, Some 8)]%N ∧ nm_non_less_neighbors n = [7]%N ∧ nm_in_neighbors n = [] ∧ nm_label n = Some 6%N.
Proof. do 2 eexists. vm_compute. done. Qed.

(** ** C85. A graph changed by API calls and by writes through node handles, in any order
    ([w_reachable]): a write to node k changes what the graph shows of node k, as the calls
    say, and nothing else: not the other end of an edge and not the edge count. *)
Theorem C85_handle_effect {NL EL} `{EqDecision NL, EqDecision EL} (dir : bool) (lt : idty)
    (g : graphmap NL EL) it k h rs g' it' :
  w_reachable dir lt g → gm_node_write k h g = Ok (rs, g') →
  let V := gm_view dir it g in let V' := gm_view dir it' g' in
  let nb := nbr_after k (edge_lid V k) (reverse h) in let inn := in_after (in_list V k) (reverse h) in
  (∀ t, v_has_edge V' k t = Ok (bool_decide (is_Some (nb t))) ∧ edge_lid V' k t = nb t) ∧
  (∃ l, v_neighbors V' k = Ok l ∧ v_degree V' k = Ok (length l) ∧ increasing l ∧ ∀ t, t ∈ l ↔ is_Some (nb t)) ∧
  (∃ l, v_in_neighbors V' k = Ok l ∧ v_in_degree V' k = Ok (length l) ∧ increasing l ∧ ∀ t, t ∈ l ↔ inn t) ∧
  (∃ l, v_get_node V k = Ok (Some (k, l)) ∧ v_get_node V' k = Ok (Some (k, label_after l (reverse h)))) ∧
  returns_all k (edge_lid V k) (in_list V k) h rs ∧
  (∀ s, s ≠ k → v_get_node V' s = v_get_node V s ∧ v_neighbors V' s = v_neighbors V s ∧ v_degree V' s = v_degree V s ∧
     v_in_neighbors V' s = v_in_neighbors V s ∧ v_in_degree V' s = v_in_degree V s ∧
     ∀ t, v_has_edge V' s t = v_has_edge V s t ∧ v_get_edge V' s t = v_get_edge V s t) ∧
  (∀ s, v_has_node V' s = v_has_node V s) ∧ v_node_count V' = v_node_count V ∧ v_edge_count V' = v_edge_count V ∧
  v_max_seen_id V' = v_max_seen_id V ∧ v_node_label_map V' = v_node_label_map V ∧ v_edge_label_map V' = v_edge_label_map V.
Proof. exact (handle_effect dir lt g it k h rs g' it'). Qed.
Print Assumptions C85_handle_effect.
(** get_node_mut(k).unwrap_nodemap_ref() panics exactly when there is no node k. *)
Theorem C85_handle_missing {NL EL} (dir : bool) (g : graphmap NL EL) it k h :
  gm_node_write k h g = Panic ↔ v_has_node (gm_view dir it g) k = false.
Proof. exact (handle_missing dir k h g it). Qed.
Print Assumptions C85_handle_missing.
(** Writing both ends (with the id that add_edge_label returns for an already registered
    label) is add_edge, except for edge_count(). *)
Theorem C85_both_ends {NL EL} `{EqDecision NL, EqDecision EL} (dir : bool) (lt : idty) (g : graphmap NL EL) s t label lid :
  (∀ it, v_has_node (gm_view dir it g) s = true) → (∀ it, v_has_node (gm_view dir it g) t = true) →
  gm_step dir lt (OAddEdgeLabel label) g = Ok (RLabelId lid, g) →
  ∃ g1 b g2, both_ends dir s t lid g = Ok g1 ∧ gm_step dir lt (OAddEdge s t label) g = Ok (RBool b, g2) ∧
    ∀ it, gm_view dir it g1 = with_edge_count (v_edge_count (gm_view dir it g)) (gm_view dir it g2) ∧
      v_edge_count (gm_view dir it g2) = S (v_edge_count (gm_view dir it g)).
Proof. exact (both_ends_thm dir lt g s t label lid). Qed.
Print Assumptions C85_both_ends.
(** Hence writing one end leaves a graph that is no graph: an edge 1-2 that is not there seen
    from 2, an edge to a node that does not exist, edge_count() 0, and panics later. *)
Theorem C85_consistency_refuted (dir : bool) : ∃ g : graphmap N N, rfold (λ g o, w_step dir TU8 o g) handle_hist (gm_with_label_map [] []) = Ok g ∧
  w_reachable dir TU8 g ∧ hash_order g [1; 2]%N ∧
  let V := gm_view dir [1; 2]%N g in
  v_has_edge V 1 2 = Ok true ∧ v_has_edge V 2 1 = Ok false ∧ v_in_neighbors V 2 = Ok [] ∧
  v_has_edge V 1 9 = Ok true ∧ v_has_node V 9 = false ∧
  v_edge_count V = 0 ∧ v_edge_indices V = Ok [(1, 2); (1, 9)]%N ∧
  gm_step dir TU8 (ORemoveNode 1%N) g = Panic ∧
  (dir = true → gm_step dir TU8 (ORemoveEdge 1 2)%N g = Panic).
Proof. exact (handle_bad dir). Qed.
Print Assumptions C85_consistency_refuted.
Example C85_case dir : ∃ (g : graphmap N N) rs g', w_reachable dir TU8 g ∧
  gm_node_write 1%N [NRemoveEdge 9; NAddInEdge 2]%N g = Ok (rs, g') ∧ rs = [NEdge (Some (1, 9, Some 4)); NBool true]%N.
Proof. exact (handle_case dir). Qed.
Example C85_both_ends_case dir : ∃ g : graphmap N N, (∀ it, v_has_node (gm_view dir it g) 1%N = true) ∧ (∀ it, v_has_node (gm_view dir it g) 2%N = true) ∧
  gm_step dir TU8 (OAddEdgeLabel (Some 5%N)) g = Ok (RLabelId (Some 1%N), g).
Proof. exact (both_ends_case dir). Qed.
