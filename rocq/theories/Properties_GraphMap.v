(** C06-C19, C25: the mutable graph GraphMap. *)
From Verif Require Import Base BaseFacts Api Spec Map GraphMap GraphMapMore GraphMapFrame GraphMapProps GraphMapWit.

(** ** C06. [spec_run] applies the calls to an abstract labelled graph (Spec.v). *)
Theorem C06_directed_refinement {NL EL} `{EqDecision NL, EqDecision EL} (lt : idty)
    (nls : list NL) (els : list EL) h rs s :
  NoDup nls → NoDup els → spec_run h (s_init true nls els) = SOk (rs, s) →
  labels_fit lt (sp_nls s) → labels_fit lt (sp_els s) →
  ∃ g, gm_run true lt h (gm_with_label_map nls els) = Ok (rs, g) ∧
    ∀ it, hash_order g it →
      let V := gm_view true it g in
      represents V (sp_g s) ∧ answers_missing V (sp_g s) ∧ iterates V ∧
      v_edge_count V = sp_count s ∧ v_max_seen_id V = Ok (sp_max s) ∧
      v_node_label_map V = sp_nls s ∧ v_edge_label_map V = sp_els s.
Proof. exact (refinement true lt nls els h rs s). Qed.
Print Assumptions C06_directed_refinement.
(** Structure only, but for every history, also those that write label ids that
    denote no label or register more labels than the label id type can number. *)
Theorem C06_directed_structure {NL EL} `{EqDecision NL, EqDecision EL} (lt : idty)
    (nls : list NL) (els : list EL) h :
  NoDup nls → NoDup els →
  match spec_run (strip h) (s_init true nls els) with
  | SOk (rs, s) => ∃ rs' g, gm_run true lt h (gm_with_label_map nls els) = Ok (rs', g) ∧
      out_unlabelled <$> kept_outs h rs' = out_unlabelled <$> rs ∧
      ∀ it, hash_order g it →
        let V := gm_view true it g in
        represents (v_unlabelled V) (a_unlabelled (sp_g s)) ∧ answers_missing V (sp_g s) ∧ iterates V ∧
        v_edge_count V = sp_count s ∧ v_max_seen_id V = Ok (sp_max s) ∧
        v_node_label_map V = sp_nls s ∧ v_edge_label_map V = sp_els s
  | SPanic => gm_run true lt h (gm_with_label_map nls els) = Panic
  | SUnspec => False
  end.
Proof. exact (structure true lt nls els h). Qed.
Print Assumptions C06_directed_structure.
Example C06_case : ∃ rs s, spec_run wit_history (s_init true [] []) = SOk (rs, s) ∧
  labels_fit TU8 (sp_nls s) ∧ labels_fit TU8 (sp_els s) ∧
  rs = [RBool true; RBool true; RBool false; RBool true; RNode (Some (3, None)); REdge (Some (1, 2, Some 8)); RBool true; RBool true]%N ∧
  a_has_edge (sp_g s) 2%N 2%N ∧ ¬ a_has_edge (sp_g s) 1%N 2%N ∧ ag_nodes (sp_g s) !! 1%N = Some (Some 6%N).
Proof. exact (wit_history_spec true). Qed.

(** ** C07 *)
Theorem C07_undirected_refinement {NL EL} `{EqDecision NL, EqDecision EL} (lt : idty)
    (nls : list NL) (els : list EL) h rs s :
  NoDup nls → NoDup els → spec_run h (s_init false nls els) = SOk (rs, s) →
  labels_fit lt (sp_nls s) → labels_fit lt (sp_els s) →
  ∃ g, gm_run false lt h (gm_with_label_map nls els) = Ok (rs, g) ∧
    ∀ it, hash_order g it →
      let V := gm_view false it g in
      represents V (sp_g s) ∧ answers_missing V (sp_g s) ∧ iterates V ∧
      v_edge_count V = sp_count s ∧ v_max_seen_id V = Ok (sp_max s) ∧
      v_node_label_map V = sp_nls s ∧ v_edge_label_map V = sp_els s ∧
      (∀ x y, v_has_edge V x y = v_has_edge V y x ∧ v_edge_label V x y = v_edge_label V y x).
Proof. exact (undirected_refinement lt nls els h rs s). Qed.
Print Assumptions C07_undirected_refinement.
Theorem C07_undirected_structure {NL EL} `{EqDecision NL, EqDecision EL} (lt : idty)
    (nls : list NL) (els : list EL) h :
  NoDup nls → NoDup els →
  match spec_run (strip h) (s_init false nls els) with
  | SOk (rs, s) => ∃ rs' g, gm_run false lt h (gm_with_label_map nls els) = Ok (rs', g) ∧
      out_unlabelled <$> kept_outs h rs' = out_unlabelled <$> rs ∧
      ∀ it, hash_order g it →
        let V := gm_view false it g in
        represents (v_unlabelled V) (a_unlabelled (sp_g s)) ∧ answers_missing V (sp_g s) ∧ iterates V ∧
        v_edge_count V = sp_count s ∧ v_max_seen_id V = Ok (sp_max s) ∧
        v_node_label_map V = sp_nls s ∧ v_edge_label_map V = sp_els s
  | SPanic => gm_run false lt h (gm_with_label_map nls els) = Panic
  | SUnspec => False
  end.
Proof. exact (structure false lt nls els h). Qed.
Print Assumptions C07_undirected_structure.
Example C07_case : ∃ rs s, spec_run wit_history (s_init false [] []) = SOk (rs, s) ∧
  labels_fit TU8 (sp_nls s) ∧ labels_fit TU8 (sp_els s) ∧
  rs = [RBool true; RBool true; RBool false; RBool true; RNode (Some (3, None)); REdge (Some (1, 2, Some 8)); RBool true; RBool true]%N ∧
  a_has_edge (sp_g s) 2%N 2%N ∧ ¬ a_has_edge (sp_g s) 1%N 2%N ∧ ag_nodes (sp_g s) !! 1%N = Some (Some 6%N).
Proof. exact (wit_history_spec false). Qed.

(** ** C08. False: removing a node with a self-loop panics (see C09). *)
Theorem C08_no_panic_refuted : ∃ h : list (gop N N), ∀ dir lt,
  gm_run dir lt h (gm_with_label_map [] []) = Panic.
Proof. exact no_panic_witness. Qed.
Print Assumptions C08_no_panic_refuted.

(** ** C09 *)
Theorem C09_panic_iff_self_loop_removed {NL EL} `{EqDecision NL, EqDecision EL} dir lt
    (nls : list NL) (els : list EL) h : NoDup nls → NoDup els →
  (gm_run dir lt h (gm_with_label_map nls els) = Panic ↔
    ∃ h1 n h2 rs g1, h = h1 ++ ORemoveNode n :: h2 ∧
      gm_run dir lt h1 (gm_with_label_map nls els) = Ok (rs, g1) ∧ gm_has_edge g1 n n = true) ∧
  gm_run dir lt h (gm_with_label_map nls els) ≠ NoFuel.
Proof. exact (λ Hn He, panic_iff dir lt h _ _ (skrel_init dir nls els Hn He)). Qed.
Print Assumptions C09_panic_iff_self_loop_removed.
Example C09_case : ∀ dir, ∃ rs g, gm_run dir TU8 wit_history (gm_with_label_map [] []) = Ok (rs, g) ∧
  gm_has_edge g 2 2 = true ∧ gm_run dir TU8 (wit_history ++ [ORemoveNode 2%N]) (gm_with_label_map [] []) = Panic.
Proof. exact wit_history_panic. Qed.

(** ** C10. False: adding an existing edge again increments edge_count. *)
Theorem C10_edge_count_refuted : ∃ h : list (gop N N), ∀ dir lt, ∃ rs g es,
  gm_run dir lt h (gm_with_label_map [] []) = Ok (rs, g) ∧
  v_edge_indices (gm_view dir (map_to_list (g_nodes g)).*1 g) = Ok es ∧
  v_edge_count (gm_view dir (map_to_list (g_nodes g)).*1 g) ≠ length es.
Proof. exact edge_count_witness. Qed.
Print Assumptions C10_edge_count_refuted.
(** Exact for every history that never adds an edge that is already there and
    never relabels an existing edge. *)
Theorem C10_edge_count_partial {NL EL} `{EqDecision NL, EqDecision EL} dir lt
    (nls : list NL) (els : list EL) h rs g it :
  NoDup nls → NoDup els → gm_run dir lt h (gm_with_label_map nls els) = Ok (rs, g) → hash_order g it →
  Forall2 (λ o r, match o, r with
                  | OAddEdge _ _ _, RBool false | OUpdateEdgeLabel _ _ _, RBool true => False
                  | _, _ => True end) h rs →
  ∃ l, v_edge_indices (gm_view dir it g) = Ok l ∧ v_edge_count (gm_view dir it g) = length l.
Proof. exact (edge_count_exact dir lt nls els h rs g it). Qed.
Print Assumptions C10_edge_count_partial.
Example C10_case : ∃ rs g, gm_run false TU8 [OAddEdge 1 2 (Some 7); OAddEdge 2 2 None; ORemoveEdge 2 1; OAddEdge 2 1 None]%N
    (@gm_with_label_map N N [] []) = Ok (rs, g) ∧ rs = [RBool true; RBool true; REdge (Some (2, 1, Some 7)); RBool true]%N ∧ g_nedges g = 2.
Proof. apply run_ok_ex; by vm_compute. Qed.

(** ** C11. [drift] counts the re-adds and relabellings since the last refine_edge_count. *)
Theorem C11_edge_count_drift {NL EL} `{EqDecision NL, EqDecision EL} dir lt
    (nls : list NL) (els : list EL) h rs g it :
  NoDup nls → NoDup els → gm_run dir lt h (gm_with_label_map nls els) = Ok (rs, g) → hash_order g it →
  ∃ l, v_edge_indices (gm_view dir it g) = Ok l ∧
    v_edge_count (gm_view dir it g) = length l + drift 0 h rs.
Proof. exact (edge_count_drift dir lt nls els h rs g it). Qed.
Print Assumptions C11_edge_count_drift.
Theorem C11_refine_restores {NL EL} `{EqDecision NL, EqDecision EL} dir lt (g : graphmap NL EL) it it' r g' :
  gm_reachable dir lt g → hash_order g it →
  gm_step dir lt ORefineEdgeCount g = Ok (r, g') → hash_order g' it' →
  (∃ l, v_edge_indices (gm_view dir it' g') = Ok l ∧ v_edge_count (gm_view dir it' g') = length l) ∧
  g' = gm_refine_edge_count dir it g ∧
  (∃ k, gm_view dir it g' =
     let V := gm_view dir it g in
     GView (v_directed V) (v_is_di V) (v_node_count V) k (v_has_node V) (v_has_edge V)
       (v_get_node V) (v_get_edge V) (v_node_indices V) (v_edge_indices V) (v_nodes V) (v_edges V)
       (v_degree V) (v_neighbors V) (v_in_degree V) (v_in_neighbors V) (v_max_seen_id V)
       (v_node_label_map V) (v_edge_label_map V)).
Proof. exact (refine_restores dir lt g it it' r g'). Qed.
Print Assumptions C11_refine_restores.
Example C11_case : ∃ rs g, gm_run true TU8 [OAddEdge 1 2 None; OAddEdge 1 2 (Some 5); OUpdateEdgeLabel 1 2 None; ORemoveEdge 1 2]%N
    (@gm_with_label_map N N [] []) = Ok (rs, g) ∧
  drift 0 [OAddEdge 1 2 None; OAddEdge 1 2 (Some 5); OUpdateEdgeLabel 1 2 None; ORemoveEdge 1 2]%N rs = 2 ∧ g_nedges g = 2.
Proof. apply run_ok_ex; by vm_compute. Qed.

(** ** C12 *)
Theorem C12_node_indices {NL EL} `{EqDecision NL, EqDecision EL} dir lt (g : graphmap NL EL) it :
  gm_reachable dir lt g → hash_order g it →
  let V := gm_view dir it g in
  lists_exactly (v_node_indices V) (λ n, v_has_node V n = true) ∧
  v_node_count V = length (v_node_indices V) ∧
  v_nodes V = rmapl (λ n, let* o := v_get_node V n in unwrap o) (v_node_indices V).
Proof. exact (node_indices_lemma dir lt g it). Qed.
Print Assumptions C12_node_indices.
(** ** C13 *)
Theorem C13_edge_indices {NL EL} `{EqDecision NL, EqDecision EL} dir lt (g : graphmap NL EL) it :
  gm_reachable dir lt g → hash_order g it →
  let V := gm_view dir it g in
  ∃ l, v_edge_indices V = Ok l ∧ NoDup l ∧
    (∀ x y : N, (x, y) ∈ l ↔ v_has_edge V x y = Ok true ∧ (dir = true ∨ (x ≤ y)%N)) ∧
    v_edges V = rmapl (λ e, let* o := v_get_edge V e.1 e.2 in unwrap o) l.
Proof. exact (edge_indices_lemma dir lt g it). Qed.
Print Assumptions C13_edge_indices.
Example C12_C13_case : ∀ dir, ∃ g : graphmap N N, gm_reachable dir TU8 g ∧ hash_order g [2; 1; 4]%N ∧
  gm_node_list g [2; 1; 4]%N = [(2, None); (1, Some 1); (4, Some 0)]%N ∧
  gm_edge_list dir g [2; 1; 4]%N = if dir then [(2, 2, None); (4, 1, Some 1)]%N else [(2, 2, None); (1, 4, Some 1)]%N.
Proof. exact wit_graph. Qed.

(** ** C14 *)
Theorem C14_in_neighbors_inverse {NL EL} `{EqDecision NL, EqDecision EL} lt (g : graphmap NL EL) it :
  gm_reachable true lt g → hash_order g it →
  let V := gm_view true it g in
  (∀ n, v_has_node V n = true ↔ ∃ l l', v_neighbors V n = Ok l ∧ v_in_neighbors V n = Ok l') ∧
  (∀ x y lx ly, v_neighbors V x = Ok lx → v_in_neighbors V y = Ok ly →
     (y ∈ lx ↔ x ∈ ly) ∧ (y ∈ lx ↔ v_has_edge V x y = Ok true) ∧ increasing lx ∧ increasing ly ∧
     v_degree V x = Ok (length lx) ∧ v_in_degree V y = Ok (length ly)) ∧
  (∃ ds is es, rmapl (v_degree V) (v_node_indices V) = Ok ds ∧
     rmapl (v_in_degree V) (v_node_indices V) = Ok is ∧ v_edge_indices V = Ok es ∧
     sum_list ds = length es ∧ sum_list is = length es).
Proof. exact (in_neighbors_inverse true lt g it eq_refl). Qed.
Print Assumptions C14_in_neighbors_inverse.
Example C14_case : ∃ g : graphmap N N, gm_reachable true TU8 g ∧ gm_neighbors g 4 = Ok [1%N] ∧ gm_in_neighbors g 1 = Ok [4%N].
Proof. exact wit_graph_in. Qed.

(** ** C15 *)
Theorem C15_max_seen_id {NL EL} `{EqDecision NL, EqDecision EL} dir lt
    (nls : list NL) (els : list EL) h rs g it :
  NoDup nls → NoDup els → gm_run dir lt h (gm_with_label_map nls els) = Ok (rs, g) → hash_order g it →
  ∃ o, v_max_seen_id (gm_view dir it g) = Ok o ∧
    (o = None ↔ h ≫= inserted = []) ∧
    (∀ m, o = Some m ↔ m ∈ h ≫= inserted ∧ ∀ x, x ∈ h ≫= inserted → (x ≤ m)%N) ∧
    (∀ n, v_has_node (gm_view dir it g) n = true → ∃ m, o = Some m ∧ (n ≤ m)%N).
Proof. exact (max_seen_lemma dir lt nls els h rs g it). Qed.
Print Assumptions C15_max_seen_id.
Example C15_case : ∃ rs g, gm_run true TU8 [OAddNode 5 None; OAddEdge 2 9 None; ORemoveNode 9]%N
    (@gm_with_label_map N N [] []) = Ok (rs, g) ∧ g_max g = Some 9%N ∧ gm_has_node g 9 = false.
Proof. apply run_ok_ex; by vm_compute. Qed.

(** ** C16. Holds as long as the labels fit the label id type; refuted otherwise. *)
Theorem C16_node_label_round_trip_partial {NL EL} `{EqDecision NL, EqDecision EL} dir lt
    (nls : list NL) (els : list EL) h1 n l h2 rs g it :
  NoDup nls → NoDup els →
  gm_run dir lt (h1 ++ OAddNode n (Some l) :: h2) (gm_with_label_map nls els) = Ok (rs, g) →
  Forall (λ o, modifies_node n o = false) h2 → labels_fit lt (g_nlm g) →
  v_node_label (gm_view dir it g) n = Ok (Some l).
Proof. exact (node_label_round_trip dir lt nls els h1 n l h2 rs g it). Qed.
Print Assumptions C16_node_label_round_trip_partial.
Theorem C16_edge_label_round_trip_partial {NL EL} `{EqDecision NL, EqDecision EL} dir lt
    (nls : list NL) (els : list EL) h1 x y l h2 rs g it :
  NoDup nls → NoDup els →
  gm_run dir lt (h1 ++ OAddEdge x y (Some l) :: h2) (gm_with_label_map nls els) = Ok (rs, g) →
  Forall (λ o, modifies_edge dir x y o = false) h2 → labels_fit lt (g_elm g) →
  v_edge_label (gm_view dir it g) x y = Ok (Some l) ∧
  (dir = false → v_edge_label (gm_view dir it g) y x = Ok (Some l)).
Proof. exact (edge_label_round_trip dir lt nls els h1 x y l h2 rs g it). Qed.
Print Assumptions C16_edge_label_round_trip_partial.
(** With L = () the second label is lost at once, with L = u8 the 257th. *)
Theorem C16_label_round_trip_refuted :
  (∀ dir, ∃ rs g, gm_run dir TUnit [OAddNode 1 (Some 5); OAddNode 2 (Some 6)]%N (@gm_with_label_map N N [] []) = Ok (rs, g) ∧
    v_node_label (gm_view dir [1; 2]%N g) 2%N = Ok (Some 5%N)) ∧
  (∀ dir, ∃ rs g, gm_run dir TU8 ((λ i, OAddNode (N.of_nat i) (Some (N.of_nat i))) <$> seq 0 257)
      (@gm_with_label_map N N [] []) = Ok (rs, g) ∧
    v_node_label (gm_view dir [] g) 256%N = Ok (Some 0%N)) ∧
  (∀ dir, ∃ rs g, gm_run dir TUnit [OAddEdge 1 2 (Some 5); OAddEdge 1 3 (Some 6)]%N (@gm_with_label_map N N [] []) = Ok (rs, g) ∧
    v_edge_label (gm_view dir [1; 2; 3]%N g) 1%N 3%N = Ok (Some 5%N)).
Proof. exact label_truncation_witness. Qed.
Print Assumptions C16_label_round_trip_refuted.
Example C16_case : ∃ rs g, gm_run false TU8 ([OAddNode 1 (Some 4)] ++ OAddEdge 1 2 (Some 7) ::
      [OAddEdge 2 3 (Some 6); ORemoveNode 3; OAddNode 1 None])%N (@gm_with_label_map N N [] []) = Ok (rs, g) ∧
  Forall (λ o : gop N N, modifies_edge false 1 2 o = false) [OAddEdge 2 3 (Some 6); ORemoveNode 3; OAddNode 1 None]%N ∧
  labels_fit TU8 (g_elm g) ∧ v_edge_label (gm_view false [1; 2]%N g) 2%N 1%N = Ok (Some 7%N).
Proof. apply run_ok_ex. vm_compute. split_and!; [repeat constructor|done..]. Qed.

(** ** C17 *)
Theorem C17_return_values {NL EL} `{EqDecision NL, EqDecision EL} dir lt (g : graphmap NL EL) it :
  gm_reachable dir lt g →
  let V := gm_view dir it g in
  (∀ n l, ∃ g', gm_step dir lt (OAddNode n l) g = Ok (RBool (negb (v_has_node V n)), g')) ∧
  (∀ x y l, ∃ b g', v_has_edge V x y = Ok b ∧ gm_step dir lt (OAddEdge x y l) g = Ok (RBool (negb b), g')) ∧
  (∀ n l, ∃ g', gm_step dir lt (OUpdateNodeLabel n l) g = Ok (RBool (v_has_node V n), g')) ∧
  (∀ x y l, ∃ b g', v_has_edge V x y = Ok b ∧ gm_step dir lt (OUpdateEdgeLabel x y l) g = Ok (RBool b, g')) ∧
  (∀ n, v_has_edge V n n = Ok false → ∃ lb g', v_node_label V n = Ok lb ∧
    gm_step dir lt (ORemoveNode n) g = Ok (RNode (if v_has_node V n then Some (n, lb) else None), g')) ∧
  (∀ x y, ∃ b lb g', v_has_edge V x y = Ok b ∧ v_edge_label V x y = Ok lb ∧
    gm_step dir lt (ORemoveEdge x y) g = Ok (REdge (if b then Some (x, y, lb) else None), g')) ∧
  (∀ n lid, ∃ g', gm_step dir lt (OSetNodeLabelId n lid) g = Ok (RBool (v_has_node V n), g')) ∧
  (∀ x y lid, ∃ b g', v_has_edge V x y = Ok b ∧ gm_step dir lt (OSetEdgeLabelId x y lid) g = Ok (RBool b, g')).
Proof. exact (return_values dir lt g it). Qed.
Print Assumptions C17_return_values.

(** ** C18 *)
Theorem C18_remove_node_frame {NL EL} `{EqDecision NL, EqDecision EL} dir lt (g : graphmap NL EL) it n r g' it' :
  gm_reachable dir lt g → hash_order g it → hash_order g' it' →
  gm_step dir lt (ORemoveNode n) g = Ok (RNode (Some r), g') →
  let V := gm_view dir it g in let V' := gm_view dir it' g' in
  (∀ m, v_has_node V' m = true ↔ m ≠ n ∧ v_has_node V m = true) ∧
  (∀ x y, v_has_edge V' x y = Ok true ↔ x ≠ n ∧ y ≠ n ∧ v_has_edge V x y = Ok true) ∧
  (∀ m, m ≠ n → v_node_label V' m = v_node_label V m) ∧
  (∀ x y, x ≠ n → y ≠ n → v_edge_label V' x y = v_edge_label V x y) ∧
  (∃ es, v_edge_indices V = Ok es ∧
     v_edge_count V = v_edge_count V' + length (filter (touches n) es)).
Proof. exact (remove_node_frame dir lt g it n r g' it'). Qed.
Print Assumptions C18_remove_node_frame.
Example C17_C18_case : ∀ dir, ∃ g g' : graphmap N N, gm_reachable dir TU8 g ∧
  gm_step dir TU8 (ORemoveNode 4%N) g = Ok (RNode (Some (4, Some 5)%N), g') ∧ g_nedges g = 2 ∧ g_nedges g' = 1.
Proof. exact wit_graph_remove. Qed.

(** ** C19. False: an undirected edge is stored once per end point and get_edge_mut
    and edges_mut write only one of the two copies. *)
Theorem C19_edge_mut_symmetry_refuted :
  ∃ (h : list (gop N N)) rs g rs' g', gm_run false TU8 h (gm_with_label_map [] []) = Ok (rs, g) ∧
    (* get_edge_mut(1,2).set_label_id(1) *)
    gm_run false TU8 (h ++ [OSetEdgeLabelId 1 2 (Some 1)]%N) (gm_with_label_map [] []) = Ok (rs', g') ∧
    v_edge_label (gm_view false [1; 2]%N g') 1%N 2%N = Ok (Some 6%N) ∧
    v_edge_label (gm_view false [1; 2]%N g') 2%N 1%N = Ok (Some 5%N) ∧
    (* edges_mut, assigning label id 1 to every edge *)
    (let g2 := gm_map_edge_labels false (λ _ _ _, Some 1%N) g in
     v_edge_label (gm_view false [1; 2]%N g2) 1%N 2%N = Ok (Some 6%N) ∧
     v_edge_label (gm_view false [1; 2]%N g2) 2%N 1%N = Ok (Some 5%N)).
Proof. exact edge_mut_witness. Qed.
Print Assumptions C19_edge_mut_symmetry_refuted.
(** What a label edit does: the ordered pair it names changes, nothing else. For a
    directed graph (and for self-loops) that is what the user asked for; for an
    undirected one get_edge(t,s) keeps the old label. *)
Theorem C19_edge_mut_effect_partial {NL EL} `{EqDecision NL, EqDecision EL} dir lt (g : graphmap NL EL) it x y lid r g' it' :
  gm_reachable dir lt g →
  gm_step dir lt (OSetEdgeLabelId x y lid) g = Ok (RBool r, g') → r = true →
  (∀ a b, v_get_edge (gm_view dir it' g') a b =
    if decide ((a, b) = (x, y)) then Ok (Some (x, y, lid)) else v_get_edge (gm_view dir it g) a b).
Proof. exact (set_edge_label_spec dir lt g it x y lid r g' it'). Qed.
Print Assumptions C19_edge_mut_effect_partial.
Theorem C19_edges_mut_effect_partial {NL EL} `{EqDecision NL, EqDecision EL} dir lt (g : graphmap NL EL) it f :
  gm_reachable dir lt g →
  (∀ a b, v_get_edge (gm_view dir it (gm_map_edge_labels dir f g)) a b =
    rmap (fmap (λ e, (e.1.1, e.1.2, if dir || bool_decide (a ≤ b)%N then f a b e.2 else e.2)))
      (v_get_edge (gm_view dir it g) a b)) ∧
  (∀ a, v_get_node (gm_view dir it (gm_map_edge_labels dir f g)) a = v_get_node (gm_view dir it g) a).
Proof. exact (edges_mut_spec dir lt g it f). Qed.
Print Assumptions C19_edges_mut_effect_partial.
Theorem C19_nodes_mut_effect {NL EL} `{EqDecision NL, EqDecision EL} dir lt (g : graphmap NL EL) it f :
  gm_reachable dir lt g →
  (∀ a, v_get_node (gm_view dir it (gm_map_node_labels f g)) a =
    rmap (fmap (λ p, (p.1, f a p.2))) (v_get_node (gm_view dir it g) a)) ∧
  (∀ a b, v_get_edge (gm_view dir it (gm_map_node_labels f g)) a b = v_get_edge (gm_view dir it g) a b).
Proof. exact (nodes_mut_spec dir lt g it f). Qed.
Print Assumptions C19_nodes_mut_effect.
Example C19_case : ∃ g g' : graphmap N N, gm_reachable true TU8 g ∧
  gm_step true TU8 (OSetEdgeLabelId 4 1 (Some 0))%N g = Ok (RBool true, g').
Proof. exact wit_graph_set. Qed.

(** ** C25 *)
Theorem C25_from_edges {NL EL} `{EqDecision NL, EqDecision EL} dir lt (es : list (N * N)) :
  ∃ g : graphmap NL EL, gm_from_edges dir lt es = Ok g ∧ ∀ it, hash_order g it →
    let V := gm_view dir it g in
    ∃ A, represents V A ∧ answers_missing V A ∧ iterates V ∧ ag_dir A = dir ∧
      (∀ n, a_has_node A n ↔ ∃ e, e ∈ es ∧ (n = e.1 ∨ n = e.2)) ∧
      (∀ x y, a_has_edge A x y ↔ (x, y) ∈ es ∨ (dir = false ∧ (y, x) ∈ es)) ∧
      (∀ n l, ag_nodes A !! n = Some l → l = None) ∧ (∀ e l, ag_edges A !! e = Some l → l = None) ∧
      v_edge_count V = length es ∧
      (NoDup ((λ e, ekey dir e.1 e.2) <$> es) → exact_count V A).
Proof. exact (from_edges_lemma dir lt es). Qed.
Print Assumptions C25_from_edges.
Example C25_case : ∃ g : graphmap N N, gm_from_edges false TU32 [(1, 2); (2, 1); (3, 3)]%N = Ok g ∧
  gm_edge_indices false g [3; 2; 1]%N = [(3, 3); (1, 2)]%N ∧ g_nedges g = 3.
Proof. apply res_ok_ex; by vm_compute. Qed.
