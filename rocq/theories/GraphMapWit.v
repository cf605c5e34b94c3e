(** Concrete cases and counterexamples for Properties_GraphMap.v. *)
From Verif Require Import Base Api Spec BaseFacts SpecFacts Map MapFacts GraphMap GraphMapFacts
  GraphMapRefine GraphMapQueries GraphMapSim GraphMapThms GraphMapMore ViewFacts GraphMapFrame GraphMapProps.

Definition wit_history : list (gop N N) :=
  [OAddNode 1 (Some 6); OAddEdge 1 2 (Some 7); OAddEdge 1 2 (Some 8); OAddEdge 2 3 None; ORemoveNode 3;
   ORemoveEdge 1 2; OAddEdge 2 2 (Some 7); OUpdateNodeLabel 1 (Some 6)]%N.

Lemma wit_history_spec dir : ∃ rs s, spec_run wit_history (s_init dir [] []) = SOk (rs, s) ∧
  labels_fit TU8 (sp_nls s) ∧ labels_fit TU8 (sp_els s) ∧
  rs = [RBool true; RBool true; RBool false; RBool true; RNode (Some (3, None)); REdge (Some (1, 2, Some 8)); RBool true; RBool true]%N ∧
  a_has_edge (sp_g s) 2%N 2%N ∧ ¬ a_has_edge (sp_g s) 1%N 2%N ∧ ag_nodes (sp_g s) !! 1%N = Some (Some 6%N).
Proof.
  assert (∀ (r : sres (list (gout N N) * sstate N N)) (P : list (gout N N) → sstate N N → Prop),
    match r with SOk (a, b) => P a b | _ => False end → ∃ a b, r = SOk (a, b) ∧ P a b) as Hex.
  { intros [[a b]| |] P HP; try done. by exists a, b. }
  apply Hex. destruct dir; vm_compute; split_and!; try done; [by eexists|by intros [? ?]|by eexists|by intros [? ?]].
Qed.

Lemma wit_history_panic dir : ∃ rs g, gm_run dir TU8 wit_history (gm_with_label_map [] []) = Ok (rs, g) ∧
  gm_has_edge g 2 2 = true ∧ gm_run dir TU8 (wit_history ++ [ORemoveNode 2%N]) (gm_with_label_map [] []) = Panic.
Proof. destruct dir; apply run_ok_ex; by vm_compute. Qed.

Lemma no_panic_witness : ∃ h : list (gop N N), ∀ dir lt,
  gm_run dir lt h (gm_with_label_map [] []) = Panic.
Proof. exists [OAddEdge 1 1 None; ORemoveNode 1]%N. by intros [] []. Qed.

Lemma edge_count_witness : ∃ h : list (gop N N), ∀ dir lt, ∃ rs g es,
  gm_run dir lt h (gm_with_label_map [] []) = Ok (rs, g) ∧
  v_edge_indices (gm_view dir (map_to_list (g_nodes g)).*1 g) = Ok es ∧
  v_edge_count (gm_view dir (map_to_list (g_nodes g)).*1 g) ≠ length es.
Proof.
  exists [OAddEdge 1 2 None; OAddEdge 1 2 None]%N. intros dir lt.
  destruct (run_ok_ex (gm_run dir lt [OAddEdge 1 2 None; OAddEdge 1 2 None]%N (@gm_with_label_map N N [] []))
    (λ _ g, gm_edge_count g ≠ length (gm_edge_indices dir g (map_to_list (g_nodes g)).*1))) as (rs & g & Hr & Hg).
  { destruct dir, lt; by vm_compute. }
  exists rs, g. eexists. split; [done|]. split; [done|]. exact Hg.
Qed.

Lemma edge_count_exact {NL EL} `{EqDecision NL, EqDecision EL} dir lt
    (nls : list NL) (els : list EL) h rs g it :
  NoDup nls → NoDup els → gm_run dir lt h (gm_with_label_map nls els) = Ok (rs, g) → hash_order g it →
  Forall2 (λ o r, match o, r with
                  | OAddEdge _ _ _, RBool false | OUpdateEdgeLabel _ _ _, RBool true => False
                  | _, _ => True end) h rs →
  ∃ l, v_edge_indices (gm_view dir it g) = Ok l ∧ v_edge_count (gm_view dir it g) = length l.
Proof.
  intros Hn He Hr Hit Hf. destruct (edge_count_drift dir lt nls els h rs g it Hn He Hr Hit) as (l & Hl & Hc).
  exists l. split; [done|]. pose proof (no_readd_drift h rs 0 Hf). lia.
Qed.

Lemma undirected_refinement {NL EL} `{EqDecision NL, EqDecision EL} (lt : idty)
    (nls : list NL) (els : list EL) h rs s :
  NoDup nls → NoDup els → spec_run h (s_init false nls els) = SOk (rs, s) →
  labels_fit lt (sp_nls s) → labels_fit lt (sp_els s) →
  ∃ g, gm_run false lt h (gm_with_label_map nls els) = Ok (rs, g) ∧
    ∀ it, hash_order g it →
      let V := gm_view false it g in
      represents V (sp_g s) ∧ answers_missing V (sp_g s) ∧ iterates V ∧
      v_edge_count V = sp_count s ∧ v_max_seen_id V = Ok (sp_max s) ∧
      v_node_label_map V = sp_nls s ∧ v_edge_label_map V = sp_els s ∧
      (∀ x y, v_has_edge V x y = v_has_edge V y x ∧ v_edge_label V x y = v_edge_label V y x).
Proof.
  intros Hn He Hs HN HE. destruct (refinement false lt nls els h rs s Hn He Hs HN HE) as (g & Hg & Hv).
  exists g. split; [done|]. intros it Hit V. destruct (Hv it Hit) as (H1 & H2 & H3 & H4 & H5 & H6 & H7).
  split_and!; try done. intros x y. apply (undirected_symmetry false g it (sp_g s)); try done.
  by rewrite <-(rp_directed _ _ H1).
Qed.

(** A graph with a removed node, a self-loop and labels. *)
Definition wit_ops : list (gop N N) :=
  [OAddNode 4 (Some 5); OAddEdge 2 2 None; OAddEdge 4 3 (Some 7); OAddEdge 4 1 (Some 8); ORemoveNode 3; OAddNode 1 (Some 6)]%N.
Definition wit_g dir : graphmap N N :=
  match gm_run dir TU8 wit_ops (gm_with_label_map [] []) with Ok (_, g) => g | _ => gm_new end.
Lemma wit_g_reachable dir : gm_reachable dir TU8 (wit_g dir).
Proof.
  destruct (run_ok_ex (gm_run dir TU8 wit_ops (@gm_with_label_map N N [] [])) (λ _ _, True)) as (rs & g & Hr & _).
  { destruct dir; by vm_compute. }
  exists [], [], wit_ops, rs. unfold wit_g. rewrite Hr. split_and!; [constructor..|done].
Qed.
Lemma wit_graph dir : ∃ g : graphmap N N, gm_reachable dir TU8 g ∧ hash_order g [2; 1; 4]%N ∧
  gm_node_list g [2; 1; 4]%N = [(2, None); (1, Some 1); (4, Some 0)]%N ∧
  gm_edge_list dir g [2; 1; 4]%N = if dir then [(2, 2, None); (4, 1, Some 1)]%N else [(2, 2, None); (1, 4, Some 1)]%N.
Proof.
  exists (wit_g dir). split; [apply wit_g_reachable|]. split.
  - unfold hash_order. apply NoDup_Permutation.
    + repeat constructor; set_solver.
    + apply NoDup_fst_map_to_list.
    + intros x. assert ((map_to_list (g_nodes (wit_g dir))).*1 = [1; 2; 4]%N) as -> by (by destruct dir; vm_compute).
      set_solver.
  - by destruct dir; vm_compute.
Qed.
Lemma wit_graph_in : ∃ g : graphmap N N, gm_reachable true TU8 g ∧ gm_neighbors g 4 = Ok [1%N] ∧ gm_in_neighbors g 1 = Ok [4%N].
Proof. exists (wit_g true). split; [apply wit_g_reachable|by vm_compute]. Qed.
Lemma wit_graph_remove dir : ∃ g g' : graphmap N N, gm_reachable dir TU8 g ∧
  gm_step dir TU8 (ORemoveNode 4%N) g = Ok (RNode (Some (4, Some 5)%N), g') ∧ g_nedges g = 2 ∧ g_nedges g' = 1.
Proof.
  exists (wit_g dir). destruct (run_ok_ex (gm_step dir TU8 (ORemoveNode 4%N) (wit_g dir))
    (λ r g', r = RNode (Some (4, Some 5)%N) ∧ g_nedges (wit_g dir) = 2 ∧ g_nedges g' = 1)) as (r & g' & Hs & -> & Hg).
  { destruct dir; by vm_compute. }
  exists g'. split; [apply wit_g_reachable|done].
Qed.
Lemma wit_graph_set : ∃ g g' : graphmap N N, gm_reachable true TU8 g ∧
  gm_step true TU8 (OSetEdgeLabelId 4 1 (Some 0))%N g = Ok (RBool true, g').
Proof.
  exists (wit_g true). destruct (run_ok_ex (gm_step true TU8 (OSetEdgeLabelId 4 1 (Some 0))%N (wit_g true))
    (λ r g', r = RBool true)) as (r & g' & Hs & ->); [by vm_compute|].
  exists g'. split; [apply wit_g_reachable|done].
Qed.

Lemma label_truncation_witness :
  (∀ dir, ∃ rs g, gm_run dir TUnit [OAddNode 1 (Some 5); OAddNode 2 (Some 6)]%N (@gm_with_label_map N N [] []) = Ok (rs, g) ∧
    v_node_label (gm_view dir [1; 2]%N g) 2%N = Ok (Some 5%N)) ∧
  (∀ dir, ∃ rs g, gm_run dir TU8 ((λ i, OAddNode (N.of_nat i) (Some (N.of_nat i))) <$> seq 0 257)
      (@gm_with_label_map N N [] []) = Ok (rs, g) ∧
    v_node_label (gm_view dir [] g) 256%N = Ok (Some 0%N)) ∧
  (∀ dir, ∃ rs g, gm_run dir TUnit [OAddEdge 1 2 (Some 5); OAddEdge 1 3 (Some 6)]%N (@gm_with_label_map N N [] []) = Ok (rs, g) ∧
    v_edge_label (gm_view dir [1; 2; 3]%N g) 1%N 3%N = Ok (Some 5%N)).
Proof.
  split_and!; intros dir; apply run_ok_ex; by destruct dir; vm_compute.
Qed.

Lemma edge_mut_witness :
  ∃ (h : list (gop N N)) rs g rs' g', gm_run false TU8 h (gm_with_label_map [] []) = Ok (rs, g) ∧
    gm_run false TU8 (h ++ [OSetEdgeLabelId 1 2 (Some 1)]%N) (gm_with_label_map [] []) = Ok (rs', g') ∧
    v_edge_label (gm_view false [1; 2]%N g') 1%N 2%N = Ok (Some 6%N) ∧
    v_edge_label (gm_view false [1; 2]%N g') 2%N 1%N = Ok (Some 5%N) ∧
    (let g2 := gm_map_edge_labels false (λ _ _ _, Some 1%N) g in
     v_edge_label (gm_view false [1; 2]%N g2) 1%N 2%N = Ok (Some 6%N) ∧
     v_edge_label (gm_view false [1; 2]%N g2) 2%N 1%N = Ok (Some 5%N)).
Proof.
  exists [OAddEdge 1 2 (Some 5); OAddEdgeLabel (Some 6)]%N.
  apply run_ok_ex2. by vm_compute.
Qed.

Section mut.
  Context {NL EL : Type} `{EqDecision NL, EqDecision EL} (dir : bool) (lt : idty).
  Implicit Types (g : graphmap NL EL).
  Lemma reach_id g k nd : gm_reachable dir lt g → g_nodes g !! k = Some nd → nm_id nd = k.
  Proof.
    intros [s H]%(reach_skrel dir lt) Hk. by destruct (abs_node_Some _ _ _ _ _ k nd (r_abs _ _ _ _ _ H) Hk) as (? & _ & ? & _).
  Qed.
  Lemma edges_mut_spec g it f : gm_reachable dir lt g →
    (∀ a b, v_get_edge (gm_view dir it (gm_map_edge_labels dir f g)) a b =
      rmap (fmap (λ e, (e.1.1, e.1.2, if dir || bool_decide (a ≤ b)%N then f a b e.2 else e.2)))
        (v_get_edge (gm_view dir it g) a b)) ∧
    (∀ a, v_get_node (gm_view dir it (gm_map_edge_labels dir f g)) a = v_get_node (gm_view dir it g) a).
  Proof.
    intros Hr. split.
    - intros a b. simpl. unfold gm_get_edge, gm_has_edge, nm_has_neighbor, nm_get_neighbor. simpl. rewrite lookup_fmap.
      destruct (g_nodes g !! a) as [nd|] eqn:Ha; [|done]. pose proof (reach_id g a nd Hr Ha) as Hid.
      cbn [fmap option_fmap option_map unwrap rbind]. unfold nm_map_edge_labels. cbn [nm_nbrs].
      rewrite map_lookup_imap, Hid. destruct (nm_nbrs nd !! b) as [l|]; [|done].
      cbn [mbind option_bind]. rewrite !bool_decide_true by (by eexists). done.
    - intros a. simpl. unfold gm_get_node. simpl. rewrite lookup_fmap. by destruct (g_nodes g !! a).
  Qed.
  Lemma nodes_mut_spec g it f : gm_reachable dir lt g →
    (∀ a, v_get_node (gm_view dir it (gm_map_node_labels f g)) a =
      rmap (fmap (λ p, (p.1, f a p.2))) (v_get_node (gm_view dir it g) a)) ∧
    (∀ a b, v_get_edge (gm_view dir it (gm_map_node_labels f g)) a b = v_get_edge (gm_view dir it g) a b).
  Proof.
    intros Hr. split.
    - intros a. simpl. unfold gm_get_node. simpl. rewrite lookup_fmap. destruct (g_nodes g !! a) as [nd|] eqn:Ha; [|done].
      simpl. by rewrite (reach_id g a nd Hr Ha).
    - intros a b. simpl. unfold gm_get_edge, gm_has_edge. simpl. rewrite lookup_fmap. by destruct (g_nodes g !! a).
  Qed.
End mut.
