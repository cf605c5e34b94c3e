(** C28-C34: into_static, the compressed arrays (CSR) and the static graph built on them.
    [csr_wf], [row] are in SpecStatic.v; [arrays_of lt g A] (the arrays of [g] describe the
    graph [A]), [same_edges], [same_structure] in SpecSGraph.v. *)
From Verif Require Import Base BaseFacts Api Spec SpecFacts SpecStatic Static StaticFacts SpecSGraph StaticProps
  Map GraphMap IntoStatic StaticMore IntoStaticProps StaticWit.

(** ** C28. Node ids 0..n-1, fewer labels than the label id type has values, edges() only
    for directed graphs or without edge labels. *)
Theorem C28_into_static_partial {NL EL} (idt lt : idty) dir (g : graphmap NL EL) ord A n :
  represents (gm_view dir ord g) A → a_has_node A n → (∀ n, a_has_node A n → (n < id_max idt)%N) →
  (∀ n m, a_has_node A n → (m < n)%N → a_has_node A m) →
  (N.of_nat (length (g_nlm g)) ≤ id_max lt)%N → (N.of_nat (length (g_elm g)) ≤ id_max lt)%N →
  ∃ sg, gm_into_static idt lt dir g = Ok sg ∧ arrays_of lt sg A ∧
    let W := sg_view idt lt dir sg in
    represents W A ∧ answers_missing W A ∧ v_edge_count W = v_edge_count (gm_view dir ord g) ∧
    v_nodes W = rmapl (λ n, let* o := v_get_node W n in unwrap o) (v_node_indices W) ∧
    (dir = true ∨ g_elm g = [] → iterates W).
Proof. intros HA. exact (into_static_dense idt lt dir g ord A HA n). Qed.
Print Assumptions C28_into_static_partial.
Example C28_case dir : ∃ (g : graphmap N N) ord A, gm_reachable dir TU8 g ∧ represents (gm_view dir ord g) A ∧ a_has_node A 0%N ∧
  (∀ n, a_has_node A n → (n < id_max TU8)%N) ∧ (∀ n m, a_has_node A n → (m < n)%N → a_has_node A m) ∧
  (N.of_nat (length (g_nlm g)) ≤ id_max TU8)%N ∧ (N.of_nat (length (g_elm g)) ≤ id_max TU8)%N ∧
  a_num_nodes A = 4 ∧ a_num_edges A = 4 ∧ g_nlm g = [7; 8]%N ∧ g_elm g = [5; 6]%N.
Proof. exact (st_dense_case dir). Qed.
(** Otherwise it fails. The empty graph: *)
Theorem C28_empty_refuted {NL EL} idt lt dir (g : graphmap NL EL) ord A :
  represents (gm_view dir ord g) A → (∀ n, ¬ a_has_node A n) → gm_into_static idt lt dir g = Panic.
Proof. intros HA. exact (into_static_no_nodes idt lt dir g ord A HA). Qed.
Print Assumptions C28_empty_refuted.
Example C28_empty_case dir : ∃ (g : graphmap N N) ord A, gm_reachable dir TU8 g ∧ represents (gm_view dir ord g) A ∧ ∀ n, ¬ a_has_node A n.
Proof. exact (st_empty_case dir). Qed.
(** The largest id of the type in use: *)
Theorem C28_max_id_refuted {NL EL} idt lt dir (g : graphmap NL EL) ord A :
  represents (gm_view dir ord g) A → idt ≠ TUnit → (∀ n, a_has_node A n → (n ≤ id_max idt)%N) → a_has_node A (id_max idt) →
  gm_into_static idt lt dir g = Panic.
Proof. intros HA. exact (into_static_max_id idt lt dir g ord A HA). Qed.
Print Assumptions C28_max_id_refuted.
Example C28_max_id_case dir : ∃ (g : graphmap N N) ord A, gm_reachable dir TU8 g ∧ represents (gm_view dir ord g) A ∧
  (∀ n, a_has_node A n → (n ≤ id_max TU8)%N) ∧ a_has_node A (id_max TU8).
Proof. exact (st_max_case dir). Qed.
(** Any gap below a node id: some node is lost. *)
Theorem C28_gap_refuted {NL EL} idt lt dir (g : graphmap NL EL) ord A n m :
  represents (gm_view dir ord g) A → a_has_node A n → ¬ a_has_node A m → (m < n)%N → (∀ n, a_has_node A n → (n < id_max idt)%N) →
  ∃ sg k, gm_into_static idt lt dir g = Ok sg ∧ a_has_node A k ∧ v_has_node (sg_view idt lt dir sg) k = false ∧
    v_get_node (sg_view idt lt dir sg) k = Ok None.
Proof. intros HA. exact (into_static_gap idt lt dir g ord A HA n m). Qed.
Print Assumptions C28_gap_refuted.
(** The label whose index is the largest value of the label id type is lost. *)
Theorem C28_sentinel_refuted dir : ∃ (g : graphmap N N) sg, gm_reachable dir TU8 g ∧ gm_into_static TU8 TU8 dir g = Ok sg ∧
  v_node_label (gm_view dir [0%N] g) 0 = Ok (Some 255%N) ∧ v_node_label (sg_view TU8 TU8 dir sg) 0 = Ok None ∧
  v_edge_label (gm_view dir [0%N] g) 0 0 = Ok (Some 255%N) ∧ v_edge_label (sg_view TU8 TU8 dir sg) 0 0 = Ok None.
Proof. exact (st_sentinel dir). Qed.
Print Assumptions C28_sentinel_refuted.

(** ** C29. Any node ids below the maximum. *)
Theorem C29_into_static_edges {NL EL} idt lt dir (g : graphmap NL EL) ord A n :
  represents (gm_view dir ord g) A → a_has_node A n → (∀ n, a_has_node A n → (n < id_max idt)%N) →
  (N.of_nat (length (g_elm g)) ≤ id_max lt)%N →
  ∃ sg, gm_into_static idt lt dir g = Ok sg ∧ same_edges (gm_view dir ord g) (sg_view idt lt dir sg).
Proof. intros HA. exact (into_static_edges idt lt dir g ord A HA n). Qed.
Print Assumptions C29_into_static_edges.
Example C29_case dir : ∃ (g : graphmap N N) ord A, gm_reachable dir TU8 g ∧ represents (gm_view dir ord g) A ∧ a_has_node A 9%N ∧ ¬ a_has_node A 1%N ∧
  (∀ n, a_has_node A n → (n < id_max TU8)%N) ∧ (N.of_nat (length (g_elm g)) ≤ id_max TU8)%N ∧ a_num_nodes A = 4 ∧ a_num_edges A = 3 ∧ g_elm g = [5; 6]%N.
Proof. exact (st_gap_case dir). Qed.

(** ** C30 *)
Theorem C30_has_edge e s t : csr_wf (ev_offsets e) (ev_edges e) →
  ∃ b, ev_has_edge e s t = Ok b ∧ (b = true ↔ t ∈ row (ev_offsets e) (ev_edges e) s).
Proof. intros H. eexists. split; [exact (has_edge_ok e H s t)|]. apply bool_decide_eq_true. Qed.
Print Assumptions C30_has_edge.
Theorem C30_find_edge_index e s t : csr_wf (ev_offsets e) (ev_edges e) →
  ∃ o, ev_find_edge_index e s t = Ok o ∧
    ∀ k, o = Some k ↔ ∃ a b, ev_offsets e !! N.to_nat s = Some a ∧ ev_offsets e !! S (N.to_nat s) = Some b ∧ a ≤ k < b ∧ ev_edges e !! k = Some t.
Proof. intros H. exact (find_spec e H s t). Qed.
Print Assumptions C30_find_edge_index.
Theorem C30_neighbors e n : csr_wf (ev_offsets e) (ev_edges e) →
  if decide (n < csr_nodes (ev_offsets e))%N
  then ev_neighbors e n = Ok (row (ev_offsets e) (ev_edges e) n) ∧ ev_degree e n = Ok (length (row (ev_offsets e) (ev_edges e) n))
  else ev_neighbors e n = Panic ∧ ev_degree e n = Panic ∧ ∀ t, ev_has_edge e n t = Ok false ∧ ev_has_edge e t n = Ok false.
Proof. exact (neighbors_all e n). Qed.
Print Assumptions C30_neighbors.
(** The label found for an edge is the one at its position. *)
Theorem C30_edge_label e s t k : csr_wf (ev_offsets e) (ev_edges e) → row (ev_offsets e) (ev_edges e) s !! k = Some t →
  ev_find_edge_label_id e s t = Ok (row (ev_offsets e) (ev_labels e) s !! k).
Proof. intros H. exact (label_ok e H s t k). Qed.
Print Assumptions C30_edge_label.
Example C30_case : csr_wf [0; 2; 2; 3; 5] [1; 3; 3; 0; 2]%N ∧ csr_tight [0; 2; 2; 3; 5] [1; 3; 3; 0; 2]%N ∧ csr_nodes [0; 2; 2; 3; 5] = 4%N.
Proof. exact st_csr_case. Qed.

(** ** C31 *)
Theorem C31_edge_iter it dir e : csr_wf (ev_offsets e) (ev_edges e) → (csr_nodes (ev_offsets e) < id_card it)%N →
  ∃ l, ei_all it dir e = Ok l ∧ StronglySorted lex_lt l ∧
    ∀ s t, (s, t) ∈ l ↔ t ∈ row (ev_offsets e) (ev_edges e) s ∧ (dir = true ∨ (s ≤ t)%N).
Proof. exact (ei_all_spec it dir e). Qed.
Print Assumptions C31_edge_iter.
(** When there are as many nodes as ids, the iterator never returns None. *)
Theorem C31_edge_iter_full it dir e fuel inner curr idx : csr_nodes (ev_offsets e) = id_card it →
  ei_next it dir e inner curr idx ≠ Ok None ∧ ∀ l, ei_collect it dir e fuel inner curr idx ≠ Ok l.
Proof. exact (ei_full it dir e fuel inner curr idx). Qed.
Print Assumptions C31_edge_iter_full.
Example C31_full_case : csr_wf (replicate 257 0) [] ∧ csr_nodes (replicate 257 0) = id_card TU8.
Proof. exact st_csr_full. Qed.

(** ** C32. Directed graphs, and graphs without edge labels. *)
Theorem C32_edges_partial {NL EL} it lt dir (g : sgraph NL EL) :
  csr_wf (ev_offsets (sg_evec g)) (ev_edges (sg_evec g)) → (csr_nodes (ev_offsets (sg_evec g)) < id_card it)%N →
  (dir = true ∧ csr_tight (ev_offsets (sg_evec g)) (ev_edges (sg_evec g)) ∧
     length (ev_labels (sg_evec g)) = length (ev_edges (sg_evec g))) ∨ ev_labels (sg_evec g) = [] →
  ∃ es l, v_edge_indices (sg_view it lt dir g) = Ok es ∧ v_edges (sg_view it lt dir g) = Ok l ∧
    l.*1 = es ∧ ∀ s t lid, (s, t, lid) ∈ l → v_get_edge (sg_view it lt dir g) s t = Ok (Some (s, t, lid)).
Proof. exact (edges_thm it lt dir g). Qed.
Print Assumptions C32_edges_partial.
Example C32_case : ∃ g : sgraph N N, sg_with_labels true (EV [0; 2; 2; 3; 5] [1; 3; 3; 0; 2]%N (Some [0; 1; 255; 0; 1]%N)) (Some (EV [0; 1; 2; 3; 5] [3; 0; 3; 0; 2]%N None)) [] [] [8; 9]%N None None = Ok g ∧
  csr_wf (ev_offsets (sg_evec g)) (ev_edges (sg_evec g)) ∧ csr_tight (ev_offsets (sg_evec g)) (ev_edges (sg_evec g)) ∧
  length (ev_labels (sg_evec g)) = length (ev_edges (sg_evec g)).
Proof. eexists. split; [done|]. destruct st_csr_case as (H1 & H2 & _). exact (conj H1 (conj H2 eq_refl)). Qed.
Theorem C32_undirected_refuted : ∃ (g : graphmap N N) sg es, gm_reachable false TU8 g ∧ gm_into_static TU8 TU8 false g = Ok sg ∧
  v_edges (sg_view TU8 TU8 false sg) = Ok es ∧ (1, 2, Some 0)%N ∈ es ∧
  v_get_edge (sg_view TU8 TU8 false sg) 1 2 = Ok (Some (1, 2, Some 1))%N ∧ v_edge_label (sg_view TU8 TU8 false sg) 1 2 = Ok (Some 6%N).
Proof. exact st_edges_bad. Qed.
Print Assumptions C32_undirected_refuted.

(** ** C33. Exact for directed graphs and undirected graphs without self-loops. *)
Theorem C33_counts_partial {NL EL} lt (A : agraph NL EL) e in_e (g : sgraph NL EL) ls nlm elm :
  sg_new (ag_dir A) e in_e None None = Ok g ∨ sg_with_labels (ag_dir A) e in_e ls nlm elm None None = Ok g →
  arrays_of lt g A → csr_tight (ev_offsets e) (ev_edges e) → (ag_dir A = false → ∀ n, ¬ a_has_edge A n n) →
  sg_num_nodes g = a_num_nodes A ∧ sg_num_edges g = a_num_edges A.
Proof. exact (counts_no_loops lt A e in_e g ls nlm elm). Qed.
Print Assumptions C33_counts_partial.
(** With self-loops [ns], an undirected graph reports too few: half of them are lost. *)
Theorem C33_self_loops_refuted {NL EL} lt (A : agraph NL EL) e in_e (g : sgraph NL EL) ls nlm elm ns :
  sg_new (ag_dir A) e in_e None None = Ok g ∨ sg_with_labels (ag_dir A) e in_e ls nlm elm None None = Ok g →
  arrays_of lt g A → csr_tight (ev_offsets e) (ev_edges e) → ag_dir A = false → lists_exactly ns (λ n, a_has_edge A n n) →
  sg_num_edges g + (length ns + 1) / 2 = a_num_edges A.
Proof. exact (counts_loops lt A e in_e g ls nlm elm ns). Qed.
Print Assumptions C33_self_loops_refuted.
Example C33_case dir : ∃ e in_e (g : sgraph N N) A, sg_new dir e in_e None None = Ok g ∧ arrays_of TU8 g A ∧ csr_tight (ev_offsets e) (ev_edges e) ∧
  ag_dir A = dir ∧ a_num_edges A = 3 ∧ a_num_nodes A = 3 ∧ ∀ n, ¬ a_has_edge A n n.
Proof. exact (st_tri_case dir). Qed.
Example C33_loop_case : ∃ e in_e (g : sgraph N N) A, sg_new false e in_e None None = Ok g ∧ arrays_of TU8 g A ∧ csr_tight (ev_offsets e) (ev_edges e) ∧
  ag_dir A = false ∧ a_has_edge A 1 1 ∧ a_num_edges A = 2.
Proof. exact st_loop_case. Qed.

(** ** C34. Every static graph. *)
Theorem C34_remove_node_labels {NL EL} it lt dir (g : sgraph NL EL) :
  let V := sg_view it lt dir g in let W := sg_view it lt dir (sg_remove_node_labels g) in
  same_structure V W ∧ same_edge_labels V W ∧ no_node_labels W.
Proof. exact (remove_node_thm it lt dir g). Qed.
Print Assumptions C34_remove_node_labels.
Theorem C34_remove_edge_labels {NL EL} it lt dir (g : sgraph NL EL) :
  let V := sg_view it lt dir g in let W := sg_view it lt dir (sg_remove_edge_labels g) in
  same_structure V W ∧ same_node_labels V W ∧ no_edge_labels W.
Proof. exact (remove_edge_thm it lt dir g). Qed.
Print Assumptions C34_remove_edge_labels.
Theorem C34_remove_labels {NL EL} it lt dir (g : sgraph NL EL) :
  let V := sg_view it lt dir g in let W := sg_view it lt dir (sg_remove_labels g) in
  same_structure V W ∧ no_node_labels W ∧ no_edge_labels W.
Proof. exact (remove_labels_thm it lt dir g). Qed.
Print Assumptions C34_remove_labels.
Theorem C34_remove_labels_graph {NL EL} lt (g : sgraph NL EL) A : arrays_of lt g A → arrays_of lt (sg_remove_labels g) (a_unlabelled A).
Proof. exact (remove_labels_arrays lt g A). Qed.
Print Assumptions C34_remove_labels_graph.
