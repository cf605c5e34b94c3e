(** C32 for undirected graphs: which labels edges() shows. *)
From Verif Require Import Base BaseFacts Api Spec SpecStatic Static Map GraphMap GraphMapProps IntoStatic StaticShift.

(** ** C32. [all] lists every neighbour of every node in order, both ways round in an undirected graph,
    with the label get_edge shows. The k-th edge of edges() gets the label of the k-th entry of [all]. *)
Theorem C32_exact {NL EL} it lt dir (g : sgraph NL EL) :
  csr_wf (ev_offsets (sg_evec g)) (ev_edges (sg_evec g)) → (csr_nodes (ev_offsets (sg_evec g)) < id_card it)%N →
  csr_tight (ev_offsets (sg_evec g)) (ev_edges (sg_evec g)) → length (ev_labels (sg_evec g)) = length (ev_edges (sg_evec g)) →
  let V := sg_view it lt dir g in
  ∃ es l all, v_edge_indices V = Ok es ∧ v_edges V = Ok l ∧
    StronglySorted lex_lt all.*1 ∧ (∀ s t, (s, t) ∈ all.*1 ↔ v_has_edge V s t = Ok true) ∧
    (∀ s t lid, (s, t, lid) ∈ all → v_get_edge V s t = Ok (Some (s, t, lid))) ∧
    l = zip es all.*2 ∧ l.*1 = es ∧ length es ≤ length all.
Proof. exact (edges_any it lt dir g). Qed.
Print Assumptions C32_exact.
(** So a graph whose edges all have one label is shown right. *)
Theorem C32_one_label {NL EL} it lt dir (g : sgraph NL EL) i :
  csr_wf (ev_offsets (sg_evec g)) (ev_edges (sg_evec g)) → (csr_nodes (ev_offsets (sg_evec g)) < id_card it)%N →
  csr_tight (ev_offsets (sg_evec g)) (ev_edges (sg_evec g)) → length (ev_labels (sg_evec g)) = length (ev_edges (sg_evec g)) →
  let V := sg_view it lt dir g in
  (∀ s t lid, v_get_edge V s t = Ok (Some (s, t, lid)) → lid = i) →
  ∃ es l, v_edge_indices V = Ok es ∧ v_edges V = Ok l ∧ l.*1 = es ∧
    ∀ s t lid, (s, t, lid) ∈ l → v_get_edge V s t = Ok (Some (s, t, lid)).
Proof. exact (edges_uniform it lt dir g i). Qed.
Print Assumptions C32_one_label.
Example C32_one_label_case : let V := sg_view TU8 TU8 false one_label in
  csr_wf (ev_offsets (sg_evec one_label)) (ev_edges (sg_evec one_label)) ∧ (csr_nodes (ev_offsets (sg_evec one_label)) < id_card TU8)%N ∧
  csr_tight (ev_offsets (sg_evec one_label)) (ev_edges (sg_evec one_label)) ∧ length (ev_labels (sg_evec one_label)) = length (ev_edges (sg_evec one_label)) ∧
  (∀ s t lid, v_get_edge V s t = Ok (Some (s, t, lid)) → lid = Some 0%N) ∧
  v_edges V = Ok [(0, 1, Some 0); (1, 2, Some 0)]%N.
Proof. exact one_label_case. Qed.
(** The path 0 - 1 - 2 with two labels: (1, 2) is shown with the label of (1, 0). *)
Example C32_exact_case : ∃ (g : graphmap N N) sg, gm_reachable false TU8 g ∧ gm_into_static TU8 TU8 false g = Ok sg ∧
  csr_wf (ev_offsets (sg_evec sg)) (ev_edges (sg_evec sg)) ∧ (csr_nodes (ev_offsets (sg_evec sg)) < id_card TU8)%N ∧
  csr_tight (ev_offsets (sg_evec sg)) (ev_edges (sg_evec sg)) ∧ length (ev_labels (sg_evec sg)) = length (ev_edges (sg_evec sg)) ∧
  v_edge_indices (sg_view TU8 TU8 false sg) = Ok [(0, 1); (1, 2)]%N ∧
  v_edges (sg_view TU8 TU8 false sg) = Ok [(0, 1, Some 0); (1, 2, Some 0)]%N ∧
  v_edges (sg_view TU8 TU8 true sg) = Ok [(0, 1, Some 0); (1, 0, Some 0); (1, 2, Some 1); (2, 1, Some 1)]%N.
Proof. exact shift_case. Qed.
