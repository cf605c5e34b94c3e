(** C81 for static graphs of both kinds. *)
From Verif Require Import Base Api Spec SpecStatic ViewOps LabelIds Static Map GraphMap IntoStatic LabelIdsShift.

(** ** C81. [all] lists every neighbour of every node in order with the label get_edge shows; the counter
    counts label ids in as many entries of it as there are edges. *)
Theorem C81_static_exact {NL EL} it lt dir (g : sgraph NL EL) :
  csr_wf (ev_offsets (sg_evec g)) (ev_edges (sg_evec g)) → (csr_nodes (ev_offsets (sg_evec g)) < id_card it)%N →
  csr_tight (ev_offsets (sg_evec g)) (ev_edges (sg_evec g)) → length (ev_labels (sg_evec g)) = length (ev_edges (sg_evec g)) →
  let V := sg_view it lt dir g in
  ∃ es c all, v_edge_indices V = Ok es ∧ v_edge_label_id_counter V = Ok c ∧
    StronglySorted lex_lt all.*1 ∧ (∀ s t, (s, t) ∈ all.*1 ↔ v_has_edge V s t = Ok true) ∧
    (∀ s t lid, (s, t, lid) ∈ all → v_get_edge V s t = Ok (Some (s, t, lid))) ∧ length es ≤ length all ∧
    ∀ i, counter_get i c = length (filter (λ e, e.2 = Some i) (take (length es) all)).
Proof. exact (id_counter_any it lt dir g). Qed.
Print Assumptions C81_static_exact.
(** The path 0 - 1 - 2 with two labels: as undirected graph, the label of (0, 1) is counted twice. *)
Example C81_static_exact_case : ∃ (g : graphmap N N) sg, gm_reachable false TU8 g ∧ gm_into_static TU8 TU8 false g = Ok sg ∧
  csr_wf (ev_offsets (sg_evec sg)) (ev_edges (sg_evec sg)) ∧ (csr_nodes (ev_offsets (sg_evec sg)) < id_card TU8)%N ∧
  csr_tight (ev_offsets (sg_evec sg)) (ev_edges (sg_evec sg)) ∧ length (ev_labels (sg_evec sg)) = length (ev_edges (sg_evec sg)) ∧
  v_edge_label_id_counter (sg_view TU8 TU8 false sg) = Ok [0; 0]%N ∧ v_edge_label_id_counter (sg_view TU8 TU8 true sg) = Ok [0; 0; 1; 1]%N.
Proof. exact id_counter_shift_case. Qed.
