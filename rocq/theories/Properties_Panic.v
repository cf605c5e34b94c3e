(** What remains of a graph when remove_node panics and the panic is caught (C109). *)
From Verif Require Import Base Api Spec SpecPanic Map GraphMap GraphMapRefine GraphMapQueries GraphMapThms GraphMapMore GraphMapPanic GraphMapLeft TraverseProps PanicWit.

(** The model of the call and the model of what it leaves agree on the graph and on whether the call returns. *)
Theorem C109_agrees {NL EL} `{EqDecision NL, EqDecision EL} (dir : bool) (id : N) (g : graphmap NL EL) :
  match gm_remove_node dir id g with
  | Ok (_, g') => gm_remove_node_left dir id g = (g', true)
  | _ => ∃ g', gm_remove_node_left dir id g = (g', false)
  end.
Proof. exact (left_agrees dir id g). Qed.
Print Assumptions C109_agrees.
(** Exactly what is left, for every graph that calls can build. *)
Theorem C109_exact {NL EL} `{EqDecision NL, EqDecision EL} (dir : bool) (lt : idty) (g : graphmap NL EL) it id : gm_reachable dir lt g → hash_order g it →
  v_has_edge (gm_view dir it g) id id = Ok true →
  ∃ g', gm_remove_node_left dir id g = (g', false) ∧ ∀ it', hash_order g' it' → half_removed dir id (gm_view dir it g) (gm_view dir it' g').
Proof. intros [s H]%(reach_skrel dir lt) Hit [= Hl]. exact (left_view dir id g s it H Hit Hl). Qed.
Print Assumptions C109_exact.
(** What is left is a graph exactly when no edge dangles; then it is the graph without the node. *)
Theorem C109_consistent_iff {NL EL} `{EqDecision NL, EqDecision EL} (dir : bool) (lt : idty) (g : graphmap NL EL) it id g' it' : gm_reachable dir lt g → hash_order g it →
  v_has_edge (gm_view dir it g) id id = Ok true → gm_remove_node_left dir id g = (g', false) → hash_order g' it' →
  (∃ B, represents (v_unlabelled (gm_view dir it' g')) B) ↔ ¬ dangling dir id (gm_view dir it g).
Proof. intros [s H]%(reach_skrel dir lt) Hit [= Hl]. exact (left_iff dir id g s it g' it' H Hit Hl). Qed.
Print Assumptions C109_consistent_iff.
Example C109_case : ∀ dir, let g := run_gm dir pa_h in let V := gm_view dir (pa_order dir) g in
  gm_reachable dir TU8 g ∧ hash_order g (pa_order dir) ∧ v_has_edge V 2 2 = Ok true ∧ v_has_edge V 0 0 = Ok true ∧ dangling dir 2 V ∧ ¬ dangling dir 0 V.
Proof.
  intros dir. split; [exact (proj1 (pa_reach dir))|]. split; [exact (proj2 (pa_reach dir))|]. split; [exact (proj1 (pa_loops dir))|].
  split; [exact (proj2 (pa_loops dir))|]. split; [exact (pa_dangling dir)|exact (pa_clean dir)].
Qed.
(** The natural expectation, that a failed call leaves the graph unchanged or at least a graph, is false: edges lead to the missing node and
    later calls about other nodes panic. *)
Theorem C109_usable_refuted : ∀ dir, ∃ (g : graphmap N N) g', gm_reachable dir TU8 g ∧ gm_remove_node_left dir 2 g = (g', false) ∧
  let V := gm_view dir (map_to_list (g_nodes g')).*1 g' in
  v_has_edge V 3 2 = Ok (negb dir) ∧ v_has_edge V 1 2 = Ok dir ∧ v_has_node V 2 = false ∧ v_edge_count V = 4 ∧
  gm_remove_edge dir (if dir then 1 else 3)%N 2 g' = Panic ∧ gm_remove_node dir 3 g' = Panic.
Proof.
  intros dir. exists (run_gm dir pa_h), (pa_left dir). split; [exact (proj1 (pa_reach dir))|]. split; [by destruct dir; vm_compute|exact (pa_bad dir)].
Qed.
Print Assumptions C109_usable_refuted.
(** Removing the self-loop first: both calls return and exactly the node and its edges are gone. *)
Theorem C109_loop_first {NL EL} `{EqDecision NL, EqDecision EL} (dir : bool) (lt : idty) (g : graphmap NL EL) id : gm_reachable dir lt g →
  ∃ r1 g1 r2 g2, gm_step dir lt (ORemoveEdge id id) g = Ok (r1, g1) ∧ gm_step dir lt (ORemoveNode id) g1 = Ok (r2, g2) ∧
    (∀ x, gm_has_node g2 x = true ↔ gm_has_node g x = true ∧ x ≠ id) ∧
    ∀ x y, gm_has_edge g2 x y = true ↔ gm_has_edge g x y = true ∧ x ≠ id ∧ y ≠ id.
Proof. intros [s H]%(reach_skrel dir lt). exact (remove_loop_first dir lt id g s H). Qed.
Print Assumptions C109_loop_first.
