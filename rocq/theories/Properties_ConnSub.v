(** C94: a ConnSubgraph made by empty() from one graph and run by hand, over that graph or
    others, any number of times. *)
From Verif Require Import Base Api Spec SpecOps SpecConnSub Map GraphMap ConnComp GraphOps GraphOpsFacts GraphOpsWit ConnSubRun ConnSubRunProps ConnSubRunWit.

(** Every run adds the graph, cut along the components of the graph given to empty(). There is
    one subgraph per component that has a node in one of the graphs, found by the root that
    ConnComp gives to its nodes. An edge goes with its start, and takes the other end along,
    without label if that belongs to another component. edge_count() adds up over the runs. *)
Theorem C94_runs {NL EL} `{EqDecision NL, EqDecision EL} (lt : idty) (dir : bool)
    (V0 : gview NL EL) (A0 : agraph NL EL) nls els (Vs : list (gview NL EL)) (As : list (agraph NL EL)) :
  represents V0 A0 → iterates V0 → labels_fit lt nls → labels_fit lt els →
  Forall2 (λ V A, represents V A ∧ iterates V ∧ ag_dir A = dir ∧ uses_labels A nls els ∧ ∀ n, a_has_node A n → on_edge A0 n) Vs As →
  ∃ cs, cr_runs lt V0 Vs = Ok cs ∧
    length (cr_into_result cs) = length (cr_roots cs) ∧
    (∀ i j r r', cr_roots cs !! i = Some r → cr_roots cs !! j = Some r' → weakly_connected A0 r r' → i = j) ∧
    (∀ i r, cr_root_to_subgraph cs r = Some i ↔ cr_roots cs !! i = Some r) ∧
    (∀ i r d g, cr_roots cs !! i = Some r → cr_into_result cs !! i = Some (d, g) →
       d = dir ∧ (∃ n, a_has_node (a_unions dir As) n ∧ weakly_connected A0 r n) ∧
       ∃ A' As', is_part (weakly_connected A0 r) (a_unions dir As) A' ∧ Forall2 (is_part (weakly_connected A0 r)) As As' ∧
       ∀ it, hash_order g it → let V := gm_view dir it g in
         represents V A' ∧ answers_missing V A' ∧ iterates V ∧ v_edge_count V = sum_list (a_num_edges <$> As')) ∧
    (∀ n, a_has_node (a_unions dir As) n → ∃ i r c c', cr_roots cs !! i = Some r ∧ weakly_connected A0 r n ∧
       cc_new V0 = Ok c ∧ cc_get_root n c = Ok (Some r, c')).
Proof. intros H1 H2. exact (runs_thm lt dir V0 A0 H1 H2 nls els Vs As). Qed.
Print Assumptions C94_runs.
Example C94_runs_case dir : ∃ (V0 V1 : gview N N) A0 A1,
  represents V0 A0 ∧ iterates V0 ∧
  Forall2 (λ V A, represents V A ∧ iterates V ∧ ag_dir A = dir ∧ uses_labels A [7; 8; 9]%N [5; 4]%N ∧ ∀ n, a_has_node A n → on_edge A0 n) [V0; V1] [A0; A1] ∧
  labels_fit TU8 [7; 8; 9]%N ∧ labels_fit TU8 [5; 4]%N ∧ ag_edges A1 !! (2, 8)%N = Some (Some 5%N) ∧ ag_nodes A1 !! 8%N = Some (Some 9%N) ∧
  rmap cr_show (cr_runs TU8 V0 [V0; V1]) = Ok [(4, 3, Some None); (2, 1, Some (Some 9%N)); (1, 1, Some None)] ∧
  rmap cr_show (cr_runs TU8 V0 [V0; V0]) = Ok [(3, 4, Some None); (2, 2, Some None); (1, 2, Some None)].
Proof. exact (cr_case dir). Qed.
(** A graph with a node on no edge of the first graph makes its run panic. *)
Theorem C94_unknown_node {NL EL} `{EqDecision NL, EqDecision EL} (lt : idty) (dir : bool)
    (V0 : gview NL EL) (A0 : agraph NL EL) nls els (Vs : list (gview NL EL)) (As : list (agraph NL EL)) V A Vs' n :
  represents V0 A0 → iterates V0 →
  Forall2 (λ V A, represents V A ∧ iterates V ∧ ag_dir A = dir ∧ uses_labels A nls els ∧ ∀ n, a_has_node A n → on_edge A0 n) Vs As →
  represents V A → v_directed V = dir → a_has_node A n → ¬ on_edge A0 n →
  cr_runs lt V0 (Vs ++ V :: Vs') = Panic.
Proof. intros H1 H2. exact (runs_panic lt dir V0 A0 H1 H2 nls els Vs As V A Vs' n). Qed.
Print Assumptions C94_unknown_node.
Example C94_unknown_case dir : ∃ (V0 V1 V2 : gview N N) A0 A1 A2, represents V0 A0 ∧ iterates V0 ∧
  Forall2 (λ V A, represents V A ∧ iterates V ∧ ag_dir A = dir ∧ uses_labels A [7; 8; 9]%N [5; 4]%N ∧ ∀ n, a_has_node A n → on_edge A0 n) [V1] [A1] ∧
  represents V2 A2 ∧ v_directed V2 = dir ∧ a_has_node A2 5 ∧ ¬ on_edge A0 5 ∧ a_has_edge A0 1 2.
Proof. exact (cr_bad_case dir). Qed.
(** Several runs over the graph itself change only edge_count(): it is multiplied. *)
Theorem C94_again {NL EL} `{EqDecision NL, EqDecision EL} (lt : idty) (V : gview NL EL) (A : agraph NL EL) nls els k :
  represents V A → iterates V → (∀ n, ¬ isolated A n) →
  uses_labels A nls els → labels_fit lt nls → labels_fit lt els →
  ∃ cs, cr_runs lt V (replicate (S k) V) = Ok cs ∧
    ∀ i d g, cr_into_result cs !! i = Some (d, g) → d = ag_dir A ∧
      ∃ n A', a_has_node A n ∧ is_induced (weakly_connected A n) A A' ∧
      ∀ it, hash_order g it → let W := gm_view d it g in
        represents W A' ∧ answers_missing W A' ∧ iterates W ∧ v_edge_count W = S k * a_num_edges A'.
Proof. exact (again_thm lt V A nls els k). Qed.
Print Assumptions C94_again.
Example C94_again_case dir : ∃ (V : gview N N) A, represents V A ∧ iterates V ∧ ag_dir A = dir ∧ (∀ n, ¬ isolated A n) ∧ uses_labels A [7]%N [5; 4]%N ∧
  rmap (λ gs, (λ g : graphmap N N, gm_node_count g) <$> gs) (conn_subgraphs TU8 V) ∈ [Ok [3; 2; 1]; Ok [1; 3; 2]; Ok [3; 1; 2]; Ok [2; 1; 3]; Ok [2; 3; 1]; Ok [1; 2; 3]].
Proof. exact (conn_sub_case dir). Qed.
