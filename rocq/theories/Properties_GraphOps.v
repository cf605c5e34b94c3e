(** C24 (in part), C49-C51: operations that build graphs out of graphs, on any graphs
    behind the traits ([represents V A], Spec.v). The iteration orders of the arguments are
    those of the views; [it] is any iteration order of the result. *)
From Verif Require Import Base Api Spec SpecOps Map GraphMap GraphOps GraphOpsFacts GraphOpsProps ConnSubProps GraphOpsWit.

(** ** C49. Without isolated nodes: one subgraph per component, induced by it, connected,
    with labels and exact edge count; every node in exactly one of them. *)
Theorem C49_conn_subgraphs_partial {NL EL} `{EqDecision NL, EqDecision EL} (lt : idty)
    (V : gview NL EL) (A : agraph NL EL) nls els :
  represents V A → iterates V → (∀ n, ¬ isolated A n) →
  uses_labels A nls els → labels_fit lt nls → labels_fit lt els →
  ∃ gs, conn_subgraphs lt V = Ok gs ∧
    (∀ i g, gs !! i = Some g → ∃ n A',
       a_has_node A n ∧ is_induced (weakly_connected A n) A A' ∧
       (∀ x y, a_has_node A' x → a_has_node A' y → weakly_connected A' x y) ∧
       ∀ it, hash_order g it → shows (gm_view (ag_dir A) it g) A') ∧
    (∀ n, a_has_node A n → ∃ i g, gs !! i = Some g ∧ gm_has_node g n = true ∧
       ∀ j g', gs !! j = Some g' → gm_has_node g' n = true → j = i).
Proof. intros H1 H2. exact (conn_sub_thm lt V A H1 H2 nls els). Qed.
Print Assumptions C49_conn_subgraphs_partial.
(** Any isolated node makes it panic. *)
Theorem C49_isolated_refuted {NL EL} `{EqDecision NL, EqDecision EL} (lt : idty)
    (V : gview NL EL) (A : agraph NL EL) n :
  represents V A → iterates V → isolated A n → conn_subgraphs lt V = Panic.
Proof. intros H1 H2. exact (conn_sub_panic lt V A H1 H2 n). Qed.
Print Assumptions C49_isolated_refuted.
Example C49_case dir : ∃ (V : gview N N) A, represents V A ∧ iterates V ∧ ag_dir A = dir ∧ (∀ n, ¬ isolated A n) ∧ uses_labels A [7]%N [5; 4]%N ∧
  rmap (λ gs, (λ g : graphmap N N, gm_node_count g) <$> gs) (conn_subgraphs TU8 V) ∈ [Ok [3; 2; 1]; Ok [1; 3; 2]; Ok [3; 1; 2]; Ok [2; 1; 3]; Ok [2; 3; 1]; Ok [1; 2; 3]].
Proof. exact (conn_sub_case dir). Qed.
Example C49_isolated_case : ∃ (V : gview N N) A, represents V A ∧ iterates V ∧ isolated A 4%N ∧ a_has_edge A 1 2.
Proof. exact conn_sub_bad. Qed.

(** ** C50. Also when a directed graph is joined with an undirected one. edge_count()
    counts edges in both graphs twice. *)
Theorem C50_union {NL EL} `{EqDecision NL, EqDecision EL} (lt : idty)
    (V0 V1 : gview NL EL) (A0 A1 : agraph NL EL) nls els :
  represents V0 A0 → represents V1 A1 → (ag_dir A0 = true ∨ ag_dir A1 = false) →
  uses_labels A0 nls els → uses_labels A1 nls els → labels_fit lt nls → labels_fit lt els →
  ∃ g, graph_union lt V0 V1 = Ok g ∧ ∀ it, hash_order g it →
    let V := gm_view (ag_dir A0) it g in
    represents V (a_union A0 A1) ∧ answers_missing V (a_union A0 A1) ∧ iterates V ∧
    v_edge_count V = a_num_edges A0 + a_num_edges A1.
Proof. exact (union_thm lt V0 A0 V1 A1 nls els). Qed.
Print Assumptions C50_union.
Example C50_case dir : ∃ (V0 V1 : gview N N) A0 A1, represents V0 A0 ∧ represents V1 A1 ∧ ag_dir A0 = dir ∧ ag_dir A1 = dir ∧
  uses_labels A0 [7; 8]%N [5; 6]%N ∧ uses_labels A1 [7; 8]%N [5; 6]%N ∧
  ag_nodes A0 !! 2%N = Some (Some 8%N) ∧ ag_nodes (a_union A0 A1) !! 2%N = Some None ∧
  a_edge_at A0 2 3 = Some None ∧ a_edge_at (a_union A0 A1) 2 3 = Some (Some 6%N) ∧ a_num_nodes (a_union A0 A1) = 5.
Proof. exact (union_case dir). Qed.

(** ** C51. When no node to be removed has a self-loop in the first graph. *)
Theorem C51_minus_partial {NL EL} `{EqDecision NL, EqDecision EL} (lt : idty)
    (V0 V1 : gview NL EL) (A0 A1 : agraph NL EL) nls els :
  represents V0 A0 → represents V1 A1 → (∀ n, a_has_node A1 n → ¬ a_has_edge A0 n n) →
  uses_labels A0 nls els → labels_fit lt nls → labels_fit lt els →
  ∃ g A, graph_minus lt V0 V1 = Ok g ∧ is_induced (λ n, ¬ a_has_node A1 n) A0 A ∧
    ∀ it, hash_order g it → shows (gm_view (ag_dir A0) it g) A.
Proof. exact (minus_thm lt V0 A0 V1 A1 nls els). Qed.
Print Assumptions C51_minus_partial.
(** Otherwise it panics. *)
Theorem C51_self_loop_refuted {NL EL} `{EqDecision NL, EqDecision EL} (lt : idty)
    (V0 V1 : gview NL EL) (A0 A1 : agraph NL EL) n :
  represents V0 A0 → represents V1 A1 → a_has_edge A0 n n → a_has_node A1 n → graph_minus lt V0 V1 = Panic.
Proof. exact (minus_panic lt V0 A0 V1 A1 n). Qed.
Print Assumptions C51_self_loop_refuted.
Example C51_case dir : ∃ (V0 V1 V2 : gview N N) A0 A1, represents V0 A0 ∧ represents V1 A1 ∧ ag_dir A0 = dir ∧
  (∀ n, a_has_node A1 n → ¬ a_has_edge A0 n n) ∧ uses_labels A0 [7; 8]%N [5; 6]%N ∧
  a_has_node A0 2 ∧ a_has_node A1 2 ∧ a_has_edge A0 1 2 ∧ a_has_edge A0 4 4 ∧
  (∃ A2, represents V2 A2) ∧ ∀ lt, graph_minus lt V0 V2 = Panic.
Proof. exact (minus_case dir). Qed.
