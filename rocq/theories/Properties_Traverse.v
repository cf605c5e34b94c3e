(** C40-C44: breadth-first and depth-first traversal. [represents V A]: the graph
    observed through the traits is [A] (Spec.v); the second hypothesis says that
    max_seen_id() is a value of the id type. *)
From Verif Require Import Base BaseFacts Api Spec Map GraphMap Traverse SpecTraverse TraverseRun TraverseProps.

(** ** C40 *)
Theorem C40_bfs_each_node_once {NL EL} (idt : idty) (V : gview NL EL) (A : agraph NL EL) start s :
  represents V A → (∀ m, v_max_seen_id V = Ok (Some m) → (m < id_card idt)%N) → starts A V start s →
  ∃ l, (∀ fuel, v_node_count V < fuel → bfs_run idt V fuel start = Ok l) ∧
    NoDup l ∧ (∀ n, n ∈ l ↔ a_has_node A n) ∧ head l = Some s.
Proof. intros H1 H2 H3. destruct (bfs_thm idt V A H1 H2 start s H3) as (l & ? & [? ?] & ? & _). by exists l. Qed.
Print Assumptions C40_bfs_each_node_once.
Theorem C40_missing_start {NL EL} (idt : idty) (V : gview NL EL) (A : agraph NL EL) s fuel l :
  represents V A → ¬ a_has_node A s →
  bfs_run idt V fuel (Some s) ≠ Ok l ∧ dfs_run idt V fuel (Some s) ≠ Ok l.
Proof. intros H. exact (missing_start idt V A H s fuel l). Qed.
Print Assumptions C40_missing_start.
(** For a GraphMap after any history of calls, in terms of its own answers only. *)
Theorem C40_graphmap {NL EL} `{EqDecision NL, EqDecision EL} (idt lt : idty) dir (g : graphmap NL EL) it s :
  gm_reachable dir lt g → hash_order g it →
  let V := gm_view dir it g in
  (∀ m, v_max_seen_id V = Ok (Some m) → (m < id_card idt)%N) →
  v_has_node V s = true →
  (∃ l, (∀ fuel, v_node_count V < fuel → bfs_run idt V fuel (Some s) = Ok l) ∧
    NoDup l ∧ (∀ n, n ∈ l ↔ v_has_node V n = true) ∧ head l = Some s) ∧
  (∃ l, (∀ fuel, v_node_count V < fuel → dfs_run idt V fuel (Some s) = Ok l) ∧
    NoDup l ∧ (∀ n, n ∈ l ↔ v_has_node V n = true) ∧ head l = Some s).
Proof. exact (graphmap_traversal idt lt dir g it s). Qed.
Print Assumptions C40_graphmap.
Example C40_case : ∃ (V : gview N N) A, represents V A ∧ v_max_seen_id V = Ok (Some 7%N) ∧
  starts A V (Some 5%N) 5%N ∧ starts A V None 0%N ∧
  bfs_run TU8 V 6 (Some 5%N) = Ok [5; 0; 2; 3; 7]%N ∧ bfs_run TU8 V 6 None = Ok [0; 5; 2; 3; 7]%N.
Proof. exact split_wit_case. Qed.

(** ** C41. [by_distance]: non-decreasing shortest-path distance from the first node.
    A [traversal] first lists the nodes reachable from the start in this order, then,
    if nodes are left, those reachable from the smallest one left, and so on. *)
Theorem C41_bfs_order {NL EL} (idt : idty) (V : gview NL EL) (A : agraph NL EL) start s :
  represents V A → (∀ m, v_max_seen_id V = Ok (Some m) → (m < id_card idt)%N) → starts A V start s →
  ∃ l, (∀ fuel, v_node_count V < fuel → bfs_run idt V fuel start = Ok l) ∧
    traversal A (by_distance A) s l ∧ traversal A (earliest_discovered A) s l.
Proof. intros H1 H2 H3. destruct (bfs_thm idt V A H1 H2 start s H3) as (l & ? & _ & _ & ? & ?). by exists l. Qed.
Print Assumptions C41_bfs_order.
Theorem C41_reachable_first {NL EL} (A : agraph NL EL) s l :
  traversal A (by_distance A) s l →
  ∃ l1 l2, l = l1 ++ l2 ∧ (∀ x, x ∈ l1 ↔ reaches A s x) ∧
    ∀ i j x y dx dy, i ≤ j → l1 !! i = Some x → l1 !! j = Some y →
      distance A s x dx → distance A s y dy → dx ≤ dy.
Proof. exact (traversal_first A s l). Qed.
Print Assumptions C41_reachable_first.

(** ** C42 *)
Theorem C42_dfs_each_node_once {NL EL} (idt : idty) (V : gview NL EL) (A : agraph NL EL) start s :
  represents V A → (∀ m, v_max_seen_id V = Ok (Some m) → (m < id_card idt)%N) → starts A V start s →
  ∃ l, (∀ fuel, v_node_count V < fuel → dfs_run idt V fuel start = Ok l) ∧
    NoDup l ∧ (∀ n, n ∈ l ↔ a_has_node A n) ∧ head l = Some s ∧
    ∃ l1 l2, l = l1 ++ l2 ∧ ∀ x, x ∈ l1 ↔ reaches A s x.
Proof. exact (dfs_once idt V A start s). Qed.
Print Assumptions C42_dfs_each_node_once.
(** After reset() a Dfs on which next() was called any number of times starts afresh. *)
Theorem C42_dfs_reset {NL EL} (idt : idty) (V : gview NL EL) start st0 st :
  dfs_new V start = Ok st0 → rtc (λ st st', ∃ o, dfs_next idt V st = Ok (o, st')) st0 st →
  ∀ start', dfs_move_to V start' (dfs_reset st) = dfs_new V start'.
Proof. intros H1 H2. exact (dfs_reset_spec idt V st0 st start H1 H2). Qed.
Print Assumptions C42_dfs_reset.
Example C42_case : ∃ (V : gview N N) A, represents V A ∧ v_max_seen_id V = Ok (Some 3%N) ∧
  starts A V (Some 0%N) 0%N ∧ dfs_run TU8 V 5 (Some 0%N) = Ok [0; 3; 2; 1]%N ∧
  ∃ st0 st, dfs_new V (Some 0%N) = Ok st0 ∧ dfs_next TU8 V st0 = Ok (Some 0%N, st) ∧ st0 ≠ st.
Proof. exact dfs_wit_case. Qed.

(** ** C43. False: the order is not a depth-first order. *)
Theorem C43_depth_first_refuted : ∃ (V : gview N N) A l, represents V A ∧
  v_max_seen_id V = Ok (Some 3%N) ∧ a_has_node A 0%N ∧
  dfs_run TU8 V 5 (Some 0%N) = Ok l ∧ ¬ traversal A (depth_first A) 0%N l.
Proof. exact dfs_wit_refuted. Qed.
Print Assumptions C43_depth_first_refuted.
(** What holds instead: the next node is the one discovered last. Missing: the node it
    was discovered from need not be the last visited one with an unvisited neighbour. *)
Theorem C43_dfs_order_partial {NL EL} (idt : idty) (V : gview NL EL) (A : agraph NL EL) start s :
  represents V A → (∀ m, v_max_seen_id V = Ok (Some m) → (m < id_card idt)%N) → starts A V start s →
  ∃ l, (∀ fuel, v_node_count V < fuel → dfs_run idt V fuel start = Ok l) ∧
    traversal A (latest_discovered A) s l.
Proof. intros H1 H2 H3. destruct (dfs_thm idt V A H1 H2 start s H3) as (l & ? & _ & _ & ?). by exists l. Qed.
Print Assumptions C43_dfs_order_partial.

(** ** C44. False: both go on with the nodes not reachable from the start; C41 and C43
    say in which order. *)
Theorem C44_only_reachable_refuted : ∃ (V : gview N N) A l l', represents V A ∧
  a_has_node A 0%N ∧ v_max_seen_id V = Ok (Some 7%N) ∧
  bfs_run TU8 V 6 (Some 0%N) = Ok l ∧ dfs_run TU8 V 6 (Some 0%N) = Ok l' ∧
  ¬ (∀ x, x ∈ l → reaches A 0%N x) ∧ ¬ (∀ x, x ∈ l' → reaches A 0%N x).
Proof. exact split_wit_refuted. Qed.
Print Assumptions C44_only_reachable_refuted.
(** It does hold if every node is reachable from the start. *)
Theorem C44_only_reachable_partial {NL EL} (idt : idty) (V : gview NL EL) (A : agraph NL EL) s :
  represents V A → (∀ m, v_max_seen_id V = Ok (Some m) → (m < id_card idt)%N) → a_has_node A s →
  ∃ l l', (∀ fuel, v_node_count V < fuel →
      bfs_run idt V fuel (Some s) = Ok l ∧ dfs_run idt V fuel (Some s) = Ok l') ∧
    ((∀ x, x ∈ l → reaches A s x) ↔ (∀ x, a_has_node A x → reaches A s x)) ∧
    ((∀ x, x ∈ l' → reaches A s x) ↔ (∀ x, a_has_node A x → reaches A s x)).
Proof. exact (only_reachable_iff idt V A s). Qed.
Print Assumptions C44_only_reachable_partial.
