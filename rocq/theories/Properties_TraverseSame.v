(** C77, C78: which parts of a traversal depend on what. [represents V A]: the graph
    observed through the traits is [A] (Spec.v). The views of one graph differ in the
    implementation behind them, the history that built it and the hash order. *)
From Verif Require Import Base BaseFacts Api Spec Map GraphMap Traverse SpecTraverse TraverseRun TraverseParts Static IntoStatic TraverseSame.

(** ** C77. From a given start the order is a function of the graph. *)
Theorem C77_same_order {NL EL} (idt idt' : idty) (V V' : gview NL EL) (A : agraph NL EL) s :
  represents V A → represents V' A → (∀ m, v_max_seen_id V = Ok (Some m) → (m < id_card idt)%N) →
  (∀ m, v_max_seen_id V' = Ok (Some m) → (m < id_card idt')%N) → a_has_node A s →
  (∃ l, ∀ fuel, v_node_count V < fuel → bfs_run idt V fuel (Some s) = Ok l ∧ bfs_run idt' V' fuel (Some s) = Ok l) ∧
  (∃ l, ∀ fuel, v_node_count V < fuel → dfs_run idt V fuel (Some s) = Ok l ∧ dfs_run idt' V' fuel (Some s) = Ok l).
Proof. intros R R' H H' Hs. exact (same_order idt idt' V V' A (Some s) (Some s) s R R' H H' (conj eq_refl Hs) (conj eq_refl Hs)). Qed.
Print Assumptions C77_same_order.
(** In particular into_static keeps it. *)
Theorem C77_static {NL EL} (idt lt : idty) dir (g : graphmap NL EL) ord A s :
  represents (gm_view dir ord g) A → a_has_node A s → (∀ n, a_has_node A n → (n < id_max idt)%N) →
  (∀ n m, a_has_node A n → (m < n)%N → a_has_node A m) →
  (N.of_nat (length (g_nlm g)) ≤ id_max lt)%N → (N.of_nat (length (g_elm g)) ≤ id_max lt)%N →
  (∀ m, v_max_seen_id (gm_view dir ord g) = Ok (Some m) → (m < id_card idt)%N) →
  ∃ sg, gm_into_static idt lt dir g = Ok sg ∧
    (∃ l, ∀ fuel, gm_node_count g < fuel →
       bfs_run idt (gm_view dir ord g) fuel (Some s) = Ok l ∧ bfs_run idt (sg_view idt lt dir sg) fuel (Some s) = Ok l) ∧
    (∃ l, ∀ fuel, gm_node_count g < fuel →
       dfs_run idt (gm_view dir ord g) fuel (Some s) = Ok l ∧ dfs_run idt (sg_view idt lt dir sg) fuel (Some s) = Ok l).
Proof. exact (same_order_static idt lt dir g ord A s). Qed.
Print Assumptions C77_static.
Example C77_case : ∃ (g : graphmap N N) it it' A, gm_reachable false TU8 g ∧ hash_order g it ∧ hash_order g it' ∧ it ≠ it' ∧
  represents (gm_view false it g) A ∧ represents (gm_view false it' g) A ∧ a_has_node A 5%N ∧
  v_max_seen_id (gm_view false it g) = Ok (Some 7%N) ∧ a_num_edges A = 4 ∧
  bfs_run TU8 (gm_view false it g) 6 (Some 5%N) = Ok [5; 0; 2; 3; 7]%N ∧ dfs_run TU8 (gm_view false it' g) 6 (Some 5%N) = Ok [5; 2; 3; 7; 0]%N.
Proof. exact same_case. Qed.
(** Without a start it is not: the same graph, two hash orders. *)
Theorem C77_no_start_differs : ∃ (g : graphmap N N) it it' l l', gm_reachable false TU8 g ∧ hash_order g it ∧ hash_order g it' ∧
  bfs_run TU8 (gm_view false it g) 6 None = Ok l ∧ bfs_run TU8 (gm_view false it' g) 6 None = Ok l' ∧ l ≠ l' ∧
  dfs_run TU8 (gm_view false it g) 6 None = Ok l ∧ dfs_run TU8 (gm_view false it' g) 6 None = Ok l'.
Proof. exact no_start_wit. Qed.
Print Assumptions C77_no_start_differs.

(** ** C78. from_parts: the vector and a map of the nodes to visit, in which the nodes of
    the vector are not marked. *)
Theorem C78_from_parts {NL EL} (idt : idty) (V : gview NL EL) (A : agraph NL EL) stack (d : fbs) :
  represents V A → (∀ m, v_max_seen_id V = Ok (Some m) → (m < id_card idt)%N) →
  (∀ x, a_has_node A x → (x < fb_len d)%N) → (fb_len d ≤ id_card idt)%N → (∀ x, x ∈ fb_ones d → (x < fb_len d)%N) →
  NoDup stack → (∀ x, x ∈ stack → a_has_node A x ∧ x ∉ fb_ones d) →
  ∃ l, (∀ fuel, v_node_count V < fuel → drain (dfs_next idt V) fuel (dfs_from_parts stack d) = Ok l) ∧ NoDup l ∧
    ∀ x, x ∈ l ↔ x ∈ stack ∨ (a_has_node A x ∧ x ∈ fb_ones d).
Proof. intros R Hids. exact (from_parts_thm idt V A R Hids stack d). Qed.
Print Assumptions C78_from_parts.
(** with_capacity, and any Dfs after reset(), at whatever point: as if started at the
    smallest node. *)
Theorem C78_with_capacity {NL EL} (idt : idty) (V : gview NL EL) (A : agraph NL EL) n :
  represents V A → (∀ m, v_max_seen_id V = Ok (Some m) → (m < id_card idt)%N) → a_has_node A n →
  ∃ r st, smallest_left A [] r ∧ dfs_with_capacity V = Ok st ∧
    ∀ fuel, drain (dfs_next idt V) fuel st = dfs_run idt V fuel (Some r).
Proof. intros R Hids. exact (with_capacity_run idt V A R Hids n). Qed.
Print Assumptions C78_with_capacity.
Theorem C78_reset {NL EL} (idt : idty) (V : gview NL EL) (A : agraph NL EL) start st0 st :
  represents V A → (∀ m, v_max_seen_id V = Ok (Some m) → (m < id_card idt)%N) →
  dfs_new V start = Ok st0 → rtc (λ st st', ∃ o, dfs_next idt V st = Ok (o, st')) st0 st →
  ∃ r, smallest_left A [] r ∧ ∀ fuel, drain (dfs_next idt V) fuel (dfs_reset st) = dfs_run idt V fuel (Some r).
Proof. intros R Hids. exact (reset_run idt V A R Hids st0 st start). Qed.
Print Assumptions C78_reset.
(** Once next() has returned None it keeps doing so, on any graph and from any state. *)
Theorem C78_fused {NL EL} (idt : idty) (V : gview NL EL) st st' :
  (bfs_next idt V st = Ok (None, st') → bfs_next idt V st' = Ok (None, st')) ∧
  (dfs_next idt V st = Ok (None, st') → dfs_next idt V st' = Ok (None, st')).
Proof.
  split; intros H.
  - pose proof (fused idt V false st st' H). by subst.
  - pose proof (fused idt V true st st' H). by subst.
Qed.
Print Assumptions C78_fused.
Example C78_case : ∃ (V : gview N N) A d, represents V A ∧ v_max_seen_id V = Ok (Some 7%N) ∧
  (∀ x, a_has_node A x → (x < fb_len d)%N) ∧ (fb_len d ≤ id_card TU8)%N ∧ (∀ x, x ∈ fb_ones d → (x < fb_len d)%N) ∧
  (∀ x, x ∈ [5; 7]%N → a_has_node A x ∧ x ∉ fb_ones d) ∧ a_num_nodes A = 5 ∧
  drain (dfs_next TU8 V) 6 (dfs_from_parts [5; 7]%N d) = Ok [7; 3; 5; 0]%N ∧
  ∃ st0 st, dfs_new V (Some 5%N) = Ok st0 ∧ dfs_next TU8 V st0 = Ok (Some 5%N, st) ∧
    drain (dfs_next TU8 V) 6 st = Ok [2; 3; 7; 0]%N ∧ drain (dfs_next TU8 V) 6 (dfs_reset st) = Ok [0; 5; 2; 3; 7]%N.
Proof. exact parts_case. Qed.
