(** C123: the work of a Bfs or Dfs iterated to its end. C40, C42: when they panic. *)
From Verif Require Import Base Api Spec Traverse SpecTraverse TraverseProps SpecTravCost TravCost TravCostProps TravParts TravCostWit.

(** ** C123. The loop over neighbours goes round once for every neighbour of every node; no node waits
    twice; after the last item of a part, next_unvisited_node tests the missing ids below the node
    it finds, and all missing ids at the end. *)
Theorem C123_work {NL EL} (idt : idty) (V : gview NL EL) A (dfs : bool) start s m :
  represents V A → v_max_seen_id V = Ok (Some m) → (m < id_card idt)%N → starts A V start s →
  ∃ c, (∀ fuel, v_node_count V < fuel →
      (if dfs then dfs_cost idt V fuel start else bfs_cost idt V fuel start) = Ok c ∧
      (if dfs then dfs_run idt V fuel start else bfs_run idt V fuel start) = Ok (c_items c)) ∧
    c_peak c ≤ v_node_count V ∧
    (∃ ds, rmapl (v_degree V) (v_node_indices V) = Ok ds ∧ c_looks c = sum_list ds) ∧
    (∃ l, c_items c = s :: l ∧ c_restarts c `sublist_of` l ∧ S (length l) = v_node_count V) ∧
    c_tests c = gaps_below V (m + 1) + sum_list ((λ r, S (gaps_below V r)) <$> c_restarts c).
Proof. exact (work_main idt V A dfs start s m). Qed.
Print Assumptions C123_work.
(** Without missing ids the tests are one per part; with [G] missing ids they can be up to [G] times as
    many, and are when the missing ids come first. *)
Theorem C123_bounds {NL EL} (idt : idty) (V : gview NL EL) A (dfs : bool) start s m c :
  represents V A → v_max_seen_id V = Ok (Some m) → (m < id_card idt)%N → starts A V start s →
  (if dfs then dfs_cost idt V (S (v_node_count V)) start else bfs_cost idt V (S (v_node_count V)) start) = Ok c →
  let G := gaps_below V (m + 1) in let R := length (c_restarts c) in
  G + v_node_count V = N.to_nat (m + 1) ∧ R < v_node_count V ∧ R + G ≤ c_tests c ≤ R + S R * G ∧
  (gaps_first V → c_tests c = R + S R * G) ∧
  ((∀ x y, ¬ a_has_edge A x y) → S R = v_node_count V).
Proof. exact (work_bounds idt V A dfs start s m c). Qed.
Print Assumptions C123_bounds.
(** Every node is reached from the start or from a restart, and no earlier one reaches a later one; so in
    an undirected graph every component has exactly one. *)
Theorem C123_restarts {NL EL} (idt : idty) (V : gview NL EL) A (dfs : bool) start s m :
  represents V A → v_max_seen_id V = Ok (Some m) → (m < id_card idt)%N → starts A V start s →
  ∃ c, (∀ fuel, v_node_count V < fuel → (if dfs then dfs_cost idt V fuel start else bfs_cost idt V fuel start) = Ok c) ∧
    (∀ x, a_has_node A x → ∃ r, r ∈ s :: c_restarts c ∧ reaches A r x) ∧
    (∀ i j a b, (s :: c_restarts c) !! i = Some a → (s :: c_restarts c) !! j = Some b → i < j → ¬ reaches A a b) ∧
    (v_directed V = false → ∀ x, a_has_node A x → ∃ i r, (s :: c_restarts c) !! i = Some r ∧ reaches A r x ∧
       ∀ j r', (s :: c_restarts c) !! j = Some r' → reaches A r' x → j = i).
Proof. exact (parts_main idt V A dfs start s m). Qed.
Print Assumptions C123_restarts.
(** Two parts and three missing ids. *)
Example C123_case (dir dfs : bool) : let V := run_view dir tc_h in let A := sp_g (run_spec dir tc_h) in
  represents V A ∧ v_max_seen_id V = Ok (Some 7%N) ∧ starts A V (Some 5%N) 5%N ∧ gaps_below V 8 = 3 ∧
  (if dfs then dfs_cost TU8 V 6 (Some 5%N) else bfs_cost TU8 V 6 (Some 5%N)) =
    Ok (if dir then Cost [5; 2; 0; 3; 7]%N 4 10 [0; 3; 7]%N 1
        else Cost (if dfs then [5; 2; 0; 3; 7]%N else [5; 0; 2; 3; 7]%N) 7 5 [3]%N 2).
Proof. exact (tc_case dir dfs). Qed.
(** Three nodes, no edges, eleven tests. *)
Example C123_sparse_case (dir dfs : bool) : let V := run_view dir tc_sparse in let A := sp_g (run_spec dir tc_sparse) in
  represents V A ∧ v_max_seen_id V = Ok (Some 5%N) ∧ starts A V (Some 4%N) 4%N ∧ gaps_first V ∧ (∀ x y, ¬ a_has_edge A x y) ∧
  (if dfs then dfs_cost TU8 V 4 (Some 4%N) else bfs_cost TU8 V 4 (Some 4%N)) = Ok (Cost [4; 3; 5]%N 0 11 [3; 5]%N 1).
Proof. exact (tc_sparse_case dir dfs). Qed.

(** ** C40, C42. Bfs and Dfs panic exactly when there is no node to start at: the given one is missing, or
    none is given and there is none. *)
Theorem C40_panics {NL EL} (idt : idty) (V : gview NL EL) A start o fuel :
  represents V A → v_max_seen_id V = Ok o → (∀ m, o = Some m → (m < id_card idt)%N) → v_node_count V < fuel →
  bfs_run idt V fuel start = Panic ↔ ¬ ∃ s, starts A V start s.
Proof. exact (start_panics idt V A false start o fuel). Qed.
Print Assumptions C40_panics.
Theorem C42_panics {NL EL} (idt : idty) (V : gview NL EL) A start o fuel :
  represents V A → v_max_seen_id V = Ok o → (∀ m, o = Some m → (m < id_card idt)%N) → v_node_count V < fuel →
  dfs_run idt V fuel start = Panic ↔ ¬ ∃ s, starts A V start s.
Proof. exact (start_panics idt V A true start o fuel). Qed.
Print Assumptions C42_panics.
(** A missing start between nodes, and the empty graph. *)
Example C40_panics_case (dir : bool) : let V := run_view dir tc_h in let A := sp_g (run_spec dir tc_h) in let E := run_view dir [] in
  represents V A ∧ v_max_seen_id V = Ok (Some 7%N) ∧ ¬ a_has_node A 4%N ∧ bfs_run TU8 V 6 (Some 4%N) = Panic ∧ dfs_run TU8 V 6 (Some 4%N) = Panic ∧
  represents E (sp_g (run_spec dir [])) ∧ v_max_seen_id E = Ok None ∧ bfs_run TU8 E 1 None = Panic ∧ dfs_run TU8 E 1 None = Panic.
Proof. exact (tc_panics dir). Qed.
