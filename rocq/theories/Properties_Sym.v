(** C118: an undirected graph is the directed graph with every edge in both directions.
    [both_ways o] are the directed calls that stand for the undirected call [o];
    [stands_for D U]: the directed [D] answers the queries as the undirected [U] does
    (SpecSym.v). *)
From Verif Require Import Base Api Spec GraphMap ConnComp SpecConnGrow Traverse SpecSym SymProps SymWit.

(** ** C118. Whatever calls built the undirected graph, the directed graph built by the
    same calls done both ways returned the same values and answers the same. *)
Theorem C118_history {NL EL} `{EqDecision NL, EqDecision EL} lt (nls : list NL) (els : list EL) h rs s :
  NoDup nls → NoDup els → spec_run h (s_init false nls els) = SOk (rs, s) →
  labels_fit lt (sp_nls s) → labels_fit lt (sp_els s) →
  ∃ g g' rs', gm_run false lt h (gm_with_label_map nls els) = Ok (rs, g) ∧
    gm_run true lt (h ≫= both_ways) (gm_with_label_map nls els) = Ok (rs', g') ∧ first_answers h rs' = rs ∧
    ∀ it it', hash_order g it → hash_order g' it' → stands_for (gm_view true it' g') (gm_view false it g).
Proof. exact (sym_history lt nls els h rs s). Qed.
Print Assumptions C118_history.
(** One of them panics when the other does. *)
Theorem C118_panic {NL EL} `{EqDecision NL, EqDecision EL} lt (nls : list NL) (els : list EL) h : NoDup nls → NoDup els →
  gm_run true lt (h ≫= both_ways) (gm_with_label_map nls els) = Panic ↔ gm_run false lt h (gm_with_label_map nls els) = Panic.
Proof. exact (sym_panic lt nls els h). Qed.
Print Assumptions C118_panic.
Example C118_case : ∃ rs s, spec_run sy_h (s_init false [] []) = SOk (rs, s) ∧ labels_fit TU8 (sp_nls s) ∧ labels_fit TU8 (sp_els s) ∧
  nth_error rs 4 = Some (RBool false) ∧ nth_error rs 7 = Some (REdge (Some (5, 6, None)%N)) ∧ nth_error rs 8 = Some (REdge None) ∧
  length (sy_h ≫= both_ways) = 19 ∧ a_num_edges (sp_g s) = 4 ∧ a_num_nodes (sp_g s) = 6.
Proof. exact sy_case. Qed.
Example C118_panic_case : gm_run true TU8 ([OAddEdge 1 2 None; OAddEdge 2 2 None; ORemoveNode 2]%N ≫= both_ways) (gm_new : graphmap N N) = Panic.
Proof. exact sy_panic_case. Qed.
(** Any two graphs behind the traits of which one stands for the other: from the same
    start Bfs and Dfs yield the same nodes in the same order, *)
Theorem C118_traversals {NL EL} `{EqDecision NL, EqDecision EL} idt (U D : gview NL EL) A B (s : N) :
  represents U A → represents D B → stands_for D U →
  (∀ m, v_max_seen_id U = Ok (Some m) → (m < id_card idt)%N) → v_has_node U s = true →
  (∃ l, ∀ fuel, v_node_count U < fuel → bfs_run idt U fuel (Some s) = Ok l ∧ bfs_run idt D fuel (Some s) = Ok l) ∧
  (∃ l, ∀ fuel, v_node_count U < fuel → dfs_run idt U fuel (Some s) = Ok l ∧ dfs_run idt D fuel (Some s) = Ok l).
Proof. exact (sym_traversals idt U D A B s). Qed.
Print Assumptions C118_traversals.
(** and ConnComp finds the same components. *)
Theorem C118_components {NL EL} `{EqDecision NL, EqDecision EL} (U D : gview NL EL) A B :
  represents U A → represents D B → iterates U → iterates D → stands_for D U →
  ∃ c c', cc_new U = Ok c ∧ cc_new D = Ok c' ∧ cc_get_count c' = cc_get_count c ∧ ∀ a b, connected c' a b ↔ connected c a b.
Proof. exact (sym_components U D A B). Qed.
Print Assumptions C118_components.
Example C118_algorithms_case : ∃ (U D : gview N N) A B, represents U A ∧ represents D B ∧ iterates U ∧ iterates D ∧ stands_for D U ∧
  v_max_seen_id U = Ok (Some 7%N) ∧ v_has_node U 4 = true ∧ v_node_count U = 6 ∧
  bfs_run TU8 D 7 (Some 4%N) = Ok [4; 1; 2; 3; 5; 7]%N ∧ dfs_run TU8 D 7 (Some 4%N) = Ok [4; 2; 1; 3; 5; 7]%N ∧
  (∃ c, cc_new D = Ok c ∧ cc_get_count c = 3).
Proof. exact sy_alg_case. Qed.
