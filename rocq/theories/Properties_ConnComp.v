(** C45-C48: connected components. [processed h] are the edges processed since the last
    reset in the history [h]; [joined es a b]: both occur in [es] and a path of edges of
    [es], ignoring directions, joins them (SpecConn.v). A history may contain queries,
    which compress paths, anywhere. *)
From Verif Require Import Base Api Spec SpecConn ConnComp ConnCompFacts ConnCompProps.

(** ** C45 *)
Theorem C45_is_connected h c a b : cc_run h cc_empty = Ok c →
  ∃ v c', cc_is_connected a b c = Ok (v, c') ∧ (v = true ↔ joined (processed h) a b).
Proof. intros H. exact (thm_is_connected h c H a b). Qed.
Print Assumptions C45_is_connected.
(** Nothing loops forever, and only get_root of a node never seen can panic. *)
Theorem C45_no_panic h :
  cc_run h cc_empty ≠ NoFuel ∧ (roots_seen_from [] h → ∃ c, cc_run h cc_empty = Ok c).
Proof. exact (thm_no_panic h). Qed.
Print Assumptions C45_no_panic.
(** ConnComp::new on any graph behind the traits: for nodes with an edge, connectivity
    in the graph, directions ignored; get_count counts the components of these nodes. *)
Theorem C45_graph {NL EL} (V : gview NL EL) (A : agraph NL EL) : represents V A → iterates V →
  ∃ c, cc_new V = Ok c ∧
    (∀ a b, ∃ v c', cc_is_connected a b c = Ok (v, c') ∧
       (v = true ↔ has_any_edge A a ∧ has_any_edge A b ∧ rtsc (a_has_edge A) a b)) ∧
    (∀ k, k = cc_get_count c ↔ ∃ reps, length reps = k ∧ NoDup reps ∧ (∀ r, r ∈ reps → has_any_edge A r) ∧
       (∀ r r', r ∈ reps → r' ∈ reps → rtsc (a_has_edge A) r r' → r = r') ∧
       (∀ n, has_any_edge A n → ∃ r, r ∈ reps ∧ rtsc (a_has_edge A) n r)).
Proof. exact (thm_graph V A). Qed.
Print Assumptions C45_graph.
Example C45_case : ∃ c, cc_run cc_wit cc_empty = Ok c ∧ roots_seen_from [] cc_wit ∧ cc_get_count c = 3 ∧
  processed cc_wit = [(1, 2); (3, 4); (2, 3); (8, 8); (9, 7)]%N ∧
  (rmap fst (cc_is_connected 1 4 c) = Ok true) ∧ (rmap fst (cc_is_connected 1 8 c) = Ok false).
Proof. exact cc_wit_case. Qed.
Example C45_graph_case : ∃ (V : gview N N) A, represents V A ∧ iterates V ∧
  (∃ c, cc_new V = Ok c ∧ cc_get_count c = 1) ∧ a_num_nodes A = 5.
Proof. exact cc_wit_graph. Qed.

(** ** C46. The number of components is unique. *)
Theorem C46_count h c : cc_run h cc_empty = Ok c →
  components (processed h) (cc_get_count c) ∧ ∀ k, components (processed h) k → k = cc_get_count c.
Proof. intros H. split; [exact (thm_count h c H)|]. intros k Hk. exact (components_unique _ _ _ Hk (thm_count h c H)). Qed.
Print Assumptions C46_count.

(** ** C47. [keys]: the keys of the HashMap in any order. *)
Theorem C47_connected_nodes h c keys n : cc_run h cc_empty = Ok c →
  lists_exactly keys (λ k, is_Some (cc_parent c !! k)) →
  match cc_get_connected_nodes keys n c with
  | Ok (None, _) => ¬ seen (processed h) n
  | Ok (Some l, _) => seen (processed h) n ∧ lists_exactly l (joined (processed h) n)
  | _ => False
  end.
Proof. intros H. exact (thm_nodes h c H keys n). Qed.
Print Assumptions C47_connected_nodes.
Example C47_case : ∃ c, cc_run [CEdge 1 2; CEdge 3 4; CEdge 2 5]%N cc_empty = Ok c ∧
  lists_exactly [5; 3; 1; 4; 2]%N (λ k, is_Some (cc_parent c !! k)) ∧
  rmap fst (cc_get_connected_nodes [5; 3; 1; 4; 2]%N 1%N c) = Ok (Some [5; 1; 2]%N).
Proof. exact cc_wit_nodes. Qed.

(** ** C48. For a node that was seen. *)
Theorem C48_get_root_partial h c n : cc_run h cc_empty = Ok c → seen (processed h) n →
  ∃ r c', cc_get_root n c = Ok (Some r, c') ∧ joined (processed h) n r ∧
    ∀ n', joined (processed h) n n' ↔ ∃ c'', cc_get_root n' c' = Ok (Some r, c'').
Proof. intros H. exact (thm_root h c H n). Qed.
Print Assumptions C48_get_root_partial.
(** For any other node it panics rather than returning None, whatever happened before. *)
Theorem C48_get_root_unseen_refuted h c n : cc_run h cc_empty = Ok c → ¬ seen (processed h) n →
  cc_get_root n c = Panic.
Proof. intros H. exact (thm_root_missing h c H n). Qed.
Print Assumptions C48_get_root_unseen_refuted.
Example C48_case : (∃ c, cc_run cc_wit cc_empty = Ok c) ∧ seen (processed cc_wit) 9%N ∧ ¬ seen (processed cc_wit) 5%N.
Proof. exact cc_wit_seen. Qed.
