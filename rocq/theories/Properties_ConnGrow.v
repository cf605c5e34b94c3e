(** C113: ConnComps kept while edges come and go. [connected c a b]: is_connected returns true;
    [known c n]: get_parent knows the node; [cc_alike]: two ConnComps answer every query alike;
    [same_links]: the same edges, in any order, number and direction (SpecConnGrow.v). *)
From Verif Require Import Base Api Spec SpecConn ConnComp Map GraphMap TraverseProps AgreeWit SpecConnGrow ConnGrowProps ConnGrowWit.

(** ** C113. Neither the order of the edges nor their number, directions or the queries in between matter. *)
Theorem C113_same_edges h h' c c' : cc_run h cc_empty = Ok c → cc_run h' cc_empty = Ok c' →
  same_links (processed h) (processed h') → cc_alike c c'.
Proof. exact (hist_alike h h' c c'). Qed.
Print Assumptions C113_same_edges.
Example C113_same_case : (∃ c c', cc_run [CEdge 1 2; CConnected 1 3; CEdge 3 2; CEdge 5 6]%N cc_empty = Ok c ∧
    cc_run [CEdge 6 5; CEdge 2 1; CRoot 6; CEdge 2 3; CEdge 1 2]%N cc_empty = Ok c' ∧ c ≠ c') ∧
  same_links (processed [CEdge 1 2; CConnected 1 3; CEdge 3 2; CEdge 5 6]%N) (processed [CEdge 6 5; CEdge 2 1; CRoot 6; CEdge 2 3; CEdge 1 2]%N).
Proof.
  split; [eexists _, _; split; [by vm_compute|]; split; [by vm_compute|]; intros [= H]; revert H; by vm_compute|].
  intros x y. unfold linked, processed. cbn [processed_from app]. rewrite !elem_of_cons. set_solver.
Qed.
(** What one more edge changes. A component is merged, extended by one node, or new. *)
Theorem C113_one_more h c x y : cc_run h cc_empty = Ok c → ∃ c', cc_process x y c = Ok c' ∧
  (∀ a b, let near n := n = x ∨ n = y ∨ connected c x n ∨ connected c y n in connected c' a b ↔ connected c a b ∨ (near a ∧ near b)) ∧
  (∀ n, known c' n ↔ known c n ∨ n = x ∨ n = y) ∧
  (known c x → known c y → connected c x y → cc_get_count c' = cc_get_count c) ∧
  (known c x → known c y → ¬ connected c x y → S (cc_get_count c') = cc_get_count c) ∧
  (known c x → ¬ known c y → cc_get_count c' = cc_get_count c) ∧
  (¬ known c x → known c y → cc_get_count c' = cc_get_count c) ∧
  (¬ known c x → ¬ known c y → cc_get_count c' = S (cc_get_count c)).
Proof. exact (hist_process h c x y). Qed.
Print Assumptions C113_one_more.
(** A ConnComp made from a GraphMap and told about every add_edge since answers as a new one
    made now: [h] are any calls that remove nothing, in any order. *)
Theorem C113_grow {NL EL} `{EqDecision NL, EqDecision EL} (dir : bool) (lt : idty) (h : list (gop NL EL)) (g : graphmap NL EL) rs g' ord ord' c :
  gm_reachable dir lt g → hash_order g ord → cc_new (gm_view dir ord g) = Ok c →
  Forall (λ o, removes o = false) h → gm_run dir lt h g = Ok (rs, g') → hash_order g' ord' →
  ∃ c1 c2, cc_run ((λ e, CEdge e.1 e.2) <$> edges_added h) c = Ok c1 ∧ cc_new (gm_view dir ord' g') = Ok c2 ∧ cc_alike c1 c2.
Proof. exact (grown dir lt h g rs g' ord ord' c). Qed.
Print Assumptions C113_grow.
Example C113_grow_case dir : gm_reachable dir TU8 (run_gm dir ag_h) ∧ hash_order (run_gm dir ag_h) (map_to_list (g_nodes (run_gm dir ag_h))).*1 ∧
  Forall (λ o, removes o = false) cg_h ∧ (∃ rs g', gm_run dir TU8 cg_h (run_gm dir ag_h) = Ok (rs, g')) ∧
  rmap cc_get_count (cc_new (run_view dir ag_h)) = Ok 2 ∧
  rmap cc_get_count (let* c := cc_new (run_view dir ag_h) in cc_run ((λ e, CEdge e.1 e.2) <$> edges_added cg_h) c) = Ok 2 ∧
  rmap cc_get_count (cc_new (run_view dir (ag_h ++ cg_h))) = Ok 2 ∧
  (let* c := cc_new (run_view dir ag_h) in rmap fst (cc_is_connected 0 7 c)) = Ok false ∧
  (let* c := cc_new (run_view dir (ag_h ++ cg_h)) in rmap fst (cc_is_connected 0 7 c)) = Ok true.
Proof. exact (cg_case dir). Qed.
(** It cannot be told about removals. After calls that add no edge, an older ConnComp errs on one
    side only: whatever a new one connects or knows, it does too. *)
Theorem C113_shrink {NL EL} `{EqDecision NL, EqDecision EL} (dir : bool) (lt : idty) (h : list (gop NL EL)) (g : graphmap NL EL) rs g' ord ord' c :
  gm_reachable dir lt g → hash_order g ord → cc_new (gm_view dir ord g) = Ok c →
  Forall (λ o, adds_edge o = false) h → gm_run dir lt h g = Ok (rs, g') → hash_order g' ord' →
  ∃ c2, cc_new (gm_view dir ord' g') = Ok c2 ∧ (∀ a b, connected c2 a b → connected c a b) ∧ (∀ n, known c2 n → known c n).
Proof. exact (shrunk dir lt h g rs g' ord ord' c). Qed.
Print Assumptions C113_shrink.
Example C113_shrink_case dir : Forall (λ o, adds_edge o = false) cg_r ∧ (∃ rs g', gm_run dir TU8 cg_r (run_gm dir ag_h) = Ok (rs, g')) ∧
  rmap cc_get_count (cc_new (run_view dir (ag_h ++ cg_r))) = Ok 1 ∧
  (let* c := cc_new (run_view dir ag_h) in rmap fst (cc_is_connected 0 2 c)) = Ok true ∧
  (let* c := cc_new (run_view dir (ag_h ++ cg_r)) in rmap fst (cc_is_connected 0 2 c)) = Ok false ∧
  (let* c := cc_new (run_view dir (ag_h ++ cg_r)) in rmap fst (cc_is_connected 5 2 c)) = Ok true.
Proof. exact (cg_case_r dir). Qed.
(** run_detection on several graphs in turn, of any implementation and direction: two nodes are
    connected when the edges of all the graphs together join them. *)
Theorem C113_several {NL EL} (Vs : list (gview NL EL)) As : Forall2 (λ V A, represents V A ∧ iterates V) Vs As →
  ∃ c, rfold (λ c V, cc_run_detection V c) Vs cc_empty = Ok c ∧
    (∀ n, known c n ↔ ∃ m, any_edge As n m ∨ any_edge As m n) ∧
    (∀ a b, connected c a b ↔ known c a ∧ known c b ∧ rtsc (any_edge As) a b).
Proof. exact (several Vs As). Qed.
Print Assumptions C113_several.
Example C113_several_case : ∃ (V V' : gview N N) A A', Forall2 (λ V A, represents V A ∧ iterates V) [V; V'] [A; A'] ∧ a_num_edges A = 3 ∧ a_num_edges A' = 3.
Proof. exact cg_two. Qed.
