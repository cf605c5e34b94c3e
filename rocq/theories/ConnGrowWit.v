(** Concrete cases for ConnComps kept while edges come and go. *)
From Verif Require Import Base BaseFacts Api Spec SpecConn ConnComp Map GraphMap TraverseProps AgreeWit SpecConnGrow.

(** add_edge(2, 3) joins the two components of [ag_h], add_edge(8, 9) makes a new one, (2, 0) closes a circle. *)
Definition cg_h : list (gop N N) := [OAddEdge 2%N 3%N None; OAddNode 4%N None; OAddEdge 8%N 9%N None; OUpdateEdgeLabel 8%N 9%N (Some 1%N); OAddEdge 2%N 0%N None].
Definition cg_r : list (gop N N) := [ORemoveEdge 0%N 5%N; ORemoveNode 7%N].
Lemma cg_reach dir : gm_reachable dir TU8 (run_gm dir ag_h) ∧ hash_order (run_gm dir ag_h) (map_to_list (g_nodes (run_gm dir ag_h))).*1.
Proof.
  assert (fits_u8 dir ag_h) as Hf by (destruct dir; vm_compute; lia). destruct (run_view_all dir ag_h Hf) as (_ & _ & _ & _ & _ & _ & Hr).
  split; [exact Hr|unfold hash_order; reflexivity].
Qed.
Lemma cg_case dir : gm_reachable dir TU8 (run_gm dir ag_h) ∧ hash_order (run_gm dir ag_h) (map_to_list (g_nodes (run_gm dir ag_h))).*1 ∧
  Forall (λ o, removes o = false) cg_h ∧ (∃ rs g', gm_run dir TU8 cg_h (run_gm dir ag_h) = Ok (rs, g')) ∧
  rmap cc_get_count (cc_new (run_view dir ag_h)) = Ok 2 ∧
  rmap cc_get_count (let* c := cc_new (run_view dir ag_h) in cc_run ((λ e, CEdge e.1 e.2) <$> edges_added cg_h) c) = Ok 2 ∧
  rmap cc_get_count (cc_new (run_view dir (ag_h ++ cg_h))) = Ok 2 ∧
  (let* c := cc_new (run_view dir ag_h) in rmap fst (cc_is_connected 0 7 c)) = Ok false ∧
  (let* c := cc_new (run_view dir (ag_h ++ cg_h)) in rmap fst (cc_is_connected 0 7 c)) = Ok true.
Proof.
  destruct (cg_reach dir) as [H1 H2]. split; [exact H1|]. split; [exact H2|]. split; [by repeat constructor|]. split.
  { destruct dir; (eexists _, _; vm_compute; reflexivity). }
  destruct dir; split_and!; by vm_compute.
Qed.
Lemma cg_case_r dir : Forall (λ o, adds_edge o = false) cg_r ∧ (∃ rs g', gm_run dir TU8 cg_r (run_gm dir ag_h) = Ok (rs, g')) ∧
  rmap cc_get_count (cc_new (run_view dir (ag_h ++ cg_r))) = Ok 1 ∧
  (let* c := cc_new (run_view dir ag_h) in rmap fst (cc_is_connected 0 2 c)) = Ok true ∧
  (let* c := cc_new (run_view dir (ag_h ++ cg_r)) in rmap fst (cc_is_connected 0 2 c)) = Ok false ∧
  (let* c := cc_new (run_view dir (ag_h ++ cg_r)) in rmap fst (cc_is_connected 5 2 c)) = Ok true.
Proof.
  split; [by repeat constructor|]. split.
  { destruct dir; (eexists _, _; vm_compute; reflexivity). }
  destruct dir; split_and!; by vm_compute.
Qed.
Lemma cg_two : ∃ (V V' : gview N N) A A', Forall2 (λ V A, represents V A ∧ iterates V) [V; V'] [A; A'] ∧ a_num_edges A = 3 ∧ a_num_edges A' = 3.
Proof.
  assert (fits_u8 false ag_h) as Hf by (vm_compute; lia). destruct (run_view_all false ag_h Hf) as (H1 & _ & H2 & _).
  assert (fits_u8 true cg_h) as Hf' by (vm_compute; lia). destruct (run_view_all true cg_h Hf') as (H1' & _ & H2' & _).
  eexists _, _, _, _. split; [constructor; [split; [exact H1|exact H2]|constructor; [split; [exact H1'|exact H2']|constructor]]|]. by vm_compute.
Qed.
