(** Concrete cases for C120. *)
From Verif Require Import Base BaseFacts Api Spec Map GraphMap GraphMapProps GraphMapThms ConnComp Traverse TraverseProps ViewOps Reorder SpecHist SpecAlike AlikeProps.

(** Two ways to the same graph. *)
Definition al_h1 : list (gop N N) := [OAddNode 1 (Some 7); OAddNode 2 (Some 8); OAddEdge 1 2 (Some 5); OAddEdge 3 2 None]%N.
Definition al_h2 : list (gop N N) :=
  [OAddEdge 3 2 (Some 6); OAddEdge 9 3 (Some 4); ORemoveNode 9; OAddEdge 1 2 (Some 5); OUpdateEdgeLabel 3 2 None; OAddNode 2 (Some 8); OUpdateNodeLabel 1 (Some 7)]%N.
Definition al_h : list (gop N N) := [OAddEdge 1 2 (Some 6); ORemoveNode 3; OAddNode 2 None; ORemoveEdge 1 2; OAddEdge 2 4 (Some 5)]%N.
Lemma ag_same (A B : agraph N N) : ag_dir A = ag_dir B → bool_decide (ag_nodes A = ag_nodes B) = true → bool_decide (ag_edges A = ag_edges B) = true → A = B.
Proof. destruct A, B; simpl. intros -> H1%bool_decide_eq_true H2%bool_decide_eq_true. by subst. Qed.
Lemma al_views (dir : bool) : let V := run_view dir al_h1 in let W := run_view dir al_h2 in
  ∃ A, represents V A ∧ represents W A ∧ iterates V ∧ iterates W ∧ look_alike V W.
Proof.
  intros V W. assert (fits_u8 dir al_h1) as F1 by (destruct dir; vm_compute; lia). assert (fits_u8 dir al_h2) as F2 by (destruct dir; vm_compute; lia).
  destruct (run_view_all dir al_h1 F1) as (V1 & _ & V3 & _). destruct (run_view_all dir al_h2 F2) as (W1 & _ & W3 & _).
  assert (sp_g (run_spec dir al_h2) = sp_g (run_spec dir al_h1)) as E by (apply ag_same; destruct dir; vm_compute; reflexivity).
  rewrite E in W1. exists (sp_g (run_spec dir al_h1)).
  split; [exact V1|]. split; [exact W1|]. split; [exact V3|]. split; [exact W3|]. exact (eq_alike _ _ _ V1 W1).
Qed.
Lemma al_case (dir : bool) : ∃ rs1 rs2 g1 g2, gm_run dir TU8 al_h1 (gm_with_label_map [] []) = Ok (rs1, g1) ∧ gm_run dir TU8 al_h2 (gm_with_label_map [] []) = Ok (rs2, g2) ∧
  labels_fit TU8 (g_nlm g1) ∧ labels_fit TU8 (g_elm g1) ∧ labels_fit TU8 (g_nlm g2) ∧ labels_fit TU8 (g_elm g2) ∧
  look_alike (gm_view dir (map_to_list (g_nodes g1)).*1 g1) (gm_view dir (map_to_list (g_nodes g2)).*1 g2) ∧
  g_nlm g1 = [7; 8]%N ∧ g_nlm g2 = [8; 7]%N ∧ g_elm g1 = [5]%N ∧ g_elm g2 = [6; 4; 5]%N ∧ gm_edge_count g1 = 2 ∧ gm_edge_count g2 = 3 ∧
  rmap fst (gm_run dir TU8 al_h g1) = Ok [RBool false; RNode (Some (3, None)); RBool false; REdge (Some (1, 2, Some 6)); RBool true]%N ∧
  rmap fst (gm_run dir TU8 al_h g2) = Ok [RBool false; RNode (Some (3, None)); RBool false; REdge (Some (1, 2, Some 6)); RBool true]%N.
Proof.
  destruct (al_views dir) as (A & _ & _ & _ & _ & L).
  assert (∃ rs, gm_run dir TU8 al_h1 (gm_with_label_map [] []) = Ok (rs, run_gm dir al_h1)) as [rs1 E1] by (destruct dir; eexists; vm_compute; reflexivity).
  assert (∃ rs, gm_run dir TU8 al_h2 (gm_with_label_map [] []) = Ok (rs, run_gm dir al_h2)) as [rs2 E2] by (destruct dir; eexists; vm_compute; reflexivity).
  exists rs1, rs2, (run_gm dir al_h1), (run_gm dir al_h2). split; [exact E1|]. split; [exact E2|]. clear E1 E2.
  split; [destruct dir; vm_compute; done|]. split; [destruct dir; vm_compute; done|]. split; [destruct dir; vm_compute; done|]. split; [destruct dir; vm_compute; done|].
  split; [exact L|]. clear L.
  do 7 (split; [destruct dir; vm_compute; reflexivity|]). destruct dir; vm_compute; reflexivity.
Qed.
Lemma al_algorithms (dir : bool) : ∃ (V V' : gview N N) A A', represents V A ∧ represents V' A' ∧ iterates V ∧ iterates V' ∧ look_alike V V' ∧
  v_max_seen_id V = Ok (Some 3%N) ∧ v_max_seen_id V' = Ok (Some 9%N) ∧ v_has_node V 3 = true ∧ v_edge_count V ≠ v_edge_count V' ∧ v_node_label_map V ≠ v_node_label_map V' ∧
  bfs_run TU8 V 5 (Some 3%N) = Ok [3; 2; 1]%N.
Proof.
  destruct (al_views dir) as (A & H1 & H2 & H3 & H4 & H5). exists (run_view dir al_h1), (run_view dir al_h2), A, A.
  split; [exact H1|]. split; [exact H2|]. split; [exact H3|]. split; [exact H4|]. split; [exact H5|]. clear.
  do 5 (split; [destruct dir; vm_compute; first [reflexivity|discriminate]|]). destruct dir; vm_compute; reflexivity.
Qed.
Lemma al_equal_case (dir : bool) : ∃ (V V' : gview N N) A, represents V A ∧ represents V' A ∧ exact_count V A ∧ exact_count V' A ∧ v_equal V V' = Ok true ∧ v_node_label_map V ≠ v_node_label_map V'.
Proof.
  assert (fits_u8 dir al_h1) as F1 by (destruct dir; vm_compute; lia). assert (fits_u8 dir (al_h2 ++ [ORefineEdgeCount])) as F2 by (destruct dir; vm_compute; lia).
  destruct (run_view_all dir al_h1 F1) as (V1 & _). destruct (run_view_all dir _ F2) as (W1 & _).
  assert (sp_g (run_spec dir (al_h2 ++ [ORefineEdgeCount])) = sp_g (run_spec dir al_h1)) as E by (apply ag_same; destruct dir; vm_compute; reflexivity).
  rewrite E in W1. exists (run_view dir al_h1), (run_view dir (al_h2 ++ [ORefineEdgeCount])), (sp_g (run_spec dir al_h1)).
  split; [exact V1|]. split; [exact W1|]. clear.
  split; [destruct dir; vm_compute; reflexivity|]. split; [destruct dir; vm_compute; reflexivity|]. split; [destruct dir; vm_compute; reflexivity|].
  destruct dir; vm_compute; discriminate.
Qed.
(** reorder_id numbers nodes of the same degree in the order of the hash map. *)
Definition al_g (dir : bool) : graphmap N N := run_gm dir [OAddNode 3 (Some 7); OAddNode 8 (Some 9)]%N.
Lemma al_reorder (dir : bool) : gm_reachable dir TU8 (al_g dir) ∧ hash_order (al_g dir) [3; 8]%N ∧ hash_order (al_g dir) [8; 3]%N ∧
  rmap rr_map (gm_reorder_id dir TU8 TU8 [3; 8]%N [] [] true false false (al_g dir)) = Ok (Some [3; 8]%N) ∧
  rmap rr_map (gm_reorder_id dir TU8 TU8 [8; 3]%N [] [] true false false (al_g dir)) = Ok (Some [8; 3]%N).
Proof.
  assert (fits_u8 dir [OAddNode 3 (Some 7); OAddNode 8 (Some 9)]%N) as F1 by (destruct dir; vm_compute; lia).
  destruct (run_view_all dir _ F1) as (_ & _ & _ & _ & _ & _ & R). split; [exact R|]. clear F1 R.
  assert (∀ l, l ≡ₚ [3; 8]%N → hash_order (al_g dir) l) as HO.
  { intros l Hl. unfold hash_order. rewrite Hl. apply NoDup_Permutation; [apply (bool_decide_unpack _); vm_compute; exact I|apply NoDup_fst_map_to_list|].
    assert ([3; 8]%N ≡ₚ (map_to_list (g_nodes (al_g dir))).*1) as HP.
    { assert ((map_to_list (g_nodes (al_g dir))).*1 = [3; 8]%N ∨ (map_to_list (g_nodes (al_g dir))).*1 = [8; 3]%N) as [-> | ->]
        by (destruct dir; vm_compute; auto); [done|constructor]. }
    intros x. by rewrite HP. }
  split; [apply HO; done|]. split; [apply HO; constructor|]. split; destruct dir; vm_compute; reflexivity.
Qed.

(** Two ways to the nodes 0 and 1. *)
Definition al_k1 : list (gop N N) := [OAddEdge 0 1 (Some 5); OAddNode 1 (Some 7)]%N.
Definition al_k2 : list (gop N N) := [OAddNode 1 (Some 8); OUpdateNodeLabel 1 (Some 7); OAddEdge 0 1 (Some 5)]%N.
Lemma al_static (dir : bool) : ∃ (g g' : graphmap N N) ord ord' A A', represents (gm_view dir ord g) A ∧ represents (gm_view dir ord' g') A' ∧
  look_alike (gm_view dir ord g) (gm_view dir ord' g') ∧ a_has_node A 1 ∧ (∀ n, a_has_node A n → (n < id_max TU8)%N) ∧
  (∀ n m, a_has_node A n → (m < n)%N → a_has_node A m) ∧ g_nlm g = [7]%N ∧ g_nlm g' = [8; 7]%N.
Proof.
  exists (run_gm dir al_k1), (run_gm dir al_k2), (map_to_list (g_nodes (run_gm dir al_k1))).*1, (map_to_list (g_nodes (run_gm dir al_k2))).*1.
  exists (sp_g (run_spec dir al_k1)), (sp_g (run_spec dir al_k2)).
  assert (fits_u8 dir al_k1) as F1 by (destruct dir; vm_compute; lia). assert (fits_u8 dir al_k2) as F2 by (destruct dir; vm_compute; lia).
  destruct (run_view_all dir _ F1) as (V1 & _). destruct (run_view_all dir _ F2) as (W1 & _).
  assert (sp_g (run_spec dir al_k1) = sp_g (run_spec dir al_k2)) as E by (apply ag_same; destruct dir; vm_compute; reflexivity).
  split; [exact V1|]. split; [exact W1|]. split; [rewrite <- E in W1; exact (eq_alike _ _ _ V1 W1)|].
  assert (∀ n, a_has_node (sp_g (run_spec dir al_k1)) n ↔ (n = 0 ∨ n = 1)%N) as HN.
  { intros n. assert (ag_nodes (sp_g (run_spec dir al_k1)) = {[0 := None; 1 := Some 7]}%N) as E1
      by (apply (bool_decide_unpack _); destruct dir; vm_compute; exact I).
    unfold a_has_node. rewrite E1. split.
    - intros [y Hy]. apply lookup_insert_Some in Hy as [[<- _]|[_ Hy]]; [by left|]. apply lookup_singleton_Some in Hy as [<- _]. by right.
    - intros [-> | ->]; vm_compute; eauto. }
  split; [apply HN; by right|]. split; [intros n [-> | ->]%HN; vm_compute; reflexivity|].
  split; [intros n m Hn Hm; apply HN; apply HN in Hn; lia|]. split; destruct dir; vm_compute; reflexivity.
Qed.
