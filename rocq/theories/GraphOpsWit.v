(** Concrete graphs for C24, C49-C51. *)
From Verif Require Import Base BaseFacts Api Spec SpecFacts SpecOps Map GraphMap ConnComp GraphOps GraphOpsFacts GraphOpsProps ConnSubProps TraverseProps.

Definition op_wit0 : list (gop N N) := [OAddNode 1 (Some 7); OAddNode 2 (Some 8); OAddEdge 1 2 (Some 5); OAddEdge 2 3 None; OAddEdge 4 4 None]%N.
Definition op_wit1 : list (gop N N) := [OAddNode 2 None; OAddEdge 2 3 (Some 6); OAddEdge 3 6 (Some 5)]%N.
Definition op_wit2 : list (gop N N) := [OAddEdge 9 4 None]%N.

Lemma uses_of (s : sstate N N) : forallb (λ p, match p.2 with Some l => bool_decide (l ∈ sp_nls s) | None => true end) (map_to_list (ag_nodes (sp_g s))) = true →
  forallb (λ p, match p.2 with Some l => bool_decide (l ∈ sp_els s) | None => true end) (map_to_list (ag_edges (sp_g s))) = true →
  uses_labels (sp_g s) (sp_nls s) (sp_els s).
Proof.
  intros H1 H2. rewrite forallb_forall in H1, H2. split.
  - intros n l Hn. apply elem_of_map_to_list, elem_of_list_In in Hn. specialize (H1 _ Hn). simpl in H1. by apply bool_decide_eq_true in H1.
  - intros n l Hn. apply elem_of_map_to_list, elem_of_list_In in Hn. specialize (H2 _ Hn). simpl in H2. by apply bool_decide_eq_true in H2.
Qed.
Lemma uses_mono {NL EL} (A : agraph NL EL) nls els nls' els' : uses_labels A nls els → nls ⊆ nls' → els ⊆ els' → uses_labels A nls' els'.
Proof. intros [H1 H2] H3 H4. split; intros k l Hl; [apply H3|apply H4]; eauto. Qed.
Lemma op_wit0_rep dir : represents (run_view dir op_wit0) (sp_g (run_spec dir op_wit0)) ∧ iterates (run_view dir op_wit0).
Proof. destruct (run_view_all dir op_wit0) as (?&?&?&_); [|done]. destruct dir; vm_compute; lia. Qed.
Lemma op_wit1_rep dir : represents (run_view dir op_wit1) (sp_g (run_spec dir op_wit1)) ∧ iterates (run_view dir op_wit1).
Proof. destruct (run_view_all dir op_wit1) as (?&?&?&_); [|done]. destruct dir; vm_compute; lia. Qed.
Lemma op_wit2_rep dir : represents (run_view dir op_wit2) (sp_g (run_spec dir op_wit2)) ∧ iterates (run_view dir op_wit2).
Proof. destruct (run_view_all dir op_wit2) as (?&?&?&_); [|done]. destruct dir; vm_compute; lia. Qed.
Lemma op_wit0_uses dir : uses_labels (sp_g (run_spec dir op_wit0)) [7; 8]%N [5; 6]%N.
Proof. eapply uses_mono; [apply uses_of; destruct dir; by vm_compute|..]; destruct dir; vm_compute; set_solver. Qed.
Lemma op_wit1_uses dir : uses_labels (sp_g (run_spec dir op_wit1)) [7; 8]%N [5; 6]%N.
Proof. eapply uses_mono; [apply uses_of; destruct dir; by vm_compute|..]; destruct dir; vm_compute; set_solver. Qed.

Lemma union_case dir : ∃ (V0 V1 : gview N N) A0 A1, represents V0 A0 ∧ represents V1 A1 ∧ ag_dir A0 = dir ∧ ag_dir A1 = dir ∧
  uses_labels A0 [7; 8]%N [5; 6]%N ∧ uses_labels A1 [7; 8]%N [5; 6]%N ∧
  ag_nodes A0 !! 2%N = Some (Some 8%N) ∧ ag_nodes (a_union A0 A1) !! 2%N = Some None ∧
  a_edge_at A0 2 3 = Some None ∧ a_edge_at (a_union A0 A1) 2 3 = Some (Some 6%N) ∧ a_num_nodes (a_union A0 A1) = 5.
Proof.
  exists (run_view dir op_wit0), (run_view dir op_wit1), (sp_g (run_spec dir op_wit0)), (sp_g (run_spec dir op_wit1)).
  split; [apply op_wit0_rep|]. split; [apply op_wit1_rep|]. split; [by destruct dir|]. split; [by destruct dir|].
  split; [apply op_wit0_uses|]. split; [apply op_wit1_uses|].
  destruct dir; (split; [by vm_compute|]); (split; [by vm_compute|]); (split; [by vm_compute|]); (split; [by vm_compute|]); by vm_compute.
Qed.
Lemma minus_case dir : ∃ (V0 V1 V2 : gview N N) A0 A1, represents V0 A0 ∧ represents V1 A1 ∧ ag_dir A0 = dir ∧
  (∀ n, a_has_node A1 n → ¬ a_has_edge A0 n n) ∧ uses_labels A0 [7; 8]%N [5; 6]%N ∧
  a_has_node A0 2 ∧ a_has_node A1 2 ∧ a_has_edge A0 1 2 ∧ a_has_edge A0 4 4 ∧
  (∃ A2, represents V2 A2) ∧ ∀ lt, graph_minus lt V0 V2 = Panic.
Proof.
  exists (run_view dir op_wit0), (run_view dir op_wit1), (run_view dir op_wit2), (sp_g (run_spec dir op_wit0)), (sp_g (run_spec dir op_wit1)).
  split; [apply op_wit0_rep|]. split; [apply op_wit1_rep|]. split; [by destruct dir|]. split; [|split; [apply op_wit0_uses|]].
  { intros n [l Hn]. assert (n ∈ (map_to_list (ag_nodes (sp_g (run_spec dir op_wit1)))).*1) as Hin.
    { apply elem_of_list_fmap. exists (n, l). split; [done|]. by apply elem_of_map_to_list. }
    assert (Forall (λ n, ¬ a_has_edge (sp_g (run_spec dir op_wit0)) n n) (map_to_list (ag_nodes (sp_g (run_spec dir op_wit1)))).*1) as Hf.
    { apply (bool_decide_unpack _). destruct dir; by vm_compute. }
    rewrite Forall_forall in Hf. by apply Hf. }
  assert (a_has_edge (sp_g (run_spec dir op_wit0)) 4 4) as Hloop.
  { apply (bool_decide_unpack _). destruct dir; by vm_compute. }
  assert (a_has_node (sp_g (run_spec dir op_wit2)) 4) as H4.
  { apply (bool_decide_unpack _). destruct dir; by vm_compute. }
  split; [apply (bool_decide_unpack _); destruct dir; by vm_compute|].
  split; [apply (bool_decide_unpack _); destruct dir; by vm_compute|].
  split; [apply (bool_decide_unpack _); destruct dir; by vm_compute|].
  split; [exact Hloop|]. split; [eexists; apply op_wit2_rep|].
  intros lt. eapply minus_panic; [apply op_wit0_rep|apply op_wit2_rep|exact Hloop|exact H4].
Qed.
Definition cs_wit : list (gop N N) := [OAddNode 1 (Some 7); OAddEdge 1 2 (Some 5); OAddEdge 3 2 None; OAddEdge 8 9 (Some 4); OAddEdge 6 6 None]%N.
Lemma conn_sub_case dir : ∃ (V : gview N N) A, represents V A ∧ iterates V ∧ ag_dir A = dir ∧ (∀ n, ¬ isolated A n) ∧ uses_labels A [7]%N [5; 4]%N ∧
  rmap (λ gs, (λ g : graphmap N N, gm_node_count g) <$> gs) (conn_subgraphs TU8 V) ∈ [Ok [3; 2; 1]; Ok [1; 3; 2]; Ok [3; 1; 2]; Ok [2; 1; 3]; Ok [2; 3; 1]; Ok [1; 2; 3]].
Proof.
  assert (represents (run_view dir cs_wit) (sp_g (run_spec dir cs_wit)) ∧ iterates (run_view dir cs_wit)) as [Hr Hi].
  { destruct (run_view_all dir cs_wit) as (?&?&?&_); [|done]. destruct dir; vm_compute; lia. }
  exists (run_view dir cs_wit), (sp_g (run_spec dir cs_wit)). split; [exact Hr|]. split; [exact Hi|]. split; [by destruct dir|].
  split; [|split].
  - intros n [[l Hn] Hiso]. assert (n ∈ (map_to_list (ag_nodes (sp_g (run_spec dir cs_wit)))).*1) as Hin.
    { apply elem_of_list_fmap. exists (n, l). split; [done|]. by apply elem_of_map_to_list. }
    assert (Forall (λ n, Exists (λ x, a_has_edge (sp_g (run_spec dir cs_wit)) n x ∨ a_has_edge (sp_g (run_spec dir cs_wit)) x n) [1; 2; 3; 6; 8; 9]%N)
      (map_to_list (ag_nodes (sp_g (run_spec dir cs_wit)))).*1) as Hf.
    { apply (bool_decide_unpack _). destruct dir; by vm_compute. }
    rewrite Forall_forall in Hf. specialize (Hf n Hin). apply Exists_exists in Hf as (x & _ & Hx). destruct (Hiso x). tauto.
  - eapply uses_mono; [apply uses_of; destruct dir; by vm_compute|..]; destruct dir; vm_compute; set_solver.
  - apply (bool_decide_unpack _). destruct dir; by vm_compute.
Qed.
Lemma conn_sub_bad : ∃ (V : gview N N) A, represents V A ∧ iterates V ∧ isolated A 4%N ∧ a_has_edge A 1 2.
Proof.
  assert (represents (run_view true [OAddEdge 1 2 None; OAddNode 4 None]%N) (sp_g (run_spec true [OAddEdge 1 2 None; OAddNode 4 None]%N)) ∧ iterates (run_view true [OAddEdge 1 2 None; OAddNode 4 None]%N)) as [Hr Hi].
  { destruct (run_view_all true [OAddEdge 1 2 None; OAddNode 4 None]%N) as (?&?&?&_); [|done]. vm_compute; lia. }
  eexists _, _. split; [exact Hr|]. split; [exact Hi|]. split.
  - assert (∀ x y, a_has_edge (sp_g (run_spec true [OAddEdge 1 2 None; OAddNode 4 None]%N)) x y → x = 1%N ∧ y = 2%N) as Hed.
    { intros x y [l Hl]. unfold a_edge_at in Hl. apply elem_of_map_to_list in Hl.
      assert (Forall (λ p, p.1 = (1, 2)%N) (map_to_list (ag_edges (sp_g (run_spec true [OAddEdge 1 2 None; OAddNode 4 None]%N))))) as Hf.
      { apply (bool_decide_unpack _). by vm_compute. }
      rewrite Forall_forall in Hf. apply Hf in Hl. cbn [fst] in Hl. unfold ekey in Hl.
      assert (ag_dir (sp_g (run_spec true [OAddEdge 1 2 None; OAddNode 4 None]%N)) = true) as Hd by done. rewrite Hd in Hl.
      injection Hl. auto. }
    split; [apply (bool_decide_unpack _); by vm_compute|]. intros x. split; intros He; apply Hed in He; lia.
  - apply (bool_decide_unpack _); by vm_compute.
Qed.
