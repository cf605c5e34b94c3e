(** Concrete graphs for C20-C24 and C60. *)
From Verif Require Import Base BaseFacts Api Spec SpecFacts SpecOps ViewOps ViewOpsProps Map GraphMap GraphOps GraphOpsWit TraverseProps.

#[local] Instance agraph_eq_dec : EqDecision (agraph N N).
Proof. solve_decision. Defined.
Definition eq_wit0 : list (gop N N) := [OAddNode 1 (Some 7); OAddEdge 1 2 (Some 5)]%N.
Definition eq_wit1 : list (gop N N) := [OAddNode 1 (Some 7); OAddEdge 1 2 (Some 5); OAddEdge 2 3 None; OAddNode 4 (Some 7)]%N.
(** The same graph as [eq_wit1], made in another order with another label map. *)
Definition eq_wit2 : list (gop N N) := [OAddNode 9 (Some 8); OAddNode 4 (Some 7); OAddEdge 2 3 None; ORemoveNode 9; OAddEdge 1 2 (Some 5); OAddNode 1 (Some 7)]%N.
(** The same graph as [eq_wit0] with an edge added twice. *)
Definition eq_wit3 : list (gop N N) := [OAddNode 1 (Some 7); OAddEdge 1 2 (Some 6); OAddEdge 1 2 (Some 5)]%N.
Definition in_eq_wits (h : list (gop N N)) : Prop := h = eq_wit0 ∨ h = eq_wit1 ∨ h = eq_wit2 ∨ h = eq_wit3.
Lemma eq_wit_rep dir h : in_eq_wits h → represents (run_view dir h) (sp_g (run_spec dir h)) ∧ v_edge_count (run_view dir h) = sp_count (run_spec dir h).
Proof.
  intros Hh. destruct (run_view_all dir h) as (?&?&?&?&_); [|done].
  destruct Hh as [-> | [-> | [-> | ->]]]; destruct dir; vm_compute; lia.
Qed.
Lemma eq_wit_exact dir h : in_eq_wits h → h ≠ eq_wit3 → exact_count (run_view dir h) (sp_g (run_spec dir h)).
Proof.
  intros Hh Hn. unfold exact_count. destruct Hh as [-> | [-> | [-> | ->]]]; [..|done]; destruct dir; by vm_compute.
Qed.
Lemma eq_wit_same dir : sp_g (run_spec dir eq_wit1) = sp_g (run_spec dir eq_wit2).
Proof. apply (bool_decide_unpack _). destruct dir; by vm_compute. Qed.
Lemma eq_wit_same3 dir : sp_g (run_spec dir eq_wit0) = sp_g (run_spec dir eq_wit3).
Proof. apply (bool_decide_unpack _). destruct dir; by vm_compute. Qed.

Lemma eq_refuted dir : ∃ (V V' : gview N N) A A' h h', represents V A ∧ represents V' A' ∧ ag_dir A = dir ∧ ag_dir A' = dir ∧
  exact_count V A ∧ exact_count V' A' ∧
  graph_eq V V' = Ok true ∧ graph_eq V' V = Ok false ∧ A ≠ A' ∧ graph_hash V = Ok h ∧ graph_hash V' = Ok h' ∧ h ≠ h'.
Proof.
  destruct (eq_wit_rep dir eq_wit0) as [H0 _]; [by left|]. destruct (eq_wit_rep dir eq_wit1) as [H1 _]; [by right; left|].
  destruct (rp_edge_indices _ _ H0) as (es0 & Hes0 & _). destruct (rp_edge_indices _ _ H1) as (es1 & Hes1 & _).
  exists (run_view dir eq_wit0), (run_view dir eq_wit1), (sp_g (run_spec dir eq_wit0)), (sp_g (run_spec dir eq_wit1)).
  eexists _, _. split; [exact H0|]. split; [exact H1|]. split; [by destruct dir|]. split; [by destruct dir|].
  split; [apply eq_wit_exact; [by left|done]|]. split; [apply eq_wit_exact; [by right; left|done]|].
  split; [destruct dir; by vm_compute|]. split; [destruct dir; by vm_compute|].
  split. { intros Heq. assert (a_num_nodes (sp_g (run_spec dir eq_wit0)) = 2) as Hs by (destruct dir; by vm_compute).
    rewrite Heq in Hs. destruct dir; by vm_compute in Hs. }
  split; [exact (hash_run _ _ es0 H0 Hes0)|]. split; [exact (hash_run _ _ es1 H1 Hes1)|].
  unfold h_stream, h_vec. cbn [app]. intros [=Hl _]. unfold sorted_ids in Hl. rewrite !merge_sort_Permutation in Hl.
  pose proof (rp_node_count _ _ H0) as C0. pose proof (rp_node_count _ _ H1) as C1.
  rewrite (lists_exactly_length _ (ag_nodes (sp_g (run_spec dir eq_wit0)))) in Hl by apply (rp_node_indices _ _ H0).
  rewrite (lists_exactly_length _ (ag_nodes (sp_g (run_spec dir eq_wit1)))) in Hl by apply (rp_node_indices _ _ H1).
  clear -Hl. destruct dir; vm_compute in Hl; discriminate Hl.
Qed.
Lemma eq_case dir : ∃ (V V' : gview N N) A A', represents V A ∧ represents V' A' ∧ ag_dir A = ag_dir A' ∧ ag_dir A = dir ∧
  exact_count V A ∧ exact_count V' A' ∧ a_num_edges A = 2 ∧ a_num_nodes A = 4 ∧ V ≠ V' ∧ A = A' ∧ graph_eq V V' = Ok true ∧ v_equal V V' = Ok true.
Proof.
  destruct (eq_wit_rep dir eq_wit1) as [H0 _]; [by right; left|]. destruct (eq_wit_rep dir eq_wit2) as [H1 _]; [by right; right; left|].
  exists (run_view dir eq_wit1), (run_view dir eq_wit2), (sp_g (run_spec dir eq_wit1)), (sp_g (run_spec dir eq_wit2)).
  split; [exact H0|]. split; [exact H1|]. split; [by destruct dir|]. split; [by destruct dir|].
  split; [apply eq_wit_exact; [by right; left|done]|]. split; [apply eq_wit_exact; [by right; right; left|done]|].
  split; [destruct dir; by vm_compute|]. split; [destruct dir; by vm_compute|].
  split; [|split; [apply eq_wit_same|]; split; destruct dir; by vm_compute].
  intros Heq. assert (v_node_label_map (run_view dir eq_wit1) = [7]%N) as Hm by (destruct dir; by vm_compute).
  rewrite Heq in Hm. destruct dir; by vm_compute in Hm.
Qed.
Lemma unequal_case dir : ∃ (V V' : gview N N) A A', represents V A ∧ represents V' A' ∧ ag_dir A = dir ∧ ag_dir A' = dir ∧
  exact_count V A ∧ exact_count V' A' ∧ v_equal V V' = Ok false.
Proof.
  destruct (eq_wit_rep dir eq_wit0) as [H0 _]; [by left|]. destruct (eq_wit_rep dir eq_wit1) as [H1 _]; [by right; left|].
  exists (run_view dir eq_wit0), (run_view dir eq_wit1), (sp_g (run_spec dir eq_wit0)), (sp_g (run_spec dir eq_wit1)).
  split; [exact H0|]. split; [exact H1|]. split; [by destruct dir|]. split; [by destruct dir|].
  split; [apply eq_wit_exact; [by left|done]|]. split; [apply eq_wit_exact; [by right; left|done]|]. destruct dir; by vm_compute.
Qed.
Lemma clone_case dir : ∃ (V V' : gview N N) A A', represents V A ∧ represents V' A' ∧ ag_dir A = dir ∧ ag_dir A' = dir ∧
  uses_labels A [7]%N [5]%N ∧ uses_labels A' [7]%N [5]%N ∧ exact_count V A ∧ ¬ exact_count V' A' ∧ a_num_edges A = 2.
Proof.
  destruct (eq_wit_rep dir eq_wit1) as [H0 _]; [by right; left|]. destruct (eq_wit_rep dir eq_wit3) as [H1 _]; [by right; right; right|].
  exists (run_view dir eq_wit1), (run_view dir eq_wit3), (sp_g (run_spec dir eq_wit1)), (sp_g (run_spec dir eq_wit3)).
  split; [exact H0|]. split; [exact H1|]. split; [by destruct dir|]. split; [by destruct dir|].
  split; [eapply uses_mono; [apply uses_of; destruct dir; by vm_compute|..]; destruct dir; vm_compute; set_solver|].
  split. { rewrite <- eq_wit_same3. eapply uses_mono; [apply uses_of; destruct dir; by vm_compute|..]; destruct dir; vm_compute; set_solver. }
  split; [apply eq_wit_exact; [by right; left|done]|]. split; [|destruct dir; by vm_compute].
  unfold exact_count. destruct dir; by vm_compute.
Qed.
Lemma counter_case dir : ∃ (V : gview N N) A, represents V A ∧ ag_dir A = dir ∧
  rmap (counter_get 7%N) (v_node_label_counter V) = Ok 2 ∧ rmap (counter_get 5%N) (v_edge_label_counter V) = Ok 1 ∧
  rmap (counter_get 5%N) (v_node_label_counter V) = Ok 0.
Proof.
  destruct (eq_wit_rep dir eq_wit1) as [H0 _]; [by right; left|].
  exists (run_view dir eq_wit1), (sp_g (run_spec dir eq_wit1)). split; [exact H0|]. split; [by destruct dir|].
  destruct dir; (split; [by vm_compute|]); (split; by vm_compute).
Qed.

Section more.
  Context {NL EL : Type} `{EqDecision NL, EqDecision EL}.
  Implicit Types (V : gview NL EL) (A : agraph NL EL).
  Lemma usize_not_neq c : usize_not c ≠ N.of_nat c.
  Proof.
    unfold usize_not. intros H. pose proof (N.mod_upper_bound (N.of_nat c) (2 ^ 64)) as Hb.
    destruct (N.lt_ge_cases (N.of_nat c) (2 ^ 64)) as [Hc|Hc].
    - rewrite N.mod_small in H by done. change (2 ^ 64)%N with 18446744073709551616%N in *. lia.
    - change (2 ^ 64)%N with 18446744073709551616%N in *. generalize dependent (N.of_nat c `mod` 18446744073709551616)%N. intros. lia.
  Qed.
  Lemma eq_same_counts V V' A A' : represents V A → represents V' A' → ag_dir A = ag_dir A' →
    v_node_count V = v_node_count V' → exact_count V A → exact_count V' A' → v_edge_count V = v_edge_count V' →
    ∃ b, graph_eq V V' = Ok b ∧ (b = true ↔ A = A') ∧ (b = true → ∃ h, graph_hash V = Ok h ∧ graph_hash V' = Ok h).
  Proof.
    intros H H' Hdir Hn Hc Hc' He. destruct (eq_thm V V' A A' H H' Hdir) as (b & Hb & Hiff). exists b. split; [done|].
    assert (b = true ↔ A = A') as Hiff'; [|split; [done|]; intros ->%Hiff'; by apply graph_hash_thm with A'].
    rewrite Hiff. split.
    - intros (Hs1 & Hs2 & _). pose proof (rp_node_count _ _ H) as C1. pose proof (rp_node_count _ _ H') as C2.
      unfold a_num_nodes, exact_count, a_num_edges in *. destruct A as [d n e], A' as [d' n' e']. simpl in *. subst d'. f_equal.
      + apply sub_size_eq; [done|lia].
      + apply sub_size_eq; [done|lia].
    - intros ->. split; [done|]. split; [done|]. rewrite Hn, He. split; apply usize_not_neq.
  Qed.
  Lemma eq_small V V' A A' : represents V A → represents V' A' → ag_dir A = ag_dir A' →
    (N.of_nat (v_node_count V + v_node_count V') < 2 ^ 64 - 1)%N → (N.of_nat (v_edge_count V + v_edge_count V') < 2 ^ 64 - 1)%N →
    ∃ b, graph_eq V V' = Ok b ∧ (b = true ↔ ag_nodes A ⊆ ag_nodes A' ∧ ag_edges A ⊆ ag_edges A').
  Proof.
    intros H H' Hdir Hn He. destruct (eq_thm V V' A A' H H' Hdir) as (b & Hb & Hiff). exists b. split; [done|].
    rewrite Hiff. unfold usize_not. rewrite !N.mod_small by lia. split; [tauto|]. intros [? ?]. split; [done|]. split; [done|]. lia.
  Qed.
  Lemma equal_equivalence V1 V2 V3 A1 A2 A3 :
    represents V1 A1 → represents V2 A2 → represents V3 A3 → exact_count V1 A1 → exact_count V2 A2 → exact_count V3 A3 →
    v_equal V1 V1 = Ok true ∧ (v_equal V1 V2 = v_equal V2 V1) ∧
    (v_equal V1 V2 = Ok true → v_equal V2 V3 = Ok true → v_equal V1 V3 = Ok true).
  Proof.
    intros H1 H2 H3 C1 C2 C3.
    destruct (equal_thm V1 V1 A1 A1) as (b11 & -> & E11); [done..|]. destruct (equal_thm V1 V2 A1 A2) as (b12 & -> & E12); [done..|].
    destruct (equal_thm V2 V1 A2 A1) as (b21 & -> & E21); [done..|]. destruct (equal_thm V2 V3 A2 A3) as (b23 & -> & E23); [done..|].
    destruct (equal_thm V1 V3 A1 A3) as (b13 & -> & E13); [done..|]. split; [f_equal; tauto|]. split.
    - f_equal. apply eq_iff_eq_true. rewrite E12, E21. naive_solver.
    - intros [= ->] [= ->]. f_equal. apply E13. transitivity A2; tauto.
  Qed.
  Lemma equal_hash V V' A A' : represents V A → represents V' A' → exact_count V A → exact_count V' A' →
    v_equal V V' = Ok true → ∃ h, box_hash V = Ok h ∧ box_hash V' = Ok h.
  Proof.
    intros H H' C C' He. destruct (equal_thm V V' A A' H H' C C') as (b & Hb & Hiff). rewrite He in Hb. injection Hb as <-.
    assert (A = A') as -> by tauto. by apply box_hash_thm with A'.
  Qed.
End more.
