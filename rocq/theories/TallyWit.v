(** Concrete cases for C116. *)
From Verif Require Import Base BaseFacts Api Spec SpecConn ConnComp SpecConnGrow Map GraphMap TraverseProps GraphMapWit.

Definition tally_h : list (gop N N) := [OAddEdge 1 2 None; OAddEdge 3 2 (Some 7); OAddEdge 3 3 None; OAddEdge 9 4 None]%N.
Lemma tally_case (dir : bool) : ∃ (V : gview N N) A, represents V A ∧ iterates V ∧ v_directed V = dir ∧ v_node_count V = 5 ∧
  rmap length (v_edge_indices V) = Ok 4 ∧ rmap sum_list (rmapl (v_degree V) (v_node_indices V)) = Ok (if dir then 4 else 7) ∧
  (∃ c, cc_new V = Ok c ∧ cc_get_count c = 2).
Proof.
  assert (fits_u8 dir tally_h) as H by (destruct dir; vm_compute; lia). destruct (run_view_all dir tally_h H) as (V1 & _ & V2 & _).
  exists (run_view dir tally_h), (sp_g (run_spec dir tally_h)). split; [exact V1|]. split; [exact V2|].
  split; [destruct dir; vm_compute; reflexivity|]. split; [destruct dir; vm_compute; reflexivity|]. split; [destruct dir; vm_compute; reflexivity|].
  split; [destruct dir; vm_compute; reflexivity|]. apply res_ok_ex. destruct dir; vm_compute; reflexivity.
Qed.
Definition path_h : list (gop N N) := [OAddEdge 1 2 None; OAddEdge 3 2 (Some 7)]%N.
Lemma tally_connected (dir : bool) : ∃ (V : gview N N) A, represents V A ∧ iterates V ∧ v_node_count V = 3 ∧ rmap length (v_edge_indices V) = Ok 2 ∧
  ∃ c, cc_new V = Ok c ∧ ∀ a b, v_has_node V a = true → v_has_node V b = true → connected c a b.
Proof.
  assert (fits_u8 dir path_h) as H by (destruct dir; vm_compute; lia). destruct (run_view_all dir path_h H) as (V1 & _ & V2 & _).
  exists (run_view dir path_h), (sp_g (run_spec dir path_h)). split; [exact V1|]. split; [exact V2|].
  split; [destruct dir; vm_compute; reflexivity|]. split; [destruct dir; vm_compute; reflexivity|].
  assert (∀ n, v_has_node (run_view dir path_h) n = true → n ∈ [1; 2; 3]%N) as Hn.
  { intros n Hn. apply (rp_has_node _ _ V1) in Hn. apply (rp_node_indices _ _ V1) in Hn.
    assert (Forall (λ n, n ∈ [1; 2; 3]%N) (v_node_indices (run_view dir path_h))) as HF. { apply (bool_decide_unpack _). destruct dir; by vm_compute. }
    exact (proj1 (Forall_forall _ _) HF n Hn). }
  destruct (res_ok_ex (cc_new (run_view dir path_h)) (λ c, Forall (λ a, Forall (λ b, rmap fst (cc_is_connected a b c) = Ok true) [1; 2; 3]%N) [1; 2; 3]%N)) as (c & Hc & HF).
  { destruct dir; vm_compute; repeat constructor. }
  exists c. split; [exact Hc|]. intros a b Ha%Hn Hb%Hn. pose proof (proj1 (Forall_forall _ _) HF a Ha) as HF'. pose proof (proj1 (Forall_forall _ _) HF' b Hb) as He. cbn in He.
  unfold connected. destruct (cc_is_connected a b c) as [[v d]| |]; cbn in He; [|done..]. injection He as ->. by eexists.
Qed.
