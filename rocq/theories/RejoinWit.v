(** Concrete cases for C117. *)
From Verif Require Import Base BaseFacts Api Spec SpecOps Map GraphMap GraphOps GraphOpsProps GraphOpsWit GraphOpsLaws TraverseProps SpecRejoin RejoinProps.

Definition rj_ord (g : graphmap N N) : list N := (map_to_list (g_nodes g)).*1.
Lemma rj_ord_ok g : hash_order g (rj_ord g).
Proof. unfold hash_order, rj_ord. reflexivity. Qed.
Lemma list_subseteq_forall (l k : list N) : Forall (λ x, x ∈ k) l → l ⊆ k.
Proof. intros H x Hx. exact (proj1 (Forall_forall _ _) H x Hx). Qed.
Definition rj_h : list (gop N N) := [OAddNode 1 (Some 7); OAddEdge 1 2 (Some 5); OAddEdge 3 2 None; OAddEdge 8 9 (Some 4); OAddEdge 5 6 None]%N.
Lemma rj_case (dir : bool) : ∃ (V : gview N N) A, represents V A ∧ iterates V ∧ exact_count V A ∧ ag_dir A = dir ∧ (∀ n, ¬ isolated A n) ∧
  (∀ n, ¬ a_has_edge A n n) ∧ uses_labels A [7]%N [5; 4]%N ∧
  rmap length (conn_subgraphs TU8 V) = Ok 3 ∧
  rmap gm_edge_count (let* gs := conn_subgraphs TU8 V in join_all TU8 dir rj_ord (reverse gs)) = Ok 4.
Proof.
  assert (fits_u8 dir rj_h) as Hf by (destruct dir; vm_compute; lia). destruct (run_view_all dir rj_h Hf) as (Hr & _ & Hi & Hc & _).
  exists (run_view dir rj_h), (sp_g (run_spec dir rj_h)). split; [exact Hr|]. split; [exact Hi|].
  split; [unfold exact_count; destruct dir; vm_compute; reflexivity|]. split; [by destruct dir|]. split; [|split; [|split; [|split]]].
  - intros n [[l Hn] Hiso]. assert (n ∈ (map_to_list (ag_nodes (sp_g (run_spec dir rj_h)))).*1) as Hin.
    { apply elem_of_list_fmap. exists (n, l). split; [done|]. by apply elem_of_map_to_list. }
    assert (Forall (λ n, Exists (λ x, a_has_edge (sp_g (run_spec dir rj_h)) n x ∨ a_has_edge (sp_g (run_spec dir rj_h)) x n) [1; 2; 3; 5; 6; 8; 9]%N)
      (map_to_list (ag_nodes (sp_g (run_spec dir rj_h)))).*1) as HF.
    { apply (bool_decide_unpack _). destruct dir; by vm_compute. }
    rewrite Forall_forall in HF. specialize (HF n Hin). apply Exists_exists in HF as (x & _ & Hx). destruct (Hiso x). tauto.
  - apply no_loops; [apply Hr|]. apply (bool_decide_unpack _). destruct dir; by vm_compute.
  - eapply uses_mono; [apply uses_of; destruct dir; vm_compute; reflexivity| |]; (apply list_subseteq_forall; apply (bool_decide_unpack _); destruct dir; vm_compute; exact I).
  - destruct dir; vm_compute; reflexivity.
  - destruct dir; vm_compute; reflexivity.
Qed.
