(** Concrete cases for Properties_TravCost.v. *)
From Verif Require Import Base BaseFacts Api Spec Map GraphMap Traverse SpecTraverse TraverseProps GraphMapWit SpecTravCost TravCost.

(** Two parts, with the ids 1, 4 and 6 missing. *)
Definition tc_h : list (gop N N) := [OAddEdge 0 5 None; OAddEdge 5 2 (Some 7); OAddEdge 3 3 None; OAddEdge 7 3 None]%N.
Lemma tc_case (dir dfs : bool) : let V := run_view dir tc_h in let A := sp_g (run_spec dir tc_h) in
  represents V A ∧ v_max_seen_id V = Ok (Some 7%N) ∧ starts A V (Some 5%N) 5%N ∧ gaps_below V 8 = 3 ∧
  (if dfs then dfs_cost TU8 V 6 (Some 5%N) else bfs_cost TU8 V 6 (Some 5%N)) =
    Ok (if dir then Cost [5; 2; 0; 3; 7]%N 4 10 [0; 3; 7]%N 1
        else Cost (if dfs then [5; 2; 0; 3; 7]%N else [5; 0; 2; 3; 7]%N) 7 5 [3]%N 2).
Proof.
  assert (fits_u8 dir tc_h) as H by (destruct dir; vm_compute; lia). destruct (run_view_all dir tc_h H) as (V1 & _).
  cbv zeta. split; [exact V1|]. split; [destruct dir; vm_compute; reflexivity|]. split.
  { split; [done|]. destruct dir; vm_compute; eexists; reflexivity. }
  split; destruct dir; try (vm_compute; reflexivity); destruct dfs; vm_compute; reflexivity.
Qed.
(** Three nodes without edges above three missing ids. *)
Definition tc_sparse : list (gop N N) := [OAddNode 4 None; OAddNode 3 None; OAddNode 5 None]%N.
Lemma tc_sparse_case (dir dfs : bool) : let V := run_view dir tc_sparse in let A := sp_g (run_spec dir tc_sparse) in
  represents V A ∧ v_max_seen_id V = Ok (Some 5%N) ∧ starts A V (Some 4%N) 4%N ∧ gaps_first V ∧ (∀ x y, ¬ a_has_edge A x y) ∧
  (if dfs then dfs_cost TU8 V 4 (Some 4%N) else bfs_cost TU8 V 4 (Some 4%N)) = Ok (Cost [4; 3; 5]%N 0 11 [3; 5]%N 1).
Proof.
  assert (fits_u8 dir tc_sparse) as H by (destruct dir; vm_compute; lia). destruct (run_view_all dir tc_sparse H) as (V1 & _).
  cbv zeta. split; [exact V1|]. split; [destruct dir; vm_compute; reflexivity|]. split.
  { split; [done|]. destruct dir; vm_compute; eexists; reflexivity. }
  assert (∀ x, v_has_node (run_view dir tc_sparse) x = true ↔ x ∈ v_node_indices (run_view dir tc_sparse)) as Hn.
  { intros x. rewrite (rp_has_node _ _ V1). symmetry. apply (rp_node_indices _ _ V1). }
  assert (v_node_indices (run_view dir tc_sparse) ≡ₚ [3; 4; 5]%N) as Hl by (destruct dir; apply (bool_decide_unpack _); vm_compute; exact I).
  split.
  - intros x y Hx Hy (m & Hm & Hle). assert (v_max_seen_id (run_view dir tc_sparse) = Ok (Some 5%N)) as Hm' by (destruct dir; vm_compute; reflexivity).
    rewrite Hm' in Hm. injection Hm as <-. apply Hn in Hy. rewrite Hl in Hy.
    assert (x ∉ [3; 4; 5]%N) as Hx'. { rewrite <-Hl, <-Hn. by rewrite Hx. }
    assert (x ≠ 3 ∧ x ≠ 4 ∧ x ≠ 5)%N as (? & ? & ?) by (split_and!; intros ->; apply Hx'; set_solver).
    assert (y = 3 ∨ y = 4 ∨ y = 5)%N by set_solver. lia.
  - split; [|destruct dir, dfs; vm_compute; reflexivity]. intros x y [l Hl']. destruct dir; vm_compute in Hl'; done.
Qed.
Lemma tc_panics (dir : bool) : let V := run_view dir tc_h in let A := sp_g (run_spec dir tc_h) in let E := run_view dir [] in
  represents V A ∧ v_max_seen_id V = Ok (Some 7%N) ∧ ¬ a_has_node A 4%N ∧ bfs_run TU8 V 6 (Some 4%N) = Panic ∧ dfs_run TU8 V 6 (Some 4%N) = Panic ∧
  represents E (sp_g (run_spec dir [])) ∧ v_max_seen_id E = Ok None ∧ bfs_run TU8 E 1 None = Panic ∧ dfs_run TU8 E 1 None = Panic.
Proof.
  assert (fits_u8 dir tc_h) as H by (destruct dir; vm_compute; lia). destruct (run_view_all dir tc_h H) as (V1 & _).
  assert (fits_u8 dir []) as H' by (destruct dir; vm_compute; lia). destruct (run_view_all dir [] H') as (V2 & _).
  cbv zeta. split; [exact V1|]. split; [destruct dir; vm_compute; reflexivity|].
  split; [intros [l Hl]; destruct dir; vm_compute in Hl; done|].
  split; [destruct dir; vm_compute; reflexivity|]. split; [destruct dir; vm_compute; reflexivity|]. split; [exact V2|].
  split; [destruct dir; vm_compute; reflexivity|]. split; destruct dir; vm_compute; reflexivity.
Qed.
