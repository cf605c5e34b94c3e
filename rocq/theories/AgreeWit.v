(** Concrete cases for the agreement of the traversals with ConnComp. *)
From Verif Require Import Base BaseFacts Api Spec SpecFacts SpecTraverse Traverse TraverseProps SpecConn ConnComp ConnCompProps Map GraphMap GraphMapFacts GraphMapThms GraphMapProps.

(** Two components. *)
Definition ag_h : list (gop N N) := edges_history [(0, 5); (5, 2); (7, 3)]%N.
Lemma ag_case : let V := run_view false ag_h in
  gm_reachable false TU8 (run_gm false ag_h) ∧ hash_order (run_gm false ag_h) (map_to_list (g_nodes (run_gm false ag_h))).*1 ∧
  (∀ m, v_max_seen_id V = Ok (Some m) → (m < id_card TU8)%N) ∧ v_has_edge V 5%N 2%N = Ok true ∧
  bfs_run TU8 V 6 (Some 5%N) = Ok [5; 0; 2; 3; 7]%N ∧ dfs_run TU8 V 6 (Some 5%N) = Ok [5; 2; 0; 3; 7]%N.
Proof.
  assert (fits_u8 false ag_h) as Hf by (vm_compute; lia). destruct (run_view_all false ag_h Hf) as (_ & _ & _ & _ & _ & _ & Hr).
  intros V. split; [exact Hr|]. split; [unfold hash_order; reflexivity|]. split.
  { intros m Hm. assert (v_max_seen_id V = Ok (Some 7%N)) as Hm' by (by vm_compute). rewrite Hm' in Hm. injection Hm as <-. done. }
  split; [by vm_compute|]. split; by vm_compute.
Qed.
Lemma ag_directed_case : let V := run_view true ag_h in let A := sp_g (run_spec true ag_h) in
  represents V A ∧ iterates V ∧ reaches A 0%N 2%N ∧ ¬ a_has_edge A 0%N 2%N.
Proof.
  assert (fits_u8 true ag_h) as Hf by (vm_compute; lia). destruct (run_view_all true ag_h Hf) as (H1 & _ & H2 & _).
  intros V A. split; [exact H1|]. split; [exact H2|].
  assert (a_has_edge A 0%N 5%N) as E1 by (apply (bool_decide_unpack _); by vm_compute).
  assert (a_has_edge A 5%N 2%N) as E2 by (apply (bool_decide_unpack _); by vm_compute).
  split.
  - apply (rtc_l _ _ 5%N); [exact E1|]. apply rtc_once. exact E2.
  - apply (bool_decide_unpack _). by vm_compute.
Qed.
