(** Concrete cases for C118. *)
From Verif Require Import Base BaseFacts Api Spec Map GraphMap GraphMapProps GraphMapThms ConnComp SpecConnGrow Traverse TraverseProps SpecSym SymProps.

Definition sy_h : list (gop N N) :=
  [OAddNode 4 (Some 9); OAddEdge 1 4 (Some 7); OAddEdge 4 2 None; OAddEdge 3 3 (Some 8); OAddEdge 4 1 None; OUpdateEdgeLabel 2 4 (Some 5);
   OAddEdge 6 5 None; ORemoveEdge 5 6; ORemoveEdge 5 6; ORemoveNode 6; OAddEdge 7 5 (Some 8)]%N.
Definition sy_ord (g : graphmap N N) : list N := (map_to_list (g_nodes g)).*1.
Definition sy_U : gview N N := run_view false sy_h.
Definition sy_D : gview N N := run_view true (sy_h ≫= both_ways).
Lemma sy_case : ∃ rs s, spec_run sy_h (s_init false [] []) = SOk (rs, s) ∧ labels_fit TU8 (sp_nls s) ∧ labels_fit TU8 (sp_els s) ∧
  nth_error rs 4 = Some (RBool false) ∧ nth_error rs 7 = Some (REdge (Some (5, 6, None)%N)) ∧ nth_error rs 8 = Some (REdge None) ∧
  length (sy_h ≫= both_ways) = 19 ∧ a_num_edges (sp_g s) = 4 ∧ a_num_nodes (sp_g s) = 6.
Proof. do 2 eexists. split; [vm_compute; reflexivity|]. split_and!; vm_compute; done. Qed.
Lemma sy_panic_case : gm_run true TU8 ([OAddEdge 1 2 None; OAddEdge 2 2 None; ORemoveNode 2]%N ≫= both_ways) (gm_new : graphmap N N) = Panic.
Proof. vm_compute. reflexivity. Qed.
Lemma sy_views : represents sy_U (sp_g (run_spec false sy_h)) ∧ represents sy_D (sp_g (run_spec true (sy_h ≫= both_ways))) ∧
  iterates sy_U ∧ iterates sy_D ∧ stands_for sy_D sy_U.
Proof.
  assert (fits_u8 false sy_h) as F1 by (vm_compute; lia). assert (fits_u8 true (sy_h ≫= both_ways)) as F2 by (vm_compute; lia).
  destruct (run_view_all false sy_h F1) as (V1 & V2 & V3 & _). destruct (run_view_all true (sy_h ≫= both_ways) F2) as (W1 & W2 & W3 & _).
  split; [exact V1|]. split; [exact W1|]. split; [exact V3|]. split; [exact W3|].
  eapply sym_views; [exact V1|exact V2|exact W1|exact W2| |vm_compute; reflexivity|vm_compute; reflexivity|vm_compute; reflexivity].
  assert (∃ rs, spec_run sy_h (s_init false [] []) = SOk (rs, run_spec false sy_h)) as [rs E1] by (eexists; vm_compute; reflexivity).
  assert (∃ rs, spec_run (sy_h ≫= both_ways) (s_init true [] []) = SOk (rs, run_spec true (sy_h ≫= both_ways))) as [rs' E2] by (eexists; vm_compute; reflexivity).
  exact (sym_final [] [] sy_h rs _ rs' _ E1 E2).
Qed.
Lemma sy_alg_case : ∃ (U D : gview N N) A B, represents U A ∧ represents D B ∧ iterates U ∧ iterates D ∧ stands_for D U ∧
  v_max_seen_id U = Ok (Some 7%N) ∧ v_has_node U 4 = true ∧ v_node_count U = 6 ∧
  bfs_run TU8 D 7 (Some 4%N) = Ok [4; 1; 2; 3; 5; 7]%N ∧ dfs_run TU8 D 7 (Some 4%N) = Ok [4; 2; 1; 3; 5; 7]%N ∧
  (∃ c, cc_new D = Ok c ∧ cc_get_count c = 3).
Proof.
  destruct sy_views as (H1 & H2 & H3 & H4 & H5). exists sy_U, sy_D, (sp_g (run_spec false sy_h)), (sp_g (run_spec true (sy_h ≫= both_ways))).
  split; [exact H1|]. split; [exact H2|]. split; [exact H3|]. split; [exact H4|]. split; [exact H5|].
  split; [vm_compute; reflexivity|]. split; [vm_compute; reflexivity|]. split; [vm_compute; reflexivity|].
  split; [vm_compute; reflexivity|]. split; [vm_compute; reflexivity|]. eexists. split; vm_compute; reflexivity.
Qed.
