(** Concrete cases for ConnSubgraph run by hand. *)
From Verif Require Import Base BaseFacts Api Spec SpecOps Map GraphMap GraphMapProps GraphMapThms ConnComp GraphOps GraphOpsFacts GraphOpsProps GraphOpsWit ConnSubProps ConnSubRun SpecConnSub ConnSubRunProps TraverseProps.

(** Components {1, 2, 3}, {8, 9} and {6} (GraphOpsWit.cs_wit); the second graph has an edge from
    the first to the second. *)
Definition cr_wit : list (gop N N) := [OAddNode 3 (Some 8); OAddEdge 2 8 (Some 5); OAddNode 8 (Some 9)]%N.
(** Node counts, edge counts and the label of 8 in each subgraph. *)
Definition cr_show (cs : csrun N N) : list (nat * nat * option (option N)) :=
  (λ p : bool * graphmap N N, (gm_node_count p.2, gm_edge_count p.2,
     match v_node_label (gm_view p.1 [] p.2) 8 with Ok l => Some l | _ => None end)) <$> cr_into_result cs.
Lemma cr_wit_good dir h : h = cs_wit ∨ h = cr_wit → represents (run_view dir h) (sp_g (run_spec dir h)) ∧ iterates (run_view dir h).
Proof. intros Hh. destruct (run_view_all dir h) as (?&?&?&_); [|done]. destruct Hh as [-> | ->]; destruct dir; vm_compute; lia. Qed.
Lemma cr_wit_runnable dir h : h = cs_wit ∨ h = cr_wit →
  runnable dir (sp_g (run_spec dir cs_wit)) [7; 8; 9]%N [5; 4]%N (run_view dir h) (sp_g (run_spec dir h)).
Proof.
  intros Hh. destruct (cr_wit_good dir h Hh) as [Hr Hi]. split; [exact Hr|]. split; [exact Hi|]. split; [by destruct Hh as [-> | ->]; destruct dir|]. split.
  - split.
    + intros n l Hn. assert ((n, Some l) ∈ map_to_list (ag_nodes (sp_g (run_spec dir h)))) as Hin by (by apply elem_of_map_to_list).
      assert (Forall (λ p : N * option N, p.2 ∈ None :: (Some <$> [7; 8; 9]%N)) (map_to_list (ag_nodes (sp_g (run_spec dir h))))) as Hf.
      { apply (bool_decide_unpack _). destruct Hh as [-> | ->]; destruct dir; by vm_compute. }
      rewrite Forall_forall in Hf. specialize (Hf _ Hin). apply elem_of_cons in Hf as [?|(x & [= ->] & ?)%elem_of_list_fmap]; done.
    + intros e l Hn. assert ((e, Some l) ∈ map_to_list (ag_edges (sp_g (run_spec dir h)))) as Hin by (by apply elem_of_map_to_list).
      assert (Forall (λ p : (N * N) * option N, p.2 ∈ None :: (Some <$> [5; 4]%N)) (map_to_list (ag_edges (sp_g (run_spec dir h))))) as Hf.
      { apply (bool_decide_unpack _). destruct Hh as [-> | ->]; destruct dir; by vm_compute. }
      rewrite Forall_forall in Hf. specialize (Hf _ Hin). apply elem_of_cons in Hf as [?|(x & [= ->] & ?)%elem_of_list_fmap]; done.
  - intros n [l Hn]. assert (n ∈ (map_to_list (ag_nodes (sp_g (run_spec dir h)))).*1) as Hin.
    { apply elem_of_list_fmap. exists (n, l). split; [done|]. by apply elem_of_map_to_list. }
    assert (Forall (λ n, Exists (λ x, a_has_edge (sp_g (run_spec dir cs_wit)) n x ∨ a_has_edge (sp_g (run_spec dir cs_wit)) x n) [1; 2; 3; 6; 8; 9]%N)
      (map_to_list (ag_nodes (sp_g (run_spec dir h)))).*1) as Hf.
    { apply (bool_decide_unpack _). destruct Hh as [-> | ->]; destruct dir; by vm_compute. }
    rewrite Forall_forall in Hf. specialize (Hf n Hin). apply Exists_exists in Hf as (x & _ & Hx). by exists x.
Qed.
Lemma cr_case dir : ∃ (V0 V1 : gview N N) A0 A1,
  represents V0 A0 ∧ iterates V0 ∧
  Forall2 (λ V A, represents V A ∧ iterates V ∧ ag_dir A = dir ∧ uses_labels A [7; 8; 9]%N [5; 4]%N ∧ ∀ n, a_has_node A n → on_edge A0 n) [V0; V1] [A0; A1] ∧
  labels_fit TU8 [7; 8; 9]%N ∧ labels_fit TU8 [5; 4]%N ∧ ag_edges A1 !! (2, 8)%N = Some (Some 5%N) ∧ ag_nodes A1 !! 8%N = Some (Some 9%N) ∧
  rmap cr_show (cr_runs TU8 V0 [V0; V1]) = Ok [(4, 3, Some None); (2, 1, Some (Some 9%N)); (1, 1, Some None)] ∧
  rmap cr_show (cr_runs TU8 V0 [V0; V0]) = Ok [(3, 4, Some None); (2, 2, Some None); (1, 2, Some None)].
Proof.
  exists (run_view dir cs_wit), (run_view dir cr_wit), (sp_g (run_spec dir cs_wit)), (sp_g (run_spec dir cr_wit)).
  destruct (cr_wit_good dir cs_wit) as [Hr Hi]; [by left|]. split; [exact Hr|]. split; [exact Hi|]. split.
  { constructor; [apply cr_wit_runnable; by left|]. constructor; [apply cr_wit_runnable; by right|constructor]. }
  destruct dir; (split; [by vm_compute|]); (split; [by vm_compute|]); (split; [by vm_compute|]); (split; [by vm_compute|]); (split; [by vm_compute|]); by vm_compute.
Qed.
(** Node 5 is on no edge of the first graph. *)
Definition cr_bad : list (gop N N) := [OAddNode 3 (Some 8); OAddNode 5 None]%N.
Lemma cr_bad_case dir : ∃ (V0 V1 V2 : gview N N) A0 A1 A2, represents V0 A0 ∧ iterates V0 ∧
  Forall2 (λ V A, represents V A ∧ iterates V ∧ ag_dir A = dir ∧ uses_labels A [7; 8; 9]%N [5; 4]%N ∧ ∀ n, a_has_node A n → on_edge A0 n) [V1] [A1] ∧
  represents V2 A2 ∧ v_directed V2 = dir ∧ a_has_node A2 5 ∧ ¬ on_edge A0 5 ∧ a_has_edge A0 1 2.
Proof.
  exists (run_view dir cs_wit), (run_view dir cr_wit), (run_view dir cr_bad), (sp_g (run_spec dir cs_wit)), (sp_g (run_spec dir cr_wit)), (sp_g (run_spec dir cr_bad)).
  destruct (cr_wit_good dir cs_wit) as [Hr Hi]; [by left|]. split; [exact Hr|]. split; [exact Hi|]. split.
  { constructor; [apply cr_wit_runnable; by right|constructor]. }
  split. { destruct (run_view_all dir cr_bad) as (?&?&?&_); [|done]. destruct dir; vm_compute; lia. }
  split; [by destruct dir|]. split; [apply (bool_decide_unpack _); destruct dir; by vm_compute|]. split; [|apply (bool_decide_unpack _); destruct dir; by vm_compute].
  assert (∀ k, a_has_node (sp_g (run_spec dir cs_wit)) k → k ≠ 5%N) as H5.
  { intros k [l Hk] ->. by destruct dir; vm_compute in Hk. }
  intros [x [Hx|Hx]]; apply (SpecFacts.wf_edge_nodes _ _ _ (rp_wf _ _ Hr)) in Hx as [Ha Hb]; [exact (H5 _ Ha eq_refl)|exact (H5 _ Hb eq_refl)].
Qed.
