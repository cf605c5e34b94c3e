(** Concrete cases for the theorems about caught panics. *)
From Verif Require Import Base BaseFacts Api Spec SpecFacts SpecPanic Traverse TraverseProps Map GraphMap GraphMapFacts GraphMapPanic.

(** Node 2 has a self-loop and a neighbour on each side; node 0 has a self-loop only. *)
Definition pa_h : list (gop N N) := [OAddEdge 1 2 None; OAddEdge 2 3 (Some 5); OAddEdge 2 2 None; OAddEdge 0 0 None]%N.
Definition pa_order dir := (map_to_list (g_nodes (run_gm dir pa_h))).*1.
Definition pa_left dir : graphmap N N := (gm_remove_node_left dir 2 (run_gm dir pa_h)).1.
Lemma pa_reach dir : gm_reachable dir TU8 (run_gm dir pa_h) ∧ hash_order (run_gm dir pa_h) (pa_order dir).
Proof.
  assert (fits_u8 dir pa_h) as Hf by (destruct dir; vm_compute; lia). destruct (run_view_all dir pa_h Hf) as (_ & _ & _ & _ & _ & _ & Hr).
  split; [exact Hr|]. unfold hash_order, pa_order. reflexivity.
Qed.
Lemma pa_loops dir : v_has_edge (gm_view dir (pa_order dir) (run_gm dir pa_h)) 2 2 = Ok true ∧ v_has_edge (gm_view dir (pa_order dir) (run_gm dir pa_h)) 0 0 = Ok true.
Proof. destruct dir; by vm_compute. Qed.
Lemma pa_dangling dir : dangling dir 2 (gm_view dir (pa_order dir) (run_gm dir pa_h)).
Proof.
  exists 3%N. split; [done|]. destruct dir; [right; by vm_compute|]. left. split; [by vm_compute|]. right. done.
Qed.
Lemma pa_clean dir : ¬ dangling dir 0 (gm_view dir (pa_order dir) (run_gm dir pa_h)).
Proof.
  assert (fits_u8 dir pa_h) as Hf by (destruct dir; vm_compute; lia). destruct (run_view_all dir pa_h Hf) as (HV & _).
  change (gm_view dir (pa_order dir) (run_gm dir pa_h)) with (run_view dir pa_h).
  assert (∀ x y, v_has_edge (run_view dir pa_h) x y = Ok true → (x, y) ∈ [(1, 2); (2, 3); (2, 2); (0, 0); (2, 1); (3, 2)]%N) as He.
  { intros x y H. assert (a_has_edge (sp_g (run_spec dir pa_h)) x y) as [l Hl].
    { assert (a_has_node (sp_g (run_spec dir pa_h)) x) as Hx.
      { apply (rp_has_node _ _ HV). cbn in H |- *. injection H as H. unfold gm_has_edge in H. unfold gm_has_node. apply bool_decide_eq_true.
        destruct (g_nodes (run_gm dir pa_h) !! x); [by eexists|done]. }
      destruct (rp_has_edge _ _ HV x y Hx) as (b & Hb & Hbt). apply Hbt. congruence. }
    unfold a_edge_at in Hl. apply elem_of_map_to_list in Hl.
    assert (ekey (ag_dir (sp_g (run_spec dir pa_h))) x y ∈ [(1, 2); (2, 3); (2, 2); (0, 0)]%N) as Hk.
    { apply (elem_of_list_fmap_1 fst) in Hl. cbn [fst] in Hl.
      assert (Forall (λ e, e ∈ [(1, 2); (2, 3); (2, 2); (0, 0)]%N) (map_to_list (ag_edges (sp_g (run_spec dir pa_h)))).*1) as Hall.
      { apply (bool_decide_unpack _). destruct dir; by vm_compute. }
      exact (proj1 (Forall_forall _ _) Hall _ Hl). }
    destruct (ekey_cases (ag_dir (sp_g (run_spec dir pa_h))) x y) as [E|[_ E]]; rewrite E in Hk.
    - do 4 (apply elem_of_cons in Hk as [->|Hk]; [by apply (bool_decide_unpack _); vm_compute|]). by apply elem_of_nil in Hk.
    - do 4 (apply elem_of_cons in Hk as [Hk|Hk]; [injection Hk as -> ->; by apply (bool_decide_unpack _); vm_compute|]). by apply elem_of_nil in Hk. }
  intros (x & Hne & [[H _]|(_ & H & _)]); apply He in H; repeat (apply elem_of_cons in H as [H|H]; [injection H; intros; congruence|]); by apply elem_of_nil in H.
Qed.
Lemma pa_bad dir : let V := gm_view dir (map_to_list (g_nodes (pa_left dir))).*1 (pa_left dir) in
  v_has_edge V 3 2 = Ok (negb dir) ∧ v_has_edge V 1 2 = Ok dir ∧ v_has_node V 2 = false ∧ v_edge_count V = 4 ∧
  gm_remove_edge dir (if dir then 1 else 3)%N 2 (pa_left dir) = Panic ∧ gm_remove_node dir 3 (pa_left dir) = Panic.
Proof. destruct dir; by vm_compute. Qed.
