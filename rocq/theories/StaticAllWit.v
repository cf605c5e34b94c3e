(** Concrete cases for the theorems about into_static on every graph. *)
From Verif Require Import Base BaseFacts Api Spec SpecFacts ViewFacts Map GraphMap GraphMapFacts GraphMapRefine GraphMapSim GraphMapThms GraphMapProps
  IntoStatic Static TraverseProps IntoStaticProps SpecStaticAll IntoStaticAll.

(** Nodes 0, 2, 4 and 9; then a label is written on the edge 4-2 in one direction only. *)
Definition sa_h : list (gop N N) :=
  [OAddNode 4 (Some 7); OAddEdge 0 4 (Some 5); OAddEdge 4 2 None; OAddEdge 9 2 (Some 6); OSetEdgeLabelId 4 2 (Some 1)]%N.
Definition sa_g (dir : bool) : graphmap N N :=
  match gm_run dir TU8 sa_h (gm_with_label_map [] []) with Ok (_, g) => g | _ => gm_new end.
Lemma sa_reach dir : gm_reachable dir TU8 (sa_g dir).
Proof.
  destruct (gm_run dir TU8 sa_h (gm_with_label_map [] [])) as [[rs g]| |] eqn:Hr; [|by destruct dir; vm_compute in Hr..].
  exists [], [], sa_h, rs. split; [constructor|]. split; [constructor|]. unfold sa_g. by rewrite Hr.
Qed.
Lemma sa_ids dir ord n : v_has_node (gm_view dir ord (sa_g dir)) n = true → n ∈ [0; 2; 4; 9]%N.
Proof.
  cbn [v_has_node gm_view]. unfold gm_has_node. rewrite bool_decide_eq_true. intros [x Hx]. apply elem_of_map_to_list in Hx.
  apply (elem_of_list_fmap_1 fst) in Hx. simpl in Hx.
  assert ((map_to_list (g_nodes (sa_g dir))).*1 ⊆ [0; 2; 4; 9]%N) as Hsub; [|by apply Hsub].
  apply (bool_decide_unpack _). destruct dir; by vm_compute.
Qed.
Lemma sa_case dir : gm_reachable dir TU8 (sa_g dir) ∧ hash_order (sa_g dir) (map_to_list (g_nodes (sa_g dir))).*1 ∧
  let V := gm_view dir (map_to_list (g_nodes (sa_g dir))).*1 (sa_g dir) in
  v_has_node V 9%N = true ∧ (∀ n, v_has_node V n = true → (n < id_max TU8)%N) ∧
  (v_node_count V, v_has_node V 1%N, v_get_node V 4%N, v_get_edge V 4%N 2%N) = (4, false, Ok (Some (4%N, Some 0%N)), Ok (Some (4%N, 2%N, Some 1%N))) ∧
  v_get_edge V 2%N 4%N = (if dir then Ok None else Ok (Some (2%N, 4%N, None))).
Proof.
  split; [apply sa_reach|]. split; [unfold hash_order; reflexivity|]. intros V. split; [destruct dir; by vm_compute|]. split.
  - intros n Hn. apply sa_ids in Hn. change (id_max TU8) with 255%N. set_unfold in Hn. lia.
  - split; destruct dir; by vm_compute.
Qed.
