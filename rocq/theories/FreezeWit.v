(** Concrete cases for the comparison of a graph with its frozen and its mapped form. *)
From stdpp Require Import gmap strings.
From Verif Require Import Base BaseFacts Api Bytes Spec Map GraphMap GraphMapFacts GraphMapRefine GraphMapThms IntoStatic Static ViewOps SpecSGraph SpecStaticAll SpecFreeze
  Serde SpecSerde SerdeFacts Mmap SpecMmap SerdeWit MmapWit.

(** Nodes 0, 1, 2 with labels: no gaps. *)
Definition fz_h : list (gop N N) := [OAddNode 2 (Some 7); OAddEdge 0 2 (Some 5); OAddEdge 2 1 None; OAddEdge 1 1 (Some 6)]%N.
Definition fz_g (lt : idty) (dir : bool) : graphmap N N :=
  match gm_run dir lt fz_h (gm_with_label_map [] []) with Ok (_, g) => g | _ => gm_new end.
Definition fz_o (lt : idty) (dir : bool) : list N := (map_to_list (g_nodes (fz_g lt dir))).*1.
Lemma fz_reach lt dir : lt = TU8 ∨ lt = TUnit → gm_reachable dir lt (fz_g lt dir).
Proof.
  intros Hlt. destruct (gm_run dir lt fz_h (gm_with_label_map [] [])) as [[rs g]| |] eqn:Hr; [|by destruct Hlt as [->| ->], dir; vm_compute in Hr..].
  exists [], [], fz_h, rs. split; [constructor|]. split; [constructor|]. unfold fz_g. by rewrite Hr.
Qed.
Lemma fz_ids dir n : v_has_node (gm_view dir (fz_o TU8 dir) (fz_g TU8 dir)) n = true ↔ n ∈ [0; 1; 2]%N.
Proof.
  assert (∀ m, m ∈ (map_to_list (g_nodes (fz_g TU8 dir))).*1 ↔ m ∈ [0; 1; 2]%N) as Hm.
  { assert ((map_to_list (g_nodes (fz_g TU8 dir))).*1 ⊆ [0; 1; 2]%N ∧ [0; 1; 2]%N ⊆ (map_to_list (g_nodes (fz_g TU8 dir))).*1) as [H1 H2].
    { apply (bool_decide_unpack _). destruct dir; by vm_compute. }
    intros m. split; [apply H1|apply H2]. }
  rewrite <- Hm. cbn [v_has_node gm_view]. unfold gm_has_node. rewrite bool_decide_eq_true, elem_of_list_fmap. split.
  - intros [x Hx]. exists (n, x). split; [done|]. by apply elem_of_map_to_list.
  - intros ([k x] & -> & Hx). apply elem_of_map_to_list in Hx. by exists x.
Qed.
Lemma fz_case dir : gm_reachable dir TU8 (fz_g TU8 dir) ∧ hash_order (fz_g TU8 dir) (fz_o TU8 dir) ∧
  let V := gm_view dir (fz_o TU8 dir) (fz_g TU8 dir) in
  v_has_edge V 0%N 2%N = Ok true ∧ v_has_node V 0%N = true ∧ (∀ n, v_has_node V n = true → (n < id_max TU8)%N) ∧ no_gaps V ∧
  (N.of_nat (length (v_node_label_map V)) ≤ id_max TU8)%N ∧ (N.of_nat (length (v_edge_label_map V)) ≤ id_max TU8)%N ∧
  ∃ sg, gm_into_static TU8 TU8 dir (fz_g TU8 dir) = Ok sg ∧ typed_sgraph TU8 TU8 (in_type TU8) (in_type TU8) sg ∧
    v_equal V (sg_view TU8 TU8 dir sg) = Ok true.
Proof.
  split; [apply fz_reach; by left|]. split; [unfold hash_order; reflexivity|]. intros V. split; [destruct dir; by vm_compute|].
  split; [destruct dir; by vm_compute|]. split.
  { intros n Hn. apply fz_ids in Hn. change (id_max TU8) with 255%N. set_unfold in Hn. lia. }
  split.
  { intros n. unfold V. rewrite fz_ids. assert (v_node_count (gm_view dir (fz_o TU8 dir) (fz_g TU8 dir)) = 3) as -> by (destruct dir; by vm_compute).
    set_unfold. lia. }
  split; [destruct dir; by vm_compute|]. split; [destruct dir; by vm_compute|].
  destruct (gm_into_static TU8 TU8 dir (fz_g TU8 dir)) as [sg| |] eqn:Hsg; [|by destruct dir; vm_compute in Hsg..].
  exists sg. split; [done|]. split.
  - apply typed_b_ok. assert (match gm_into_static TU8 TU8 dir (fz_g TU8 dir) with Ok sg => typed_b sg | _ => false end = true) as Hb
      by (destruct dir; by vm_compute). by rewrite Hsg in Hb.
  - assert (match gm_into_static TU8 TU8 dir (fz_g TU8 dir) with Ok sg => v_equal V (sg_view TU8 TU8 dir sg) | _ => Panic end = Ok true) as Hb
      by (destruct dir; by vm_compute). by rewrite Hsg in Hb.
Qed.
(** With label id type () every label has the largest id. *)
Lemma fz_unit dir : gm_reachable dir TUnit (fz_g TUnit dir) ∧ hash_order (fz_g TUnit dir) (fz_o TUnit dir) ∧
  let V := gm_view dir (fz_o TUnit dir) (fz_g TUnit dir) in last_node_label_used TUnit V ∧
  ∃ sg, gm_into_static TU8 TUnit dir (fz_g TUnit dir) = Ok sg ∧ v_equal V (sg_view TU8 TUnit dir sg) = Ok false.
Proof.
  split; [apply fz_reach; by right|]. split; [unfold hash_order; reflexivity|]. intros V. split.
  { exists 2%N, 7%N. split; destruct dir; by vm_compute. }
  destruct (gm_into_static TU8 TUnit dir (fz_g TUnit dir)) as [sg| |] eqn:Hsg; [|by destruct dir; vm_compute in Hsg..].
  exists sg. split; [done|].
  assert (match gm_into_static TU8 TUnit dir (fz_g TUnit dir) with Ok sg => v_equal V (sg_view TU8 TUnit dir sg) | _ => Panic end = Ok false) as Hb
      by (destruct dir; by vm_compute). by rewrite Hsg in Hb.
Qed.
