(** Witnesses for Properties_Import.v. *)
From stdpp Require Import gmap strings.
From Verif Require Import Base BaseFacts Api Bytes Spec SpecSerde SpecImport SpecLabelHist Map GraphMap Static Serde SerdeFacts ImportAny.

(** Saved as directed, read as undirected. *)
Definition one_way : graphmap N N := match gm_run true TU8 [OAddEdge 1 2 None]%N (gm_with_label_map [] []) with Ok (_, g) => g | _ => gm_new end.
Lemma one_way_ok : gm_reachable true TU8 one_way ∧ ∀ o path F ord, hash_order one_way ord →
  import (c_graphmap TU8 TU8 (c_id TU8) (c_id TU8) ord) path (export path (enc (c_graphmap TU8 TU8 (c_id TU8) (c_id TU8) ord) one_way) F) = Some one_way ∧
  ∀ A, ¬ represents (gm_view false o one_way) A.
Proof.
  split.
  { exists [], [], [OAddEdge 1 2 None]%N, [RBool true]. split; [constructor|]. split; [constructor|]. by vm_compute. }
  intros o path F ord Ho. split.
  - apply (import_export _ _ path F one_way (proj1 (f_graphmap TU8 TU8 (c_id TU8) (c_id TU8) (in_type TU8) (in_type TU8) (f_id TU8) (f_id TU8) ord))). split; [done|].
    assert (map_Forall (λ x n, in_type TU8 x ∧ in_type TU8 (nm_id n) ∧ nm_label n = None ∧ size (nm_nbrs n) ≤ 1 ∧ size (nm_in n) ≤ 1 ∧
      map_Forall (λ y l, in_type TU8 y ∧ l = None) (nm_nbrs n) ∧ set_Forall (in_type TU8) (nm_in n)) (g_nodes one_way)) as HF by (unfold in_type; apply (bool_decide_unpack _); by vm_compute).
    split.
    + split; [by vm_compute|]. intros x n Hn. destruct (HF x n Hn) as (H1 & H2 & H3 & H4 & H5 & H6 & H7). split; [done|]. split; [done|by rewrite H3|..].
      * split; [unfold in_usize; change (id_card TUsize) with 18446744073709551616%N; lia|]. intros y l Hl. destruct (H6 y l Hl) as [? ->]. done.
      * split; [unfold in_usize; change (id_card TUsize) with 18446744073709551616%N; lia|]. exact H7.
    + by vm_compute.
    + split; [split; [by vm_compute|constructor]|constructor].
    + split; [split; [by vm_compute|constructor]|constructor].
    + by vm_compute.
  - intros A HA. assert (a_has_node A 1 ∧ a_has_node A 2)%N as [H1 H2] by (split; apply (rp_has_node _ _ HA); by vm_compute).
    destruct (rp_has_edge _ _ HA 1%N 2%N H1) as (b & Hb & Hb'). destruct (rp_has_edge _ _ HA 2%N 1%N H2) as (c & Hc & Hc').
    assert (b = true) as -> by (assert (v_has_edge (gm_view false o one_way) 1 2 = Ok true) as E by (by vm_compute); congruence).
    assert (c = false) as -> by (assert (v_has_edge (gm_view false o one_way) 2 1 = Ok false) as E by (by vm_compute); congruence).
    assert (ag_dir A = false) as Hd by (by rewrite <-(rp_directed _ _ HA)). assert (a_has_edge A 2 1) as He; [|apply Hc' in He; done].
    pose proof (proj1 Hb' eq_refl) as He. unfold a_has_edge, a_edge_at in *. rewrite Hd in *. assert (ekey false 2 1 = ekey false 1 2)%N as -> by (by vm_compute). done.
Qed.
(** A static graph that claims a node and has no offsets, one whose edges lead out of it. *)
Definition no_offsets : sgraph N N := SGraph 1 0 (EV [] [] None) None None [] [].
Lemma no_offsets_ok path F : let b := enc (c_sgraph TU8 TU8 (c_id TU8) (c_id TU8)) no_offsets in
  bytes b ∧ import (c_sgraph TU8 TU8 (c_id TU8) (c_id TU8)) path (export path b F) = Some no_offsets ∧
  v_has_node (sg_view TU8 TU8 true no_offsets) 0 = true ∧ v_degree (sg_view TU8 TU8 true no_offsets) 0 = Panic ∧ ∀ dir A, ¬ represents (sg_view TU8 TU8 dir no_offsets) A.
Proof.
  cbv zeta. split; [unfold bytes; apply (bool_decide_unpack _); by vm_compute|]. split.
  - unfold import. rewrite export_file. by vm_compute.
  - split; [by vm_compute|]. split; [by vm_compute|]. intros dir A HA.
    assert (a_has_node A 0) as H0 by (apply (rp_has_node _ _ HA); by destruct dir; vm_compute).
    destruct (rp_neighbors _ _ HA 0%N H0) as (l & Hl & _). destruct dir; by vm_compute in Hl.
Qed.
Lemma import_case : let b := [2; 0; 0; 0; 0; 0; 0; 0; 7; 9; 44]%N in bytes b ∧ ({["f"%string := b]} : fs) !! "f"%string = Some b ∧
  import (c_vecmap (c_id TU8)) "f" ({["f"%string := b]} : fs) = Some [7; 9]%N ∧ import (c_setmap (c_id TU8)) "f" ({["f"%string := b]} : fs) = Some [7; 9]%N ∧
  import (c_setmap (c_id TU8)) "f" ({["f"%string := [3; 0; 0; 0; 0; 0; 0; 0; 7; 7; 9]%N]} : fs) = Some [7; 9]%N.
Proof. cbv zeta. split; [unfold bytes; apply (bool_decide_unpack _); by vm_compute|]. by vm_compute. Qed.
Lemma static_file : ∃ (b : list N) (g : sgraph N N), bytes b ∧ import (c_sgraph TU8 TU8 (c_id TU8) (c_id TU8)) "f" ({["f"%string := b]} : fs) = Some g ∧ sg_num_nodes g = 1.
Proof. exists (enc (c_sgraph TU8 TU8 (c_id TU8) (c_id TU8)) no_offsets), no_offsets. destruct (no_offsets_ok "f" ∅) as (H1 & H2 & _). split; [exact H1|]. split; [exact H2|done]. Qed.
Lemma graphmap_file : ∃ (b : list N) (g : graphmap N N), bytes b ∧ import (c_graphmap TU8 TU8 (c_id TU8) (c_id TU8) []) "f" ({["f"%string := b]} : fs) = Some g ∧ size (g_nodes g) = 1.
Proof.
  exists (enc (c_graphmap TU8 TU8 (c_id TU8) (c_id TU8) [1%N]) (match gm_run true TU8 [OAddNode 1 None]%N (gm_with_label_map [] []) with Ok (_, g) => g | _ => gm_new end)).
  eexists. split; [unfold bytes; apply (bool_decide_unpack _); by vm_compute|]. split; by vm_compute.
Qed.
Lemma no_graph : ∃ (b : list N) (g : sgraph N N), bytes b ∧ ∀ path F,
  import (c_sgraph TU8 TU8 (c_id TU8) (c_id TU8)) path (export path b F) = Some g ∧
  v_has_node (sg_view TU8 TU8 true g) 0 = true ∧ v_degree (sg_view TU8 TU8 true g) 0 = Panic ∧ ∀ dir A, ¬ represents (sg_view TU8 TU8 dir g) A.
Proof. exists (enc (c_sgraph TU8 TU8 (c_id TU8) (c_id TU8)) no_offsets), no_offsets. split; [exact (proj1 (no_offsets_ok "f" ∅))|]. intros path F. exact (proj2 (no_offsets_ok path F)). Qed.
