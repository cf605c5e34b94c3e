(** Concrete histories for Properties_Pipeline.v. *)
From stdpp Require Import gmap strings.
From Verif Require Import Base BaseFacts Api Bytes Spec GraphMap GraphMapFacts Serde SpecSerde SerdeFacts SerdeWit Mmap SpecMmap MmapWit
  SpecReorder Reorder ReorderThms ReorderWit Pipeline.

Definition pi_check (s : sstate N N) : bool :=
  bool_decide (N.of_nat (length (sp_nls s)) ≤ id_max TU8)%N && bool_decide (N.of_nat (length (sp_els s)) ≤ id_max TU8)%N &&
  bool_decide (vec_of (in_type TU8) (sp_nls s)) && bool_decide (vec_of (in_type TU8) (sp_els s)) && bool_decide (in_usize (sp_count s)) &&
  bool_decide (in_usize (S (a_num_nodes (sp_g s)) * a_num_nodes (sp_g s))) && bool_decide (N.of_nat (a_num_nodes (sp_g s)) ≤ id_max TU8)%N &&
  forallb (λ n, bool_decide (in_type TU8 n)) (map_to_list (ag_nodes (sp_g s))).*1.
Record pi_ok (s : sstate N N) : Prop := {
  pi_nls : (N.of_nat (length (sp_nls s)) ≤ id_max TU8)%N;
  pi_els : (N.of_nat (length (sp_els s)) ≤ id_max TU8)%N;
  pi_pn : vec_of (in_type TU8) (sp_nls s);
  pi_pe : vec_of (in_type TU8) (sp_els s);
  pi_count : in_usize (sp_count s);
  pi_sq : in_usize (S (a_num_nodes (sp_g s)) * a_num_nodes (sp_g s));
  pi_num : (N.of_nat (a_num_nodes (sp_g s)) ≤ id_max TU8)%N;
  pi_ids : ∀ x, a_has_node (sp_g s) x → in_type TU8 x;
}.
Lemma pi_check_ok s : pi_check s = true → pi_ok s.
Proof.
  unfold pi_check. rewrite !andb_true_iff, !bool_decide_eq_true, forallb_forall. intros [[[[[[[H1 H2] H3] H4] H5] H6] H7] H8]. split; try done.
  intros x [l Hl]. specialize (H8 x). rewrite bool_decide_eq_true in H8. apply H8, elem_of_list_In, elem_of_list_fmap. exists (x, l). split; [done|]. by apply elem_of_map_to_list.
Qed.
Lemma sres_ex {X Y} (r : sres (X * Y)) (P : Y → Prop) : match r with SOk (_, b) => P b | _ => False end → ∃ a b, r = SOk (a, b) ∧ P b.
Proof. destruct r as [[a b]| |]; try done. intros H. by exists a, b. Qed.

Lemma ro_pi dir : ∃ rs s, spec_run ro_history (s_init dir [] []) = SOk (rs, s) ∧ pi_ok s ∧ a_has_edge (sp_g s) 50 10 ∧ a_num_nodes (sp_g s) = 5.
Proof.
  apply sres_ex. destruct (spec_run ro_history (s_init dir [] [])) as [[rs s]| |] eqn:Hs.
  2,3: destruct dir; by vm_compute in Hs.
  assert (pi_check s && bool_decide (a_has_edge (sp_g s) 50 10) && bool_decide (a_num_nodes (sp_g s) = 5) = true) as Hb.
  { destruct dir; vm_compute in Hs; injection Hs as <- <-; by vm_compute. }
  rewrite !andb_true_iff, !bool_decide_eq_true in Hb. destruct Hb as [[H1 H2] H3]. split; [by apply pi_check_ok|by split].
Qed.
(** Nodes 0, 1, 2 with a removal in between; labels on nodes and edges. *)
Definition pi_history : list (gop N N) :=
  [OAddNode 2 (Some 7); OAddEdge 0 1 (Some 5); OAddEdge 3 1 None; ORemoveNode 3; OAddEdge 1 2 (Some 6); OAddEdge 2 2 None]%N.
Lemma pi_dense dir : ∃ rs s, spec_run pi_history (s_init dir [] []) = SOk (rs, s) ∧ pi_ok s ∧ a_has_edge (sp_g s) 0 1 ∧
  (∀ n m, a_has_node (sp_g s) n → (m < n)%N → a_has_node (sp_g s) m) ∧ a_num_nodes (sp_g s) = 3.
Proof.
  apply sres_ex. destruct (spec_run pi_history (s_init dir [] [])) as [[rs s]| |] eqn:Hs.
  2,3: destruct dir; by vm_compute in Hs.
  assert (pi_check s && bool_decide (a_has_edge (sp_g s) 0 1) &&
    forallb (λ n, forallb (λ k, bool_decide (is_Some (ag_nodes (sp_g s) !! N.of_nat k))) (seq 0 (N.to_nat n))) (map_to_list (ag_nodes (sp_g s))).*1 &&
    bool_decide (a_num_nodes (sp_g s) = 3) = true) as Hb.
  { destruct dir; vm_compute in Hs; injection Hs as <- <-; by vm_compute. }
  rewrite !andb_true_iff, !bool_decide_eq_true, forallb_forall in Hb. destruct Hb as [[[H1 H2] H3] H4].
  split; [by apply pi_check_ok|]. split; [done|]. split; [|done]. intros n m [l Hl] Hm.
  assert (n ∈ (map_to_list (ag_nodes (sp_g s))).*1) as Hn%elem_of_list_In.
  { apply elem_of_list_fmap. exists (n, l). split; [done|]. by apply elem_of_map_to_list. }
  specialize (H3 n Hn). rewrite forallb_forall in H3. specialize (H3 (N.to_nat m)). rewrite bool_decide_eq_true in H3.
  rewrite N2Nat.id in H3. apply H3, elem_of_list_In, elem_of_seq. lia.
Qed.
