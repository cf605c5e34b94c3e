(** C120 for graph_union and graph_minus. *)
From Verif Require Import Base BaseFacts Api Spec SpecFacts SpecOps ViewFacts Map GraphMap GraphOps GraphOpsFacts GraphOpsProps GraphOpsLaws GraphOpsWit TraverseProps SpecAlike AlikeProps AlikeWit.

Section ops.
  Context {NL EL : Type} `{EqDecision NL, EqDecision EL}.
  Implicit Types (V : gview NL EL) (A : agraph NL EL).
  Lemma alike_union lt lt' V0 V0' V1 V1' A0 A0' A1 A1' nls els :
    represents V0 A0 → represents V0' A0' → look_alike V0 V0' → represents V1 A1 → represents V1' A1' → look_alike V1 V1' →
    (ag_dir A0 = true ∨ ag_dir A1 = false) → uses_labels A0 nls els → uses_labels A1 nls els →
    labels_fit lt nls → labels_fit lt els → labels_fit lt' nls → labels_fit lt' els →
    ∃ g g', graph_union lt V0 V1 = Ok g ∧ graph_union lt' V0' V1' = Ok g' ∧
      ∀ it it', hash_order g it → hash_order g' it' → let V := gm_view (ag_dir A0) it g in let V' := gm_view (ag_dir A0) it' g' in
        look_alike V V' ∧ v_edge_count V = v_edge_count V'.
  Proof.
    intros R0 R0' L0 R1 R1' L1 Hd U0 U1 F1 F2 F3 F4. rewrite <-(alike_eq _ _ _ _ R0 R0' L0) in R0'. rewrite <-(alike_eq _ _ _ _ R1 R1' L1) in R1'.
    destruct (union_thm lt V0 A0 V1 A1 nls els) as (g & Hg & H); [done..|]. destruct (union_thm lt' V0' A0 V1' A1 nls els) as (g' & Hg' & H'); [done..|].
    exists g, g'. split; [done|]. split; [done|]. intros it it' Hi Hi'. destruct (H it Hi) as (G1 & _ & _ & G2). destruct (H' it' Hi') as (G1' & _ & _ & G2').
    split; [|by rewrite G2, G2']. by apply (eq_alike _ _ (a_union A0 A1)).
  Qed.
  Lemma alike_minus lt lt' V0 V0' V1 V1' A0 A0' A1 A1' nls els :
    represents V0 A0 → represents V0' A0' → look_alike V0 V0' → represents V1 A1 → represents V1' A1' → look_alike V1 V1' →
    uses_labels A0 nls els → labels_fit lt nls → labels_fit lt els → labels_fit lt' nls → labels_fit lt' els →
    (graph_minus lt V0 V1 = Panic ∧ graph_minus lt' V0' V1' = Panic) ∨
    ∃ g g', graph_minus lt V0 V1 = Ok g ∧ graph_minus lt' V0' V1' = Ok g' ∧
      ∀ it it', hash_order g it → hash_order g' it' → let V := gm_view (ag_dir A0) it g in let V' := gm_view (ag_dir A0) it' g' in
        look_alike V V' ∧ v_edge_count V = v_edge_count V'.
  Proof.
    intros R0 R0' L0 R1 R1' L1 U0 F1 F2 F3 F4. rewrite <-(alike_eq _ _ _ _ R0 R0' L0) in R0'. rewrite <-(alike_eq _ _ _ _ R1 R1' L1) in R1'.
    destruct (decide (Exists (λ n, is_Some (a_edge_at A0 n n)) ((map_to_list (ag_nodes A1)).*1))) as [Hx|Hx].
    - left. apply Exists_exists in Hx as (n & Hn & He). apply elem_of_list_fmap in Hn as ([k l] & -> & Hk). apply elem_of_map_to_list in Hk. cbn [fst] in He.
      assert (a_has_node A1 k) as Hk' by (by eexists). split; [by apply (minus_panic lt V0 A0 V1 A1 k)|by apply (minus_panic lt' V0' A0 V1' A1 k)].
    - right. assert (∀ n, a_has_node A1 n → ¬ a_has_edge A0 n n) as Hl.
      { intros n [l Hn] He. apply Hx, Exists_exists. exists n. split; [|exact He]. apply elem_of_list_fmap. exists (n, l). split; [done|]. by apply elem_of_map_to_list. }
      destruct (minus_thm lt V0 A0 V1 A1 nls els) as (g & A & Hg & HA & H); [done..|]. destruct (minus_thm lt' V0' A0 V1' A1 nls els) as (g' & A' & Hg' & HA' & H'); [done..|].
      assert (A' = A) as -> by (eapply (induced_unique _ _ A0); [|apply R0|exact HA'|exact HA]; done).
      exists g, g'. split; [done|]. split; [done|]. intros it it' Hi Hi'. destruct (H it Hi) as (G1 & _ & _ & G2). destruct (H' it' Hi') as (G1' & _ & _ & G2').
      split; [by apply (eq_alike _ _ A)|]. unfold exact_count in G2, G2'. by rewrite G2, G2'.
  Qed.
End ops.
Lemma some_ok {X} (r : res X) : match r with Ok _ => true | _ => false end = true → ∃ x, r = Ok x.
Proof. destruct r as [x| |]; [by exists x|done|done]. Qed.
Lemma alike_ops_case (dir : bool) : ∃ (V0 V0' V1 : gview N N) A0 A1, represents V0 A0 ∧ represents V0' A0 ∧ look_alike V0 V0' ∧ represents V1 A1 ∧
  look_alike V1 V1 ∧ ag_dir A0 = dir ∧ ag_dir A1 = dir ∧ uses_labels A0 [7; 8]%N [5; 6]%N ∧ uses_labels A1 [7; 8]%N [5; 6]%N ∧
  v_node_label_map V0 ≠ v_node_label_map V0' ∧ a_has_edge A0 1 2 ∧ a_has_node A1 2 ∧
  (∃ g, graph_minus TU8 V0 V1 = Ok g) ∧ ∃ g, graph_union TU8 V0 V1 = Ok g.
Proof.
  assert (fits_u8 dir al_h1) as F1 by (destruct dir; vm_compute; lia). assert (fits_u8 dir al_h2) as F2 by (destruct dir; vm_compute; lia).
  destruct (run_view_all dir al_h1 F1) as (V1 & _). destruct (run_view_all dir al_h2 F2) as (W1 & _).
  assert (sp_g (run_spec dir al_h2) = sp_g (run_spec dir al_h1)) as E by (apply ag_same; destruct dir; vm_compute; reflexivity). rewrite E in W1.
  exists (run_view dir al_h1), (run_view dir al_h2), (run_view dir op_wit1), (sp_g (run_spec dir al_h1)), (sp_g (run_spec dir op_wit1)).
  split; [exact V1|]. split; [exact W1|]. split; [exact (eq_alike _ _ _ V1 W1)|]. split; [apply op_wit1_rep|]. split; [exact (eq_alike _ _ _ (proj1 (op_wit1_rep dir)) (proj1 (op_wit1_rep dir)))|].
  split; [by destruct dir|]. split; [by destruct dir|]. split.
  { assert (uses_labels (sp_g (run_spec dir al_h1)) [7; 8]%N [5]%N) as [U1 U2].
    { assert (sp_nls (run_spec dir al_h1) = [7; 8]%N) as <- by (destruct dir; vm_compute; reflexivity).
      assert (sp_els (run_spec dir al_h1) = [5]%N) as <- by (destruct dir; vm_compute; reflexivity).
      apply uses_of; destruct dir; vm_compute; reflexivity. }
    split; [exact U1|]. intros e l He. apply U2 in He. apply elem_of_list_singleton in He. rewrite He. by left. }
  split; [apply op_wit1_uses|]. clear.
  split; [destruct dir; vm_compute; discriminate|]. split; [destruct dir; vm_compute; by eexists|]. split; [destruct dir; vm_compute; by eexists|].
  split; (apply some_ok; destruct dir; vm_compute; reflexivity).
Qed.
