(** C86: what a graph shows once it has more labels than the label id type has values. *)
From Verif Require Import Base Api Spec Map GraphMap SpecLabelWrap LabelWrap.

(** For every history of calls, with any number of labels: all answers and the whole
    graph are those of the specification, with each label replaced by the one shown for it. *)
Theorem C86_labels_wrap {NL EL} `{EqDecision NL, EqDecision EL} (dir : bool) (lt : idty)
    (nls : list NL) (els : list EL) (h : list (gop NL EL)) :
  NoDup nls → NoDup els → Forall (raw_fits lt) h →
  match spec_run h (s_init dir nls els) with
  | SOk (rs, s) =>
      ∃ g, gm_run dir lt h (gm_with_label_map nls els) = Ok (out_shown lt (sp_nls s) (sp_els s) <$> rs, g) ∧
      ∀ it, hash_order g it →
        let V := gm_view dir it g in
        represents V (a_shown lt (sp_nls s) (sp_els s) (sp_g s)) ∧ answers_missing V (sp_g s) ∧ iterates V ∧
        v_edge_count V = sp_count s ∧ v_max_seen_id V = Ok (sp_max s) ∧
        v_node_label_map V = sp_nls s ∧ v_edge_label_map V = sp_els s
  | SPanic => gm_run dir lt h (gm_with_label_map nls els) = Panic
  | SUnspec => True
  end.
Proof. exact (wrapped dir lt nls els h). Qed.
Print Assumptions C86_labels_wrap.
(** The labels shown right are exactly the first ones, as many as the type has values; every
    later label is shown as one of those. *)
Theorem C86_which {X} `{EqDecision X} (lt : idty) (ls : list X) x i :
  NoDup ls → ls !! i = Some x →
  (shown lt ls (Some x) = Some x ↔ (N.of_nat i < id_card lt)%N) ∧
  ∃ j y, shown lt ls (Some x) = Some y ∧ ls !! j = Some y ∧ (N.of_nat j < id_card lt)%N.
Proof. exact (shown_which lt ls x i). Qed.
Print Assumptions C86_which.
(** 257 nodes with as many labels under L = u8, then an edge and a removal: node 256 is shown,
    and returned by remove_node, with the label of node 0. *)
Example C86_case :
  let h : list (gop N N) := ((λ i, OAddNode (N.of_nat i) (Some (N.of_nat i))) <$> seq 0 257) ++
             [OAddEdge 0 256 (Some 7); OAddNodeLabel (Some 256); ORemoveNode 256; OSetNodeLabelId 3 (Some 255)]%N in
  Forall (raw_fits TU8) h ∧
  ∃ rs s, spec_run h (s_init false [] []) = SOk (rs, s) ∧
    drop 257 rs = [RBool true; RLabelId (Some 256); RNode (Some (256, Some 256)); RBool true]%N ∧
    drop 257 (out_shown TU8 (sp_nls s) (sp_els s) <$> rs) = [RBool true; RLabelId (Some 0); RNode (Some (256, Some 0)); RBool true]%N ∧
    ag_nodes (a_shown TU8 (sp_nls s) (sp_els s) (sp_g s)) !! 3%N = Some (Some 255%N).
Proof. exact wrap_witness. Qed.
