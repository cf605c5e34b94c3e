(** C104: the label lists of a GraphMap after any history. Vocabulary: SpecLabelHist.v (first_uses, gives_node, gives_edge), Spec.v. *)
From stdpp Require Import gmap.
From Verif Require Import Base Api Spec SpecLabelHist Map GraphMap GraphMapWit ViewOps LabelHist.

(** ** C104. node_labels() and edge_labels() are the labels ever given, in the order of their first
    use. [zip h rs]: the calls with what they returned. Nothing is assumed about the number of
    labels or about label ids set by hand. *)
Theorem C104_label_lists {NL EL} `{EqDecision NL, EqDecision EL} (dir : bool) (lt : idty) (nls : list NL) (els : list EL) h rs g it :
  NoDup nls → NoDup els → gm_run dir lt h (gm_with_label_map nls els) = Ok (rs, g) →
  let V := gm_view dir it g in
  v_node_labels V = first_uses (nls ++ (zip h rs ≫= gives_node)) ∧ v_edge_labels V = first_uses (els ++ (zip h rs ≫= gives_edge)).
Proof. intros Hn He Hr. exact (label_lists dir lt h nls els rs g Hn He Hr). Qed.
Print Assumptions C104_label_lists.
(** first_uses: no repetition, the same items. *)
Theorem C104_first_uses {X} `{EqDecision X} (l : list X) : NoDup (first_uses l) ∧ ∀ x, x ∈ first_uses l ↔ x ∈ l.
Proof. exact (conj (first_uses_NoDup l) (first_uses_elem l)). Qed.
Print Assumptions C104_first_uses.
(** Later calls only add at the end: the index of a label never changes. *)
Theorem C104_stable {NL EL} `{EqDecision NL, EqDecision EL} (dir : bool) (lt : idty) h (g : graphmap NL EL) rs g' it it' :
  gm_run dir lt h g = Ok (rs, g') →
  let V := gm_view dir it g in let W := gm_view dir it' g' in
  v_node_labels V `prefix_of` v_node_labels W ∧ v_edge_labels V `prefix_of` v_edge_labels W.
Proof. exact (run_grows dir lt h g rs g'). Qed.
Print Assumptions C104_stable.
(** A refused update gives no label, a removed node leaves one behind, None gives none. *)
Example C104_case dir : let h : list (gop N N) := [OAddNode 1 (Some 30); OUpdateNodeLabel 2 (Some 99); OAddNode 2 (Some 10); OUpdateNodeLabel 2 (Some 30); OAddEdge 1 2 (Some 5);
    ORemoveNode 2; OAddNodeLabel (Some 10); OAddEdge 1 3 None; OUpdateEdgeLabel 1 3 (Some 6); OUpdateEdgeLabel 4 3 (Some 8); OSetNodeLabelId 1 (Some 77)]%N in
  ∃ rs g, gm_run dir TU8 h (gm_with_label_map [20]%N []) = Ok (rs, g) ∧
    (zip h rs ≫= gives_node) = [30; 10; 30; 10]%N ∧ (zip h rs ≫= gives_edge) = [5; 6]%N ∧
    v_node_labels (gm_view dir [] g) = [20; 30; 10]%N ∧ v_edge_labels (gm_view dir [] g) = [5; 6]%N.
Proof. cbv zeta. destruct dir; do 2 eexists; (split; [vm_compute; reflexivity|by vm_compute]). Qed.
