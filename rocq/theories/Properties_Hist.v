(** C88, C89: the order of calls and undoing calls. [apart], [agree], [same_graph] and
    [same_answers] are in SpecHist.v. *)
From Verif Require Import Base BaseFacts Api Spec Map GraphMap GraphMapWit SpecHist HistProps HistWit.

(** ** C88. Two series of calls that name different nodes can be exchanged: every call
    returns the same, and the graphs cannot be told apart. *)
Theorem C88_calls_commute {NL EL} `{EqDecision NL, EqDecision EL} dir lt (nls : list NL) (els : list EL) h0 h1 h2 rs g :
  NoDup nls → NoDup els →
  Forall (λ o, is_raw o = false) h0 → Forall (λ o, on_graph o = true) h1 → Forall (λ o, on_graph o = true) h2 → apart h1 h2 →
  gm_run dir lt (h0 ++ h1 ++ h2) (gm_with_label_map nls els) = Ok (rs, g) → labels_fit lt (g_nlm g) → labels_fit lt (g_elm g) →
  ∃ rs0 rs1 rs2 g', rs = rs0 ++ rs1 ++ rs2 ∧ length rs0 = length h0 ∧ length rs1 = length h1 ∧
    gm_run dir lt (h0 ++ h2 ++ h1) (gm_with_label_map nls els) = Ok (rs0 ++ rs2 ++ rs1, g') ∧
    ∀ it it', hash_order g it → hash_order g' it' → same_answers (gm_view dir it g) (gm_view dir it' g').
Proof. intros Hn He. exact (calls_commute dir lt nls els Hn He h0 h1 h2 rs g). Qed.
Print Assumptions C88_calls_commute.
(** One order panics exactly if the other does, however many labels there are. *)
Theorem C88_panics_commute {NL EL} `{EqDecision NL, EqDecision EL} dir lt (nls : list NL) (els : list EL) h0 h1 h2 :
  NoDup nls → NoDup els →
  Forall (λ o, is_raw o = false) h0 → Forall (λ o, on_graph o = true) h1 → Forall (λ o, on_graph o = true) h2 → apart h1 h2 →
  gm_run dir lt (h0 ++ h1 ++ h2) (gm_with_label_map nls els) = Panic ↔ gm_run dir lt (h0 ++ h2 ++ h1) (gm_with_label_map nls els) = Panic.
Proof.
  intros Hn He H0 H1 H2 Ha. split; apply panics_commute; try done. intros n Hx Hy. exact (Ha n Hy Hx).
Qed.
Print Assumptions C88_panics_commute.
Example C88_case dir : Forall (λ o, is_raw o = false) hi_0 ∧ Forall (λ o, on_graph o = true) hi_1 ∧ Forall (λ o, on_graph o = true) hi_2 ∧
  apart hi_1 hi_2 ∧ ∃ rs g, gm_run dir TU8 (hi_0 ++ hi_1 ++ hi_2) (gm_with_label_map [] []) = Ok (rs, g) ∧
    labels_fit TU8 (g_nlm g) ∧ labels_fit TU8 (g_elm g) ∧ gm_node_count g = 3 ∧ g_nedges g = 2 ∧ g_elm g = [5; 6]%N.
Proof.
  split_and!; [repeat constructor..| |].
  - intros n. unfold hi_1, hi_2. simpl. rewrite !elem_of_cons, !elem_of_nil. lia.
  - apply run_ok_ex; destruct dir; by vm_compute.
Qed.
(** Insertions that agree on labels may come in any order, also when they share nodes or
    repeat each other. *)
Theorem C88_insertion_order {NL EL} `{EqDecision NL, EqDecision EL} dir lt (nls : list NL) (els : list EL) h0 h h' rs g :
  NoDup nls → NoDup els →
  Forall (λ o, is_raw o = false) h0 → Forall (λ o, is_add o = true) h → (∀ o o', o ∈ h → o' ∈ h → agree dir o o') → h ≡ₚ h' →
  gm_run dir lt (h0 ++ h) (gm_with_label_map nls els) = Ok (rs, g) → labels_fit lt (g_nlm g) → labels_fit lt (g_elm g) →
  ∃ rs' g', gm_run dir lt (h0 ++ h') (gm_with_label_map nls els) = Ok (rs', g') ∧
    ∀ it it', hash_order g it → hash_order g' it' → same_answers (gm_view dir it g) (gm_view dir it' g').
Proof. intros Hn He. exact (adds_reorder dir lt nls els Hn He h0 h h' rs g). Qed.
Print Assumptions C88_insertion_order.
Example C88_insertion_case dir : Forall (λ o, is_add o = true) hi_3 ∧ (∀ o o', o ∈ hi_3 → o' ∈ hi_3 → agree dir o o') ∧ hi_3 ≡ₚ reverse hi_3 ∧
  ∃ rs g, gm_run dir TU8 (hi_0 ++ hi_3) (gm_with_label_map [] []) = Ok (rs, g) ∧ labels_fit TU8 (g_nlm g) ∧ labels_fit TU8 (g_elm g) ∧
    gm_node_count g = 5 ∧ g_nedges g = 5.
Proof.
  split_and!; [repeat constructor| |by rewrite reverse_Permutation|apply run_ok_ex; destruct dir; by vm_compute].
  intros o o' Ho Ho'. unfold hi_3 in *. rewrite !elem_of_cons, !elem_of_nil in Ho, Ho'.
  destruct Ho as [->|[->|[->|[->|[]]]]], Ho' as [->|[->|[->|[->|[]]]]]; simpl; try done; destruct dir; intros Hk; vm_compute in Hk; done.
Qed.

(** ** C89. Undoing. Adding a new edge between existing nodes and removing it: *)
Theorem C89_add_remove_edge {NL EL} `{EqDecision NL, EqDecision EL} dir lt (nls : list NL) (els : list EL) h rs g it x y l :
  NoDup nls → NoDup els → Forall (λ o, is_raw o = false) h →
  gm_run dir lt h (gm_with_label_map nls els) = Ok (rs, g) → hash_order g it →
  labels_fit lt (g_nlm g) → labels_fit lt (register l (g_elm g)) →
  let V := gm_view dir it g in
  v_has_node V x = true → v_has_node V y = true → v_has_edge V x y = Ok false →
  ∃ g', gm_run dir lt (h ++ [OAddEdge x y l; ORemoveEdge x y]) (gm_with_label_map nls els) = Ok (rs ++ [RBool true; REdge (Some (x, y, l))], g') ∧
    ∀ it', hash_order g' it' → let V' := gm_view dir it' g' in
      same_graph V V' ∧ v_edge_count V' = v_edge_count V ∧ v_max_seen_id V' = v_max_seen_id V ∧
      v_node_label_map V' = v_node_label_map V ∧ v_edge_label_map V' = register l (v_edge_label_map V).
Proof. intros Hn He. exact (undo_add_edge dir lt nls els Hn He h rs g it x y l). Qed.
Print Assumptions C89_add_remove_edge.
(** Adding a new node and removing it. Only max_seen_id and the label list remember it. *)
Theorem C89_add_remove_node {NL EL} `{EqDecision NL, EqDecision EL} dir lt (nls : list NL) (els : list EL) h rs g it n l :
  NoDup nls → NoDup els → Forall (λ o, is_raw o = false) h →
  gm_run dir lt h (gm_with_label_map nls els) = Ok (rs, g) → hash_order g it →
  labels_fit lt (register l (g_nlm g)) → labels_fit lt (g_elm g) →
  let V := gm_view dir it g in
  v_has_node V n = false →
  ∃ g', gm_run dir lt (h ++ [OAddNode n l; ORemoveNode n]) (gm_with_label_map nls els) = Ok (rs ++ [RBool true; RNode (Some (n, l))], g') ∧
    ∀ it', hash_order g' it' → let V' := gm_view dir it' g' in
      same_graph V V' ∧ v_edge_count V' = v_edge_count V ∧
      v_max_seen_id V' = rmap (λ o, omax o n) (v_max_seen_id V) ∧
      v_node_label_map V' = register l (v_node_label_map V) ∧ v_edge_label_map V' = v_edge_label_map V.
Proof. intros Hn He. exact (undo_add_node dir lt nls els Hn He h rs g it n l). Qed.
Print Assumptions C89_add_remove_node.
(** Removing an edge and adding it again with its label. *)
Theorem C89_remove_add_edge {NL EL} `{EqDecision NL, EqDecision EL} dir lt (nls : list NL) (els : list EL) h rs g it x y l :
  NoDup nls → NoDup els → Forall (λ o, is_raw o = false) h →
  gm_run dir lt h (gm_with_label_map nls els) = Ok (rs, g) → hash_order g it →
  labels_fit lt (g_nlm g) → labels_fit lt (g_elm g) →
  let V := gm_view dir it g in
  v_has_edge V x y = Ok true → v_edge_label V x y = Ok l →
  ∃ g', gm_run dir lt (h ++ [ORemoveEdge x y; OAddEdge x y l]) (gm_with_label_map nls els) = Ok (rs ++ [REdge (Some (x, y, l)); RBool true], g') ∧
    ∀ it', hash_order g' it' → same_answers V (gm_view dir it' g').
Proof. intros Hn He. exact (undo_remove_edge dir lt nls els Hn He h rs g it x y l). Qed.
Print Assumptions C89_remove_add_edge.
Example C89_case dir : Forall (λ o, is_raw o = false) hi_0 ∧
  ∃ rs g, gm_run dir TU8 hi_0 (gm_with_label_map [] []) = Ok (rs, g) ∧
    labels_fit TU8 (g_nlm g) ∧ labels_fit TU8 (register (Some 9%N) (g_elm g)) ∧ labels_fit TU8 (register (Some 9%N) (g_nlm g)) ∧ labels_fit TU8 (g_elm g) ∧
    let V := gm_view dir (map_to_list (g_nodes g)).*1 g in
    v_has_node V 3%N = true ∧ v_has_node V 1%N = true ∧ v_has_edge V 3%N 1%N = Ok false ∧ v_has_node V 4%N = false ∧
    v_has_edge V 1%N 2%N = Ok true ∧ v_edge_label V 1%N 2%N = Ok (Some 5%N).
Proof. split; [repeat constructor|]. apply run_ok_ex; destruct dir; by vm_compute. Qed.
