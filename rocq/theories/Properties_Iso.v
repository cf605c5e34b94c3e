(** C114: node ids are names. Renaming the nodes changes no answer that does not name a node. *)
From Verif Require Import Base BaseFacts Api Spec SpecReorder SpecConn ConnComp Map GraphMap Reorder ReorderMain ReorderWit SpecTraverse Traverse TraverseProps SpecIso IsoProps IsoHist IsoWit.

(** ** C114. [V] and [W] may be of any two implementations, [f] renames the one graph to the other. *)
Theorem C114_shape {NL EL} `{EqDecision NL, EqDecision EL} (f : N → N) (V W : gview NL EL) A B :
  represents V A → represents W B → iterates V → iterates W → renames f A B → same_shape f V W.
Proof. exact (shape f V W A B). Qed.
Print Assumptions C114_shape.
(** Bfs and Dfs from a node and from its new name visit the same first [k] nodes, those reachable from the start. *)
Theorem C114_traversal {NL EL} `{EqDecision NL, EqDecision EL} (f : N → N) idt (V W : gview NL EL) A B s :
  represents V A → represents W B → renames f A B →
  (∀ m, v_max_seen_id V = Ok (Some m) → (m < id_card idt)%N) → (∀ m, v_max_seen_id W = Ok (Some m) → (m < id_card idt)%N) →
  a_has_node A s → ∃ k l l' m m',
    (∀ fuel, v_node_count V < fuel → bfs_run idt V fuel (Some s) = Ok l ∧ bfs_run idt W fuel (Some (f s)) = Ok l' ∧
      dfs_run idt V fuel (Some s) = Ok m ∧ dfs_run idt W fuel (Some (f s)) = Ok m') ∧
    (∀ x, x ∈ take k l ↔ reaches A s x) ∧ same_traversal f k l l' ∧ (∀ x, x ∈ take k m ↔ reaches A s x) ∧ same_traversal f k m m'.
Proof. exact (shape_traversal f idt V W A B s). Qed.
Print Assumptions C114_traversal.
(** Six nodes, five edges, the ids reversed. *)
Example C114_case (dir : bool) : ∃ (V W : gview N N) A B, represents V A ∧ represents W B ∧ iterates V ∧ iterates W ∧ renames iso_f A B ∧
  a_has_node A 50%N ∧ (∀ m, v_max_seen_id V = Ok (Some m) → (m < id_card TU8)%N) ∧ (∀ m, v_max_seen_id W = Ok (Some m) → (m < id_card TU8)%N) ∧
  v_node_count V = 6 ∧
  bfs_run TU8 V 7 (Some 50%N) = Ok [50; 10; 1; 2; 30; 40]%N ∧ bfs_run TU8 W 7 (Some 10%N) = Ok [10; 50; 20; 30; 58; 59]%N.
Proof. exact (iso_views dir). Qed.
(** The same calls with other ids: the same return values, up to the ids they name, and the same graph. *)
Theorem C114_history {NL EL} `{EqDecision NL, EqDecision EL} (f : N → N) `{!Inj (=) (=) f} dir lt (nls : list NL) (els : list EL) h rs s :
  NoDup nls → NoDup els → spec_run h (s_init dir nls els) = SOk (rs, s) → labels_fit lt (sp_nls s) → labels_fit lt (sp_els s) →
  ∃ g g', gm_run dir lt h (gm_with_label_map nls els) = Ok (rs, g) ∧
    gm_run dir lt (ren_op f <$> h) (gm_with_label_map nls els) = Ok (ren_out f <$> rs, g') ∧
    ∀ it it', hash_order g it → hash_order g' it' →
      same_answers_at f (gm_view dir it g) (gm_view dir it' g') ∧ same_shape f (gm_view dir it g) (gm_view dir it' g').
Proof. exact (hist_same f dir lt nls els h rs s). Qed.
Print Assumptions C114_history.
Example C114_history_case dir : (∃ rs s, spec_run iso_h (s_init dir [] []) = SOk (rs, s) ∧ labels_fit TU8 (sp_nls s) ∧ labels_fit TU8 (sp_els s)) ∧
  match gm_run dir TU8 iso_h (gm_with_label_map [] []), gm_run dir TU8 (ren_op iso_f <$> iso_h) (gm_with_label_map [] []) with
  | Ok (rs, _), Ok (rs', _) => last rs = Some (REdge (Some (10, 30, Some 6))) ∧ last rs' = Some (REdge (Some (50, 30, Some 6)))
  | _, _ => False
  end%N.
Proof. exact (conj (iso_history dir) (iso_outs dir)). Qed.
(** One panics exactly when the other does, whatever the calls. *)
Theorem C114_panic {NL EL} `{EqDecision NL, EqDecision EL} (f : N → N) `{!Inj (=) (=) f} dir lt (nls : list NL) (els : list EL) h :
  NoDup nls → NoDup els →
  gm_run dir lt (ren_op f <$> h) (gm_with_label_map nls els) = Panic ↔ gm_run dir lt h (gm_with_label_map nls els) = Panic.
Proof. exact (hist_panic f dir lt nls els h). Qed.
Print Assumptions C114_panic.
(** Removing a node with a self-loop panics, here under two names. *)
Example C114_panic_case dir : gm_run dir TU8 (ro_history ++ [ORemoveNode 30%N]) (gm_with_label_map [] []) = Panic ∧
  gm_run dir TU8 (ren_op iso_f <$> ro_history ++ [ORemoveNode 30%N]) (gm_with_label_map [] []) = Panic.
Proof. by destruct dir; vm_compute. Qed.
(** reorder_id is such a renaming, with whatever flags. *)
Theorem C114_reorder_id {NL EL} `{EqDecision NL, EqDecision EL} (dir : bool) (idt lt : idty) (nls : list NL) (els : list EL) h rs s :
  NoDup nls → NoDup els → spec_run h (s_init dir nls els) = SOk (rs, s) →
  labels_fit lt (sp_nls s) → labels_fit lt (sp_els s) →
  (∀ x, a_has_node (sp_g s) x → (x < id_card idt)%N) →
  ∃ g : graphmap NL EL, gm_run dir lt h (gm_with_label_map nls els) = Ok (rs, g) ∧
  ∀ it no eo fn fnl fel, hash_order g it →
    counter_order (node_label_ids g it) no → counter_order (edge_label_ids dir g it) eo →
    ∃ R g' f, gm_reorder_id dir idt lt it no eo fn fnl fel g = Ok R ∧ rr_graph R = Some g' ∧
      (∀ x, a_has_node (sp_g s) x → rr_find_new_node_id idt R x = Ok (f x)) ∧
      ∀ it', hash_order g' it' → same_shape f (gm_view dir it g) (gm_view dir it' g').
Proof. exact (reorder_shape dir idt lt nls els h rs s). Qed.
Print Assumptions C114_reorder_id.
Example C114_reorder_id_case dir : ∃ rs s, spec_run ro_history (s_init dir [] []) = SOk (rs, s) ∧
  labels_fit TU8 (sp_nls s) ∧ labels_fit TU8 (sp_els s) ∧
  (∀ x, a_has_node (sp_g s) x → (x < id_card TU8)%N) ∧ size (ag_nodes (sp_g s)) = 5 ∧
  a_total_degree (sp_g s) 40 < a_total_degree (sp_g s) 10.
Proof. exact (ro_case dir). Qed.
