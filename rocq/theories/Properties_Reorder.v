(** C26-C27: reorder_id. [idt] and [lt] are the node and label id types, [it] the iteration
    order of the node table, [no] and [eo] those of the two label counters; the three flags
    ask to renumber nodes, node labels and edge labels. *)
From Verif Require Import Base BaseFacts Api Spec Map GraphMap SpecReorder Reorder ReorderMain ReorderWit.

(** ** C26. For graphs built through the API, with at most as many labels as label ids. What
    is missing: graphs whose label ids were also written raw (set_label_id), see below. *)
Theorem C26_reorder_id_partial {NL EL} `{EqDecision NL, EqDecision EL} (dir : bool) (idt lt : idty)
  nls els h rs s :
  NoDup nls → NoDup els → spec_run h (s_init dir nls els) = SOk (rs, s) →
  labels_fit lt (sp_nls s) → labels_fit lt (sp_els s) →
  (∀ x, a_has_node (sp_g s) x → (x < id_card idt)%N) →
  ∃ g : graphmap NL EL, gm_run dir lt h (gm_with_label_map nls els) = Ok (rs, g) ∧
  ∀ it no eo fn fnl fel, hash_order g it →
    counter_order (node_label_ids g it) no → counter_order (edge_label_ids dir g it) eo →
    ∃ R g' f B, gm_reorder_id dir idt lt it no eo fn fnl fel g = Ok R ∧ rr_graph R = Some g' ∧
      (∀ x, a_has_node (sp_g s) x → rr_find_new_node_id idt R x = Ok (f x)) ∧
      renames f (sp_g s) B ∧
      (if fn : bool then
         onto_prefix f (sp_g s) ∧
         ∀ x y, a_has_node (sp_g s) x → a_has_node (sp_g s) y →
           a_total_degree (sp_g s) x < a_total_degree (sp_g s) y → (f x < f y)%N
       else B = sp_g s ∧ ∀ x, f x = x) ∧
      ∀ it', hash_order g' it' →
        let V := gm_view dir it g in
        let V' := gm_view dir it' g' in
        represents V' B ∧ answers_missing V' B ∧ iterates V' ∧ v_edge_count V' = v_edge_count V ∧
        (if fnl : bool then by_frequency (a_node_label_count (sp_g s)) (v_node_label_map V') else v_node_label_map V' = sp_nls s) ∧
        (if fel : bool then by_frequency (a_edge_label_count (sp_g s)) (v_edge_label_map V') else v_edge_label_map V' = sp_els s) ∧
        ∀ x y, a_has_node (sp_g s) x → a_has_node (sp_g s) y →
          v_has_node V' (f x) = v_has_node V x ∧
          v_has_edge V' (f x) (f y) = v_has_edge V x y ∧
          v_node_label V' (f x) = v_node_label V x ∧
          v_edge_label V' (f x) (f y) = v_edge_label V x y.
Proof. exact (reorder_main dir idt lt nls els h rs s). Qed.
Print Assumptions C26_reorder_id_partial.
(** For every reachable graph, whatever was written to label ids, as long as labels are not
    renumbered. *)
Theorem C26_any_graph_partial {NL EL} `{EqDecision NL, EqDecision EL} (dir : bool) (idt lt : idty)
  (g : graphmap NL EL) it no eo fn :
  gm_reachable dir lt g → hash_order g it →
  let V := gm_view dir it g in
  (∀ x, v_has_node V x = true → (x < id_card idt)%N) →
  ∃ R g' f, gm_reorder_id dir idt lt it no eo fn false false g = Ok R ∧ rr_graph R = Some g' ∧
    (∀ x, v_has_node V x = true → rr_find_new_node_id idt R x = Ok (f x)) ∧
    ∀ it', hash_order g' it' →
      let V' := gm_view dir it' g' in
      (∀ y, v_has_node V' y = true ↔ ∃ x, v_has_node V x = true ∧ f x = y) ∧
      (∀ x y, v_has_node V x = true → v_has_node V y = true →
        (f x = f y → x = y) ∧
        v_has_edge V' (f x) (f y) = v_has_edge V x y ∧
        v_node_label V' (f x) = v_node_label V x ∧
        v_edge_label V' (f x) (f y) = v_edge_label V x y) ∧
      v_node_count V' = v_node_count V ∧ v_edge_count V' = v_edge_count V.
Proof. exact (reorder_any dir idt lt g it no eo fn). Qed.
Print Assumptions C26_any_graph_partial.
(** After raw label id writes, renumbering labels can panic. *)
Theorem C26_raw_edge_label_refuted : ∃ (g : graphmap N N) it no eo, gm_reachable false TU8 g ∧ hash_order g it ∧
  counter_order (node_label_ids g it) no ∧ counter_order (edge_label_ids false g it) eo ∧
  ∀ fn fnl, gm_reorder_id false TU8 TU8 it no eo fn fnl true g = Panic.
Proof. exact ro_raw_edge. Qed.
Print Assumptions C26_raw_edge_label_refuted.
Theorem C26_raw_node_label_refuted dir : ∃ (g : graphmap N N) it no eo, gm_reachable dir TU8 g ∧ hash_order g it ∧
  counter_order (node_label_ids g it) no ∧ counter_order (edge_label_ids dir g it) eo ∧
  ∀ fn fel, gm_reorder_id dir TU8 TU8 it no eo fn true fel g = Panic.
Proof. exact (ro_raw_node dir). Qed.
Print Assumptions C26_raw_node_label_refuted.
(** Five nodes with ids 10..50, two node labels and two edge labels in use, one of each unused. *)
Example C26_case dir : ∃ rs s, spec_run ro_history (s_init dir [] []) = SOk (rs, s) ∧
  labels_fit TU8 (sp_nls s) ∧ labels_fit TU8 (sp_els s) ∧
  (∀ x, a_has_node (sp_g s) x → (x < id_card TU8)%N) ∧ size (ag_nodes (sp_g s)) = 5 ∧
  a_total_degree (sp_g s) 40 < a_total_degree (sp_g s) 10.
Proof. exact (ro_case dir). Qed.
Example C26_case_result dir : ∃ g R g', ro_run dir = Ok g ∧ hash_order g ro_it ∧
  counter_order (node_label_ids g ro_it) [1; 2]%N ∧ counter_order (edge_label_ids dir g ro_it) [2; 1]%N ∧
  gm_reorder_id dir TU8 TU8 ro_it [1; 2]%N [2; 1]%N true true true g = Ok R ∧ rr_graph R = Some g' ∧
  rr_map R = Some (if dir then [50; 40; 20; 10; 30]%N else [50; 40; 20; 30; 10]%N) ∧
  rmapl (rr_find_new_node_id TU8 R) [10; 20; 30; 40; 50]%N = Ok (if dir then [3; 2; 4; 1; 0]%N else [4; 2; 3; 1; 0]%N) ∧
  g_nlm g' = [8; 7]%N ∧ g_elm g' = [6; 5]%N ∧
  gm_has_edge g' (if dir then 4 else 3)%N 1 = true ∧ gm_has_edge g' 1 (if dir then 4 else 3)%N = negb dir.
Proof. exact (ro_result dir). Qed.

(** ** C27. For every reachable graph and every result of reorder_id on it. *)
Theorem C27_inverse {NL EL} `{EqDecision NL, EqDecision EL} (dir : bool) (idt lt : idty)
  (g : graphmap NL EL) it no eo fn fnl fel R :
  gm_reachable dir lt g → hash_order g it →
  let V := gm_view dir it g in
  (∀ x, v_has_node V x = true → (x < id_card idt)%N) →
  gm_reorder_id dir idt lt it no eo fn fnl fel g = Ok R →
  if fn : bool then
    (∀ x, if v_has_node V x
          then ∃ y, rr_find_new_node_id idt R x = Ok y ∧ (y < N.of_nat (v_node_count V))%N ∧ rr_get_original_node_id R y = Ok x
          else rr_find_new_node_id idt R x = Panic) ∧
    (∀ y, if decide (y < N.of_nat (v_node_count V))%N
          then ∃ x, rr_get_original_node_id R y = Ok x ∧ v_has_node V x = true ∧ rr_find_new_node_id idt R x = Ok y
          else rr_get_original_node_id R y = Panic)
  else ∀ x, rr_find_new_node_id idt R x = Ok x ∧ rr_get_original_node_id R x = Ok x.
Proof. exact (inverse_main dir idt lt g it no eo fn fnl fel R). Qed.
Print Assumptions C27_inverse.
Example C27_case dir : ∃ g R g', ro_run dir = Ok g ∧ hash_order g ro_it ∧
  gm_reorder_id dir TU8 TU8 ro_it [1; 2]%N [2; 1]%N true true true g = Ok R ∧ rr_graph R = Some g' ∧
  rr_map R = Some (if dir then [50; 40; 20; 10; 30]%N else [50; 40; 20; 30; 10]%N).
Proof. destruct (ro_result dir) as (g & R & g' & H1 & H2 & _ & _ & H3 & H4 & H5 & _). exists g, R, g'. exact (conj H1 (conj H2 (conj H3 (conj H4 H5)))). Qed.
(** take_graph hands out the graph once and leaves the id lookups as they were. *)
Theorem C27_take_graph {NL EL} `{EqDecision NL, EqDecision EL} (dir : bool) (idt lt : idty)
  (g : graphmap NL EL) it no eo fn fnl fel R :
  gm_reorder_id dir idt lt it no eo fn fnl fel g = Ok R →
  ∃ g' R', rr_take_graph R = (Some g', R') ∧ rr_graph R = Some g' ∧ rr_take_graph R' = (None, R') ∧
    ∀ x, rr_find_new_node_id idt R' x = rr_find_new_node_id idt R x ∧ rr_get_original_node_id R' x = rr_get_original_node_id R x.
Proof. exact (take_graph_main dir idt lt g it no eo fn fnl fel R). Qed.
Print Assumptions C27_take_graph.
Example C27_take_graph_case dir : ∃ g R, ro_run dir = Ok g ∧ gm_reorder_id dir TU8 TU8 ro_it [1; 2]%N [2; 1]%N true true true g = Ok R ∧
  rr_find_new_node_id TU8 (rr_take_graph R).2 40 = Ok 1%N.
Proof.
  destruct (ro_result dir) as (g & R & g' & H1 & H2 & _ & _ & H3 & H4 & H5 & _). exists g, R. split; [exact H1|]. split; [exact H3|].
  unfold rr_take_graph, rr_find_new_node_id. cbn [snd rr_map]. rewrite H5. by destruct dir.
Qed.
