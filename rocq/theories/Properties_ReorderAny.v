(** C26 for every reachable graph, whatever was written to label ids: when reorder_id panics,
    and what it gives otherwise. *)
From Verif Require Import Base Api Spec Map GraphMap GraphMapProps SpecReorder Reorder SpecReorderAny ReorderAny ReorderAnyWit.

(** ** C26. [it] is the iteration order of the node table, [no] and [eo] are those of the label
    counters. *)
Theorem C26_exact {NL EL} `{EqDecision NL, EqDecision EL} (dir : bool) (idt lt : idty)
  (g : graphmap NL EL) it no eo fn fnl fel :
  gm_reachable dir lt g → hash_order g it →
  let V := gm_view dir it g in
  (∀ x, v_has_node V x = true → (x < id_card idt)%N) → label_ids_typed lt V →
  counter_order (node_label_ids g it) no → counter_order (edge_label_ids dir g it) eo →
  ((fnl = true ∧ nameless_node V) ∨ (fel = true ∧ nameless_edge dir V) → gm_reorder_id dir idt lt it no eo fn fnl fel g = Panic) ∧
  (¬ ((fnl = true ∧ nameless_node V) ∨ (fel = true ∧ nameless_edge dir V)) →
   ∃ R g' f, gm_reorder_id dir idt lt it no eo fn fnl fel g = Ok R ∧ rr_graph R = Some g' ∧
    (∀ x, v_has_node V x = true → rr_find_new_node_id idt R x = Ok (f x)) ∧
    ∀ it', hash_order g' it' →
      let V' := gm_view dir it' g' in
      (∀ y, v_has_node V' y = true ↔ ∃ x, v_has_node V x = true ∧ f x = y) ∧
      (∀ x y, v_has_node V x = true → v_has_node V y = true →
        (f x = f y → x = y) ∧
        v_has_edge V' (f x) (f y) = v_has_edge V x y ∧
        v_node_label V' (f x) = v_node_label V x ∧
        v_edge_label V' (f x) (f y) = v_edge_label V x y) ∧
      v_node_count V' = v_node_count V ∧ v_edge_count V' = v_edge_count V).
Proof. exact (reorder_exact dir idt lt g it no eo fn fnl fel). Qed.
Print Assumptions C26_exact.
(** The two ends of an edge show different labels, and the graph is renumbered all the same. *)
Example C26_exact_good : ∃ (g : graphmap N N), gm_reachable false TU8 g ∧ hash_order g [20; 10; 30]%N ∧
  (let V := gm_view false [20; 10; 30]%N g in
   label_ids_typed TU8 V ∧ (∀ x, v_has_node V x = true → (x < id_card TU8)%N) ∧
   v_edge_label V 10 20 = Ok (Some 5%N) ∧ v_edge_label V 20 10 = Ok (Some 4%N)) ∧
  counter_order (node_label_ids g [20; 10; 30]%N) [] ∧ counter_order (edge_label_ids false g [20; 10; 30]%N) [1; 0]%N ∧
  ∃ R, gm_reorder_id false TU8 TU8 [20; 10; 30]%N [] [1; 0]%N true true true g = Ok R.
Proof. exact ra_good. Qed.
(** Without the third node it panics, because label 4 shows at one end of one edge only. *)
Example C26_exact_bad : ∃ (g : graphmap N N), gm_reachable false TU8 g ∧ hash_order g [20; 10]%N ∧
  (let V := gm_view false [20; 10]%N g in
   label_ids_typed TU8 V ∧ (∀ x, v_has_node V x = true → (x < id_card TU8)%N) ∧
   v_edge_label V 10 20 = Ok (Some 5%N) ∧ v_edge_label V 20 10 = Ok (Some 4%N) ∧ ¬ nameless_node V ∧ nameless_edge false V) ∧
  counter_order (node_label_ids g [20; 10]%N) [] ∧ counter_order (edge_label_ids false g [20; 10]%N) [1]%N ∧
  gm_reorder_id false TU8 TU8 [20; 10]%N [] [1]%N true true true g = Panic.
Proof. exact ra_bad_case. Qed.
