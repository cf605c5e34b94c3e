(** C87: what into_static builds from any graph. [frozen] is in SpecStaticAll.v. *)
From Verif Require Import Base BaseFacts Api Spec Map GraphMap Static IntoStatic SpecStaticAll IntoStaticAll StaticAllWit.

(** Whatever calls built the graph (also calls that write label ids directly), every
    answer of the static graph is fixed by the answers of the original. *)
Theorem C87_into_static_exactly {NL EL} `{EqDecision NL, EqDecision EL} (idt lt : idty) (dir : bool) (g : graphmap NL EL) ord n :
  gm_reachable dir lt g → hash_order g ord →
  v_has_node (gm_view dir ord g) n = true → (∀ n, v_has_node (gm_view dir ord g) n = true → (n < id_max idt)%N) →
  ∃ sg, gm_into_static idt lt dir g = Ok sg ∧ frozen lt (gm_view dir ord g) (sg_view idt lt dir sg).
Proof. exact (into_static_frozen idt lt dir g ord n). Qed.
Print Assumptions C87_into_static_exactly.
Example C87_case dir : gm_reachable dir TU8 (sa_g dir) ∧ hash_order (sa_g dir) (map_to_list (g_nodes (sa_g dir))).*1 ∧
  let V := gm_view dir (map_to_list (g_nodes (sa_g dir))).*1 (sa_g dir) in
  v_has_node V 9%N = true ∧ (∀ n, v_has_node V n = true → (n < id_max TU8)%N) ∧
  (v_node_count V, v_has_node V 1%N, v_get_node V 4%N, v_get_edge V 4%N 2%N) = (4, false, Ok (Some (4%N, Some 0%N)), Ok (Some (4%N, 2%N, Some 1%N))) ∧
  v_get_edge V 2%N 4%N = (if dir then Ok None else Ok (Some (2%N, 4%N, None))).
Proof. exact (sa_case dir). Qed.

(** It panics exactly for the graph without nodes and when the largest id of the type is
    in use. *)
Theorem C87_panics {NL EL} `{EqDecision NL, EqDecision EL} (idt lt : idty) (dir : bool) (g : graphmap NL EL) ord :
  gm_reachable dir lt g → hash_order g ord → idt ≠ TUnit → (∀ n, v_has_node (gm_view dir ord g) n = true → (n ≤ id_max idt)%N) →
  gm_into_static idt lt dir g = Panic ↔
  v_node_count (gm_view dir ord g) = 0 ∨ v_has_node (gm_view dir ord g) (id_max idt) = true.
Proof. exact (into_static_panics idt lt dir g ord). Qed.
Print Assumptions C87_panics.
Example C87_panics_case dir : gm_reachable dir TU8 (sa_g dir) ∧ hash_order (sa_g dir) (map_to_list (g_nodes (sa_g dir))).*1 ∧
  TU8 ≠ TUnit ∧ ∀ n, v_has_node (gm_view dir (map_to_list (g_nodes (sa_g dir))).*1 (sa_g dir)) n = true → (n ≤ id_max TU8)%N.
Proof. destruct (sa_case dir) as (H1 & H2 & _ & H3 & _). split_and!; [done|done|done|]. intros n Hn. apply N.lt_le_incl, H3, Hn. Qed.
