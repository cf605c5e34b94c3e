(** C79, C80: laws of graph_union and graph_minus. [union_is lt V0 V1 A] (SpecOpsLaws.v): the
    call returns a graph that, with any hash order, is [A]; [minus_is] also counts its edges
    exactly. *)
From Verif Require Import Base Api Spec SpecOps SpecOpsLaws Map GraphMap GraphOps GraphOpsLaws ViewOps.

(** ** C79. Union: idempotent, the empty graph is a unit, commutative where labels agree,
    associative. *)
Theorem C79_idempotent {NL EL} `{EqDecision NL, EqDecision EL} lt (V : gview NL EL) A nls els :
  represents V A → uses_labels A nls els → labels_fit lt nls → labels_fit lt els → union_is lt V V A.
Proof. exact (union_self lt V A nls els). Qed.
Print Assumptions C79_idempotent.
Theorem C79_unit {NL EL} `{EqDecision NL, EqDecision EL} lt (V Ve : gview NL EL) A dir nls els :
  represents V A → represents Ve (a_empty dir) → dir = ag_dir A →
  uses_labels A nls els → labels_fit lt nls → labels_fit lt els → union_is lt V Ve A ∧ union_is lt Ve V A.
Proof. exact (union_unit lt V A Ve dir nls els). Qed.
Print Assumptions C79_unit.
Theorem C79_commutative {NL EL} `{EqDecision NL, EqDecision EL} lt (V0 V1 : gview NL EL) A0 A1 nls els :
  represents V0 A0 → represents V1 A1 → ag_dir A0 = ag_dir A1 → same_labels A0 A1 →
  uses_labels A0 nls els → uses_labels A1 nls els → labels_fit lt nls → labels_fit lt els →
  ∃ A, union_is lt V0 V1 A ∧ union_is lt V1 V0 A.
Proof. exact (union_commute lt V0 A0 V1 A1 nls els). Qed.
Print Assumptions C79_commutative.
Theorem C79_associative {NL EL} `{EqDecision NL, EqDecision EL} lt (V0 V1 V2 : gview NL EL) A0 A1 A2 nls els :
  represents V0 A0 → represents V1 A1 → represents V2 A2 → (ag_dir A0 = ag_dir A1 ∧ ag_dir A1 = ag_dir A2) →
  uses_labels A0 nls els → uses_labels A1 nls els → uses_labels A2 nls els → labels_fit lt nls → labels_fit lt els →
  ∃ g01 g12 A, graph_union lt V0 V1 = Ok g01 ∧ graph_union lt V1 V2 = Ok g12 ∧ ∀ it it', hash_order g01 it → hash_order g12 it' →
    union_is lt (gm_view (ag_dir A0) it g01) V2 A ∧ union_is lt V0 (gm_view (ag_dir A0) it' g12) A.
Proof. exact (union_associate lt V0 A0 V1 A1 V2 A2 nls els). Qed.
Print Assumptions C79_associative.
(** An undirected graph joined with any graph: all edges in both directions. *)
Theorem C79_undirected_first {NL EL} `{EqDecision NL, EqDecision EL} lt (V0 V1 : gview NL EL) A0 A1 nls els :
  represents V0 A0 → represents V1 A1 → ag_dir A0 = false →
  uses_labels A0 nls els → uses_labels A1 nls els → labels_fit lt nls → labels_fit lt els →
  ∃ g A, graph_union lt V0 V1 = Ok g ∧ ag_dir A = false ∧ ag_nodes A = ag_nodes A1 ∪ ag_nodes A0 ∧
    (∀ s t, a_has_edge A s t ↔ a_has_edge A0 s t ∨ a_has_edge A1 s t ∨ a_has_edge A1 t s) ∧
    (∀ s t l, a_edge_at A s t = Some l → a_edge_at A1 s t = Some l ∨ a_edge_at A1 t s = Some l ∨
       (¬ a_has_edge A1 s t ∧ ¬ a_has_edge A1 t s ∧ a_edge_at A0 s t = Some l)) ∧
    ∀ it, hash_order g it → let V := gm_view false it g in
      represents V A ∧ answers_missing V A ∧ iterates V ∧ v_edge_count V = a_num_edges A0 + a_num_edges A1.
Proof. exact (union_mixed_thm lt V0 A0 V1 A1 nls els). Qed.
Print Assumptions C79_undirected_first.
Example C79_undirected_first_case : ∃ (V0 V1 : gview N N) A0 A1, represents V0 A0 ∧ represents V1 A1 ∧ ag_dir A0 = false ∧ ag_dir A1 = true ∧
  uses_labels A0 [7; 8]%N [5; 6]%N ∧ uses_labels A1 [7; 8]%N [5; 6]%N ∧ a_edge_at A1 1 2 = Some None ∧ a_edge_at A1 2 1 = Some (Some 6%N) ∧
  a_edge_at A0 1 2 = Some (Some 5%N) ∧ a_has_edge A1 3 2 ∧ ¬ a_has_edge A1 2 3.
Proof. exact mixed_case. Qed.
(** But equal(g + g, g) is false for every graph with an edge, since the union counts an
    edge of both graphs twice. *)
Theorem C79_equal_refuted {NL EL} `{EqDecision NL, EqDecision EL} lt (V : gview NL EL) A nls els :
  represents V A → exact_count V A → uses_labels A nls els → labels_fit lt nls → labels_fit lt els →
  ∃ g, graph_union lt V V = Ok g ∧ ∀ it, hash_order g it →
    ∃ b, v_equal (gm_view (ag_dir A) it g) V = Ok b ∧ (b = true ↔ a_num_edges A = 0).
Proof. exact (union_self_equal lt V A nls els). Qed.
Print Assumptions C79_equal_refuted.

(** ** C80. Difference: g - g is empty, g - 0 is g, (g - h) - k is g - (h + k), (g + h) - h
    is g - h; without self-loops on removed nodes (C51). *)
Theorem C80_self {NL EL} `{EqDecision NL, EqDecision EL} lt (V : gview NL EL) A nls els :
  represents V A → (∀ n, ¬ a_has_edge A n n) → uses_labels A nls els → labels_fit lt nls → labels_fit lt els →
  minus_is lt V V (a_empty (ag_dir A)).
Proof. exact (minus_self lt V A nls els). Qed.
Print Assumptions C80_self.
Theorem C80_empty {NL EL} `{EqDecision NL, EqDecision EL} lt (V Ve : gview NL EL) A dir nls els :
  represents V A → represents Ve (a_empty dir) → uses_labels A nls els → labels_fit lt nls → labels_fit lt els →
  minus_is lt V Ve A.
Proof. exact (minus_empty lt V A Ve dir nls els). Qed.
Print Assumptions C80_empty.
Theorem C80_minus_minus {NL EL} `{EqDecision NL, EqDecision EL} lt (V0 V1 V2 : gview NL EL) A0 A1 A2 nls els :
  represents V0 A0 → represents V1 A1 → represents V2 A2 →
  (ag_dir A1 = true ∨ ag_dir A2 = false) → (∀ n, a_has_node A1 n ∨ a_has_node A2 n → ¬ a_has_edge A0 n n) →
  uses_labels A0 nls els → uses_labels A1 nls els → uses_labels A2 nls els → labels_fit lt nls → labels_fit lt els →
  ∃ g01 g12 A, graph_minus lt V0 V1 = Ok g01 ∧ graph_union lt V1 V2 = Ok g12 ∧ ∀ it it', hash_order g01 it → hash_order g12 it' →
    minus_is lt (gm_view (ag_dir A0) it g01) V2 A ∧ minus_is lt V0 (gm_view (ag_dir A1) it' g12) A.
Proof. exact (minus_minus lt V0 A0 V1 A1 V2 A2 nls els). Qed.
Print Assumptions C80_minus_minus.
Theorem C80_union_minus {NL EL} `{EqDecision NL, EqDecision EL} lt (V0 V1 : gview NL EL) A0 A1 nls els :
  represents V0 A0 → represents V1 A1 →
  (ag_dir A0 = true ∨ ag_dir A1 = false) → (∀ n, a_has_node A1 n → ¬ a_has_edge A0 n n ∧ ¬ a_has_edge A1 n n) →
  uses_labels A0 nls els → uses_labels A1 nls els → labels_fit lt nls → labels_fit lt els →
  ∃ g A, graph_union lt V0 V1 = Ok g ∧ minus_is lt V0 V1 A ∧ ∀ it, hash_order g it → minus_is lt (gm_view (ag_dir A0) it g) V1 A.
Proof. exact (union_minus lt V0 A0 V1 A1 nls els). Qed.
Print Assumptions C80_union_minus.
(** Three graphs that meet the hypotheses of C79 and C80; the second shares a labelled edge
    with the first, the third disagrees with it about the label of a node. *)
Example C79_C80_case dir : ∃ (V0 V1 V2 Ve : gview N N) A0 A1 A2, represents V0 A0 ∧ represents V1 A1 ∧ represents V2 A2 ∧ represents Ve (a_empty dir) ∧
  (ag_dir A0 = dir ∧ ag_dir A1 = dir ∧ ag_dir A2 = dir) ∧
  (uses_labels A0 [7; 8]%N [5; 6]%N ∧ uses_labels A1 [7; 8]%N [5; 6]%N ∧ uses_labels A2 [7; 8]%N [5; 6]%N) ∧ exact_count V0 A0 ∧ a_num_edges A0 = 2 ∧
  same_labels A0 A1 ∧ A0 ≠ A1 ∧ a_edge_at A0 2 3 = Some (Some 6%N) ∧ a_has_edge A1 2 3 ∧ ¬ same_labels A0 A2 ∧
  (∀ n, ¬ a_has_edge A0 n n) ∧ (∀ n, ¬ a_has_edge A1 n n).
Proof. exact (laws_case dir). Qed.
