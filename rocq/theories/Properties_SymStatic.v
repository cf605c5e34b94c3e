(** C118: freezing both graphs. *)
From Verif Require Import Base Api Spec GraphMap Static SpecSym SymStatic.

(** ** C118. If a directed graph stands for an undirected one and the ids are 0 .. n-1, then so do
    the static graphs that into_static makes of them. *)
Theorem C118_static {NL EL} `{EqDecision NL, EqDecision EL} idt lt (g g' : graphmap NL EL) ord ord' A B n :
  represents (gm_view false ord g) A → represents (gm_view true ord' g') B → stands_for (gm_view true ord' g') (gm_view false ord g) →
  a_has_node A n → (∀ n, a_has_node A n → (n < id_max idt)%N) → (∀ n m, a_has_node A n → (m < n)%N → a_has_node A m) →
  (N.of_nat (length (g_nlm g)) ≤ id_max lt)%N → (N.of_nat (length (g_elm g)) ≤ id_max lt)%N →
  ∃ sg sg', gm_into_static idt lt false g = Ok sg ∧ gm_into_static idt lt true g' = Ok sg' ∧
    stands_for (sg_view idt lt true sg') (sg_view idt lt false sg).
Proof. exact (sym_frozen idt lt g g' ord ord' A B n). Qed.
Print Assumptions C118_static.
Example C118_static_case : ∃ (g g' : graphmap N N) ord ord' A B,
  represents (gm_view false ord g) A ∧ represents (gm_view true ord' g') B ∧ stands_for (gm_view true ord' g') (gm_view false ord g) ∧
  a_has_node A 0%N ∧ (∀ n, a_has_node A n → (n < id_max TU8)%N) ∧ (∀ n m, a_has_node A n → (m < n)%N → a_has_node A m) ∧
  g_nlm g = [9]%N ∧ g_elm g = [7; 8]%N ∧ a_num_nodes A = 4 ∧ a_num_edges A = 3 ∧ a_num_edges B = 5.
Proof. exact sy_frozen_case. Qed.
