(** C117: a graph is the union of its connected subgraphs. *)
From Verif Require Import Base BaseFacts Api Spec SpecOps Map GraphMap GraphOps ViewOps SpecRejoin RejoinProps RejoinWit.

(** ** C117. Taken apart and joined again, in any order: the same graph, edge_count and equal() included. [ord] is any choice of
    an iteration order for each hash table. *)
Theorem C117_rejoin {NL EL} `{EqDecision NL, EqDecision EL} (lt : idty) (V : gview NL EL) A nls els (ord : graphmap NL EL → list N) :
  represents V A → iterates V → exact_count V A → (∀ n, ¬ isolated A n) → uses_labels A nls els → labels_fit lt nls → labels_fit lt els →
  (∀ g, hash_order g (ord g)) →
  ∃ gs, conn_subgraphs lt V = Ok gs ∧ ∀ gs', gs' ≡ₚ gs → ∃ g, join_all lt (ag_dir A) ord gs' = Ok g ∧
    ∀ it, hash_order g it → shows (gm_view (ag_dir A) it g) A ∧ v_equal (gm_view (ag_dir A) it g) V = Ok true.
Proof. exact (rejoin_equal lt V A nls els ord). Qed.
Print Assumptions C117_rejoin.
(** Taking one connected subgraph away leaves the others. *)
Theorem C117_minus {NL EL} `{EqDecision NL, EqDecision EL} (lt : idty) (V : gview NL EL) A nls els (ord : graphmap NL EL → list N) :
  represents V A → iterates V → (∀ n, ¬ isolated A n) → (∀ n, ¬ a_has_edge A n n) → uses_labels A nls els → labels_fit lt nls → labels_fit lt els →
  (∀ g, hash_order g (ord g)) →
  ∃ gs, conn_subgraphs lt V = Ok gs ∧ ∀ gs1 p gs2, gs = gs1 ++ p :: gs2 → ∃ g g' B,
    join_all lt (ag_dir A) ord (gs1 ++ gs2) = Ok g ∧ graph_minus lt V (gm_view (ag_dir A) (ord p) p) = Ok g' ∧
    (∀ it, hash_order g it → shows (gm_view (ag_dir A) it g) B) ∧ (∀ it, hash_order g' it → shows (gm_view (ag_dir A) it g') B).
Proof. intros H1 H2 H3 H4 H5 H6 H7 H8. exact (rejoin_minus lt V A H1 H2 nls els H3 H5 H6 H7 ord H8 H4). Qed.
Print Assumptions C117_minus.
(** Three connected subgraphs with four edges. *)
Example C117_case (dir : bool) : (∀ g, hash_order g (rj_ord g)) ∧ ∃ (V : gview N N) A, represents V A ∧ iterates V ∧ exact_count V A ∧ ag_dir A = dir ∧ (∀ n, ¬ isolated A n) ∧
  (∀ n, ¬ a_has_edge A n n) ∧ uses_labels A [7]%N [5; 4]%N ∧
  rmap length (conn_subgraphs TU8 V) = Ok 3 ∧
  rmap gm_edge_count (let* gs := conn_subgraphs TU8 V in join_all TU8 dir rj_ord (reverse gs)) = Ok 4.
Proof. exact (conj rj_ord_ok (rj_case dir)). Qed.
