(** C83: the generators for numbers of nodes that do not fit the id type. [shows_wrapped]
    (SpecGenWrap.v): node ids are the numbers 0..n-1 modulo the number [id_card] of ids, there
    is an edge for every pair of numbers in [ps], and edge_count() is the length of [ps]. *)
From stdpp Require Import gmap.
From Coq.Floats Require Import SpecFloat.
From Verif Require Import Base BaseFacts Api Spec Map GraphMap SpecGen SpecGenWrap Gen GenWrap Properties_Gen.

(** ** C83. No hypothesis on n: with [id_card idt < n] different numbers share an id. *)
Theorem C83_complete {NL EL} `{EqDecision NL, EqDecision EL} (dir : bool) (idt : idty) (R : rng)
  (n : nat) (nls : list NL) (els : list EL) :
  ∃ g, complete_graph dir idt R n nls els = Ok g ∧
    ∃ ps A, (∀ it, hash_order g it → shows_wrapped dir (id_card idt) n nls els ps (gm_view dir it g) A) ∧
      pairs_below dir n ps ∧ length ps = (if dir then n * (n - 1) else n * (n - 1) / 2).
Proof. exact (complete_wrap dir idt R n nls els). Qed.
Print Assumptions C83_complete.
Theorem C83_gnm {NL EL} `{EqDecision NL, EqDecision EL} (dir : bool) (idt : idty) (R : rng)
  (n m : nat) (nls : list NL) (els : list EL) :
  m ≤ (if dir then n * (n - 1) else n * (n - 1) / 2) →
  ∃ g, random_gnm_graph dir idt R n m nls els = Ok g ∧
    ∃ ps A, (∀ it, hash_order g it → shows_wrapped dir (id_card idt) n nls els ps (gm_view dir it g) A) ∧
      pairs_below dir n ps ∧ length ps = m.
Proof. exact (gnm_wrap dir idt R n m nls els). Qed.
Print Assumptions C83_gnm.
Theorem C83_gnp {NL EL} `{EqDecision NL, EqDecision EL} (dir : bool) (idt : idty) (R : rng)
  (n : nat) (p : spec_float) (nls : list NL) (els : list EL) :
  in_unit p → is_f32 p →
  ∃ g, random_gnp_graph dir idt R n p nls els = Ok g ∧
    ∃ ps A, (∀ it, hash_order g it → shows_wrapped dir (id_card idt) n nls els ps (gm_view dir it g) A) ∧ pairs_below dir n ps.
Proof. exact (gnp_wrap dir idt R n p nls els). Qed.
Print Assumptions C83_gnp.
(** What this means for a complete graph on too many nodes: all ids are used, node 0 has a
    self-loop and edge_count() exceeds the number of edges. *)
Theorem C83_too_many {NL EL} `{EqDecision NL, EqDecision EL} (dir : bool) (idt : idty) (R : rng)
  (n : nat) (nls : list NL) (els : list EL) : (id_card idt < N.of_nat n)%N →
  ∃ g, complete_graph dir idt R n nls els = Ok g ∧
    ∃ A, ∀ it, hash_order g it → let V := gm_view dir it g in
      represents V A ∧ iterates V ∧ (∀ x, a_has_node A x ↔ (x < id_card idt)%N) ∧
      a_has_edge A 0 0 ∧ (dir = true ∨ 3 ≤ n → a_num_edges A < v_edge_count V).
Proof.
  intros Hn. destruct (complete_wrap dir idt R n nls els) as (g & Hg & ps & A & HA & HP & Hl).
  exists g. split; [done|]. exists A. intros it Hit V. specialize (HA it Hit).
  split; [apply HA|]. split; [apply HA|]. split.
  - intros x. rewrite (sw_nodes _ _ _ _ _ _ _ _ HA). lia.
  - by apply (complete_oversize dir (id_card idt) n nls els ps V A (id_card_pos idt)).
Qed.
Print Assumptions C83_too_many.
Example C83_case dir : (id_card TUnit < N.of_nat 3)%N ∧
  count_of_gen (complete_graph dir TUnit dice 3 [10; 20; 10]%N []) = Some (1, if dir then 6 else 3) ∧
  count_of_gen (random_gnm_graph dir TUnit dice 3 2 [10; 20; 10]%N []) = Some (1, 2) ∧ in_unit half ∧ is_f32 half.
Proof. destruct dir; (split_and!; [vm_compute; done..|by left|done]). Qed.
