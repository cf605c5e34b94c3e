(** C107: the random generators are fair. A draw that [rng_int] makes below a bound is taken to have each outcome equally often,
    independently of the other draws; that is the rand crate's contract. So a chance is a number of outcomes, and these theorems count them. *)
From Coq Require Import Factorial QArith.
From stdpp Require Import gmap.
From Coq.Floats Require Import SpecFloat.
From Verif Require Import Base BaseFacts Api Spec SpecLabelHist GraphMap SpecGen SpecGenWrap Gen SpecGenLaw GenLawProps Properties_Gen.
Local Open Scope nat_scope.

(** Whatever all the other draws are: among the outcomes of the draws that choose the edges, every set of m possible edges is
    the result of equally many, (M - m)!, where M is the number of possible edges. *)
Theorem C107_gnm_uniform {NL EL} `{EqDecision NL, EqDecision EL} (dir : bool) (idt : idty) (R : rng)
  (n : nat) (nls : list NL) (els : list EL) (T : list (nat * nat)) :
  (N.of_nat n ≤ id_card idt)%N → pairs_below dir n T →
  let m := length T in let M := max_edges dir n in
  exactly (fact (M - m)) (λ ds, outcome (seq (S m) (M - m)) ds ∧
    ∃ g A, random_gnm_graph dir idt (with_draws R (label_draws n nls) ds) n m nls els = Ok g ∧
      (∀ it, hash_order g it → represents (gm_view dir it g) A) ∧ joins dir T A).
Proof. exact (gnm_uniform dir idt n nls els R T). Qed.
Print Assumptions C107_gnm_uniform.
(** There are M!/m! outcomes, so every set has the chance m! (M - m)! / M!, one over the number of sets. *)
Theorem C107_gnm_outcomes (dir : bool) (n m : nat) :
  let M := max_edges dir n in
  m ≤ M → ∃ K, exactly K (outcome (seq (S m) (M - m))) ∧ K * fact m = fact M.
Proof. exact (gnm_outcomes dir n m). Qed.
Print Assumptions C107_gnm_outcomes.
(** The labels come from draws of their own: that of node i from the draw i, those of the edges from draws after the ones that chose the
    edges, a different one for every edge. *)
Theorem C107_gnm_labels {NL EL} `{EqDecision NL, EqDecision EL} (dir : bool) (idt : idty) (n m : nat) (nls : list NL) (els : list EL) :
  let M := max_edges dir n in
  (N.of_nat n ≤ id_card idt)%N → labels_have_ids idt nls → labels_have_ids idt els → m ≤ M →
  ∃ pos : rng → N * N → nat, (∀ R R', same_numbers (label_draws n nls + (M - m)) R R' → pos R = pos R') ∧
    ∀ R, ∃ g A, random_gnm_graph dir idt R n m nls els = Ok g ∧ (∀ it, hash_order g it → represents (gm_view dir it g) A) ∧
      node_labels_by_draws n nls R A ∧ told_apart dir (a_has_edge A) (pos R) ∧
      ∀ x y, a_has_edge A x y → label_draws n nls + (M - m) ≤ pos R (x, y) ∧ a_edge_at A x y = Some (picked els (rng_int R (pos R (x, y)))).
Proof. exact (gnm_labels dir idt n m nls els). Qed.
Print Assumptions C107_gnm_labels.
(** complete_graph: the draw for the label of an edge does not depend on other draws. *)
Theorem C107_complete_labels {NL EL} `{EqDecision NL, EqDecision EL} (dir : bool) (idt : idty) (n : nat) (nls : list NL) (els : list EL) :
  (N.of_nat n ≤ id_card idt)%N → labels_have_ids idt nls → labels_have_ids idt els →
  ∃ pos : N * N → nat, told_apart dir (possible_edge n) pos ∧ (∀ e, label_draws n nls ≤ pos e) ∧
    ∀ R, ∃ g A, complete_graph dir idt R n nls els = Ok g ∧ (∀ it, hash_order g it → represents (gm_view dir it g) A) ∧
      node_labels_by_draws n nls R A ∧
      ∀ x y, possible_edge n x y → a_edge_at A x y = Some (picked els (rng_int R (pos (x, y)))).
Proof. exact (complete_labels dir idt n nls els). Qed.
Print Assumptions C107_complete_labels.
(** random_gnp_graph: every possible edge has a draw of its own, which the earlier draws determine; it is there exactly when the fraction
    drawn is below p. The label comes from the next draw, which decides about no edge. *)
Theorem C107_gnp_draws {NL EL} `{EqDecision NL, EqDecision EL} (dir : bool) (idt : idty) (n : nat) (p : spec_float) (nls : list NL) (els : list EL) :
  (N.of_nat n ≤ id_card idt)%N → labels_have_ids idt nls → labels_have_ids idt els → is_f32 p → in_unit p →
  ∃ pos : rng → N * N → nat, (∀ R R' e, same_fractions (pos R e) R R' → pos R' e = pos R e) ∧
    ∀ R, (∀ j, is_f32 (rng_f32 R j) ∧ below_one (rng_f32 R j)) →
    told_apart dir (possible_edge n) (pos R) ∧ (∀ e, label_draws n nls ≤ pos R e) ∧
    ∃ g A, random_gnp_graph dir idt R n p nls els = Ok g ∧ (∀ it, hash_order g it → represents (gm_view dir it g) A) ∧
      node_labels_by_draws n nls R A ∧
      (∀ x y, a_has_edge A x y ↔ possible_edge n x y ∧ (float_value (rng_f32 R (pos R (x, y))) < float_value p)%Q) ∧
      ∀ x y, a_has_edge A x y → a_edge_at A x y = Some (picked els (rng_int R (S (pos R (x, y))))) ∧
        (els ≠ [] → ∀ e, pos R e ≠ S (pos R (x, y))).
Proof. exact (gnp_draws dir idt n p nls els). Qed.
Print Assumptions C107_gnp_draws.
(** Every label is selected by exactly one outcome of a draw below the number of labels, however often it is listed. *)
Theorem C107_label_fair {X} `{EqDecision X} (ls : list X) (x : X) :
  x ∈ ls → exactly 1 (λ d, d < length (first_uses ls) ∧ picked ls d = Some x).
Proof. exact (label_fair ls x). Qed.
Print Assumptions C107_label_fair.

(** Concrete cases: two of the three possible edges of three nodes. *)
Example C107_gnm_case : ∃ (nls : list N) (els : list N) (T : list (nat * nat)), (N.of_nat 3 ≤ id_card TU8)%N ∧ pairs_below false 3 T ∧ length T = 2 ∧
  max_edges false 3 = 3 ∧ labels_have_ids TU8 nls ∧ labels_have_ids TU8 els ∧ 2 ≤ length (first_uses nls) ∧ 2 ≤ length (first_uses els) ∧
  (* the three outcomes of the one draw below 3, and the sets they give *)
  ((λ d, match random_gnm_graph false TU8 (with_draws dice (label_draws 3 nls) [d]) 3 2 nls els with
         | Ok g => (λ p, gm_has_edge g p.1 p.2) <$> [(0, 1); (0, 2); (1, 2)]%N | _ => [] end) <$> [0; 1; 2])
  = [[false; true; true]; [true; false; true]; [true; true; false]].
Proof.
  exists [10; 20; 10]%N, [7; 8]%N, [(0, 2); (0, 1)]. split; [done|]. split.
  { split; [by apply (bool_decide_unpack _); vm_compute|]. intros p Hp. rewrite !elem_of_cons, elem_of_nil in Hp. destruct Hp as [->|[->|[]]]; cbn; lia. }
  split; [done|]. split; [done|]. split; [by vm_compute|]. split; [by vm_compute|]. split; [by apply Nat.leb_le; vm_compute|]. split; [by apply Nat.leb_le; vm_compute|].
  by vm_compute.
Qed.
Example C107_gnp_case : is_f32 half ∧ in_unit half ∧ (∀ j, is_f32 (rng_f32 dice j) ∧ below_one (rng_f32 dice j)) ∧ (float_value half == 1 # 2)%Q ∧
  possible_edge 5 0 3 ∧ (20%N : N) ∈ [10; 20; 10]%N.
Proof. split; [done|]. split; [by left|]. split; [exact dice_unit|]. split; [by vm_compute|]. split; [by unfold possible_edge|]. by apply (bool_decide_unpack _). Qed.
