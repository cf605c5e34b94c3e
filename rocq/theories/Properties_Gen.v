(** C52-C54: the graph generators. [R] fixes the outcome of every random draw, so each theorem
    holds for all outcomes; [idt] is the node (and label) id type. [shows_random] (SpecGen.v)
    says that the API shows a graph with nodes 0..n-1, no self-loops, an exact edge count and
    labels drawn from the given lists. *)
From stdpp Require Import gmap.
From Coq.Floats Require Import SpecFloat.
From Verif Require Import Base BaseFacts Api Spec Map GraphMap SpecGen Gen GenFacts GenProps.

(** ** C52. For every n whose node ids 0..n-1 fit the id type. *)
Theorem C52_complete_graph {NL EL} `{EqDecision NL, EqDecision EL} (dir : bool) (idt : idty) (R : rng)
  (n : nat) (nls : list NL) (els : list EL) :
  (N.of_nat n ≤ id_card idt)%N →
  ∃ g, complete_graph dir idt R n nls els = Ok g ∧
  ∃ A, (∀ it, hash_order g it → shows_random dir n nls els (gm_view dir it g) A) ∧
    all_joined A ∧ a_num_edges A = (if dir then n * (n - 1) else n * (n - 1) / 2).
Proof. exact (complete_thm dir idt R n nls els). Qed.
Print Assumptions C52_complete_graph.
(** The graph without edges that every generator starts from. *)
Theorem C52_empty_graph {NL EL} `{EqDecision NL, EqDecision EL} (dir : bool) (idt : idty) (R : rng)
  (n : nat) (nls : list NL) (els : list EL) (k : nat) :
  (N.of_nat n ≤ id_card idt)%N →
  ∃ k' g, empty_graph idt R n nls els k = Ok (k', g) ∧
  ∃ A, (∀ it, hash_order g it → shows_random dir n nls els (gm_view dir it g) A) ∧ edge_free A.
Proof. exact (empty_graph_thm dir idt R n nls els k). Qed.
Print Assumptions C52_empty_graph.
(** The unlabelled variants: the same graphs with no label to draw from. *)
Theorem C52_unlabeled {NL EL} `{EqDecision NL, EqDecision EL} (dir : bool) (idt : idty) (R : rng) (n : nat) :
  (N.of_nat n ≤ id_card idt)%N →
  (∃ k g, empty_graph_unlabeled (NL := NL) (EL := EL) idt R n = Ok (k, g) ∧
    ∃ A, (∀ it, hash_order g it → shows_random dir n [] [] (gm_view dir it g) A) ∧ edge_free A) ∧
  (∃ g, complete_graph_unlabeled (NL := NL) (EL := EL) dir idt R n = Ok g ∧
    ∃ A, (∀ it, hash_order g it → shows_random dir n [] [] (gm_view dir it g) A) ∧
      all_joined A ∧ a_num_edges A = (if dir then n * (n - 1) else n * (n - 1) / 2)).
Proof. intros Hn. exact (conj (empty_graph_thm dir idt R n [] [] 0 Hn) (complete_thm dir idt R n [] [] Hn)). Qed.
Print Assumptions C52_unlabeled.

(** ** C53. *)
Theorem C53_gnm {NL EL} `{EqDecision NL, EqDecision EL} (dir : bool) (idt : idty) (R : rng)
  (n m : nat) (nls : list NL) (els : list EL) :
  (N.of_nat n ≤ id_card idt)%N →
  ((if dir then n * (n - 1) else n * (n - 1) / 2) < m → random_gnm_graph dir idt R n m nls els = Panic) ∧
  (m ≤ (if dir then n * (n - 1) else n * (n - 1) / 2) →
    ∃ g, random_gnm_graph dir idt R n m nls els = Ok g ∧
    ∃ A, (∀ it, hash_order g it → shows_random dir n nls els (gm_view dir it g) A) ∧ a_num_edges A = m).
Proof. exact (gnm_thm dir idt R n m nls els). Qed.
Print Assumptions C53_gnm.
Theorem C53_unlabeled {NL EL} `{EqDecision NL, EqDecision EL} (dir : bool) (idt : idty) (R : rng) (n m : nat) :
  (N.of_nat n ≤ id_card idt)%N →
  ((if dir then n * (n - 1) else n * (n - 1) / 2) < m → random_gnm_graph_unlabeled (NL := NL) (EL := EL) dir idt R n m = Panic) ∧
  (m ≤ (if dir then n * (n - 1) else n * (n - 1) / 2) →
    ∃ g, random_gnm_graph_unlabeled (NL := NL) (EL := EL) dir idt R n m = Ok g ∧
    ∃ A, (∀ it, hash_order g it → shows_random dir n [] [] (gm_view dir it g) A) ∧ a_num_edges A = m).
Proof. exact (gnm_thm dir idt R n m [] []). Qed.
Print Assumptions C53_unlabeled.

(** ** C54. For every p that is a number; draws from gen_range(0f32, 1f32) lie in [0,1). *)
Theorem C54_gnp_partial {NL EL} `{EqDecision NL, EqDecision EL} (dir : bool) (idt : idty) (R : rng)
  (n : nat) (p : spec_float) (nls : list NL) (els : list EL) :
  (N.of_nat n ≤ id_card idt)%N → is_f32 p → p ≠ S754_nan →
  (∀ j, is_f32 (rng_f32 R j) ∧ below_one (rng_f32 R j)) →
  (¬ in_unit p → random_gnp_graph dir idt R n p nls els = Panic) ∧
  (in_unit p → ∃ g, random_gnp_graph dir idt R n p nls els = Ok g ∧
    ∃ A, (∀ it, hash_order g it → shows_random dir n nls els (gm_view dir it g) A) ∧
      (is_zero p → edge_free A) ∧ (p = f32_one → all_joined A)).
Proof.
  intros Hf Hp Hn Hd. destruct (gnp_thm dir idt R n p nls els Hf Hp Hd) as [H1 H2].
  split; [by apply H1|]. intros Hu. destruct (H2 (or_introl Hu)) as (g & Hg & A & HA & Hz & Ho).
  exists g. split; [exact Hg|]. exists A. split; [exact HA|]. split; [intros Hp0; apply Hz; by left|exact Ho].
Qed.
Print Assumptions C54_gnp_partial.
Theorem C54_unlabeled_partial {NL EL} `{EqDecision NL, EqDecision EL} (dir : bool) (idt : idty) (R : rng) (n : nat) (p : spec_float) :
  (N.of_nat n ≤ id_card idt)%N → is_f32 p → p ≠ S754_nan →
  (∀ j, is_f32 (rng_f32 R j) ∧ below_one (rng_f32 R j)) →
  (¬ in_unit p → random_gnp_graph_unlabeled (NL := NL) (EL := EL) dir idt R n p = Panic) ∧
  (in_unit p → ∃ g, random_gnp_graph_unlabeled (NL := NL) (EL := EL) dir idt R n p = Ok g ∧
    ∃ A, (∀ it, hash_order g it → shows_random dir n [] [] (gm_view dir it g) A) ∧
      (is_zero p → edge_free A) ∧ (p = f32_one → all_joined A)).
Proof. exact (C54_gnp_partial dir idt R n p [] []). Qed.
Print Assumptions C54_unlabeled_partial.
(** NaN is not in [0,1], yet it does not panic: the graph has no edges. *)
Theorem C54_nan_refuted {NL EL} `{EqDecision NL, EqDecision EL} (dir : bool) (idt : idty) (R : rng)
  (n : nat) (nls : list NL) (els : list EL) :
  (N.of_nat n ≤ id_card idt)%N → (∀ j, is_f32 (rng_f32 R j) ∧ below_one (rng_f32 R j)) →
  ¬ in_unit S754_nan ∧
  ∃ g, random_gnp_graph dir idt R n S754_nan nls els = Ok g ∧
  ∃ A, (∀ it, hash_order g it → shows_random dir n nls els (gm_view dir it g) A) ∧ edge_free A.
Proof.
  intros Hf Hd. split; [by intros ?|].
  destruct (gnp_thm dir idt R n S754_nan nls els Hf eq_refl Hd) as [_ H2].
  destruct (H2 (or_intror eq_refl)) as (g & Hg & A & HA & Hz & _). exists g. split; [exact Hg|].
  exists A. split; [exact HA|]. apply Hz. by right.
Qed.
Print Assumptions C54_nan_refuted.

(** Concrete cases. One half is 2^23 * 2^-24. *)
Definition half : spec_float := S754_finite false 8388608 (-24).
Definition dice : rng := Rng (λ k, 7 * k + 3) (λ k, if decide (k mod 3 = 0) then half else S754_zero false).
Lemma dice_unit j : is_f32 (rng_f32 dice j) ∧ below_one (rng_f32 dice j).
Proof. unfold dice. cbn [rng_f32]. by destruct (decide (j mod 3 = 0)). Qed.
Definition count_of_gen (r : res (graphmap N N)) : option (nat * nat) :=
  match r with
  | Ok g => Some (size (g_nodes g), g_nedges g)
  | _ => None
  end.
Example C52_case dir : (N.of_nat 5 ≤ id_card TU8)%N ∧
  count_of_gen (complete_graph dir TU8 dice 5 [10; 20; 10]%N []) = Some (5, if dir then 20 else 10).
Proof. destruct dir; vm_compute; done. Qed.
Example C52_empty_case dir : ∃ k' g A, empty_graph TU8 dice 5 [10; 20; 10]%N ([] : list N) 0 = Ok (k', g) ∧
  (∀ it, hash_order g it → shows_random dir 5 [10; 20; 10]%N [] (gm_view dir it g) A) ∧ edge_free A.
Proof.
  destruct (C52_empty_graph dir TU8 dice 5 [10; 20; 10]%N ([] : list N) 0) as (k' & g & Hg & A & HA & He); [done|].
  exists k', g, A. done.
Qed.
Example C53_case dir : (N.of_nat 5 ≤ id_card TU8)%N ∧
  count_of_gen (random_gnm_graph dir TU8 dice 5 7 [10; 20]%N [3]%N) = Some (5, 7) ∧
  random_gnm_graph dir TU8 dice 5 21 [10; 20]%N [3]%N = Panic.
Proof. destruct dir; vm_compute; done. Qed.
Example C54_case dir : (N.of_nat 5 ≤ id_card TU8)%N ∧ is_f32 half ∧ half ≠ S754_nan ∧ in_unit half ∧ ¬ is_zero half ∧
  (∀ j, is_f32 (rng_f32 dice j) ∧ below_one (rng_f32 dice j)) ∧
  (∃ c, count_of_gen (random_gnp_graph dir TU8 dice 5 half [10; 20]%N [3]%N) = Some (5, c) ∧ 0 < c < max_edges dir 5) ∧
  is_f32 (S754_finite false 8388609 (-23)) ∧ ¬ in_unit (S754_finite false 8388609 (-23)).
Proof.
  split_and!; [done|done|done|by left|exact (λ x, x)|apply dice_unit| |done|].
  - destruct dir; eexists; (split; [vm_compute; reflexivity|unfold max_edges; simpl; lia]).
  - intros [[_ H]|[H _]]; [|done]. by vm_compute in H.
Qed.
Example C54_nan_case dir : count_of_gen (random_gnp_graph dir TU8 dice 5 S754_nan [10; 20]%N [3]%N) = Some (5, 0).
Proof. destruct dir; vm_compute; done. Qed.
