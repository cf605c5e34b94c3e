(** Vocabulary for the chances of random graphs (C107). Probability is counting: draws are independent and all their outcomes are alike,
    so what has [k] of [n] outcomes has the chance k/n. *)
From Coq Require Import QArith.
From Coq.Floats Require Import SpecFloat.
From Verif Require Import Base Api Spec SpecLabelHist Gen.
Local Open Scope nat_scope.

(** [exactly k P]: there are [k] things with [P]. *)
Definition exactly {A} (k : nat) (P : A → Prop) : Prop := ∃ l : list A, NoDup l ∧ length l = k ∧ ∀ x, x ∈ l ↔ P x.
(** [ds] is an outcome of draws below the numbers [bs]. *)
Definition outcome (bs ds : list nat) : Prop := Forall2 lt ds bs.
(** The generator [R] with the outcome [ds] of the draws number k, k+1, ... *)
Definition with_draws (R : rng) (k : nat) (ds : list nat) : rng :=
  Rng (λ i, if decide (k ≤ i) then default (rng_int R i) (ds !! (i - k)) else rng_int R i) (rng_f32 R).
(** The edges of [A] are the pairs of numbers [ps]. *)
Definition joins {NL EL} (dir : bool) (ps : list (nat * nat)) (A : agraph NL EL) : Prop :=
  ∀ x y, a_has_edge A x y ↔ ∃ p, p ∈ ps ∧
    (x = N.of_nat p.1 ∧ y = N.of_nat p.2 ∨ dir = false ∧ x = N.of_nat p.2 ∧ y = N.of_nat p.1).
(** The label that the number [d] selects from a list of labels, each label counted once. *)
Definition picked {X} `{EqDecision X} (ls : list X) (d : nat) : option X :=
  let u := first_uses ls in u !! (d mod length u).
(** How many draws the labels of the nodes 0..n-1 take. *)
Definition label_draws {X} (n : nat) (ls : list X) : nat := match ls with [] => 0 | _ => n end.
(** Different edges have different numbers. *)
Definition told_apart (dir : bool) (P : N → N → Prop) (pos : N * N → nat) : Prop :=
  ∀ x y x' y', P x y → P x' y' → pos (x, y) = pos (x', y') → x = x' ∧ y = y' ∨ dir = false ∧ x = y' ∧ y = x'.
(** A possible edge of a graph with the nodes 0..n-1. *)
Definition possible_edge (n : nat) (x y : N) : Prop := (x < N.of_nat n ∧ y < N.of_nat n ∧ x ≠ y)%N.
(** The generators [R] and [R'] agree on the draws of numbers, resp. of fractions, before the one with number [k]. *)
Definition same_numbers (k : nat) (R R' : rng) : Prop := ∀ i, i < k → rng_int R i = rng_int R' i.
Definition same_fractions (k : nat) (R R' : rng) : Prop := ∀ i, i < k → rng_f32 R i = rng_f32 R' i.
(** There are ids for all the labels. *)
Definition labels_have_ids {X} `{EqDecision X} (idt : idty) (ls : list X) : Prop := (N.of_nat (length (first_uses ls)) ≤ id_card idt)%N.
(** Node [i] has the label that the draw number [i] selects. *)
Definition node_labels_by_draws {NL EL} `{EqDecision NL} (n : nat) (nls : list NL) (R : rng) (A : agraph NL EL) : Prop :=
  ∀ i, i < n → ag_nodes A !! N.of_nat i = Some (picked nls (rng_int R i)).
(** The number that a finite float stands for. *)
Definition float_value (x : spec_float) : Q :=
  match x with
  | S754_finite s m e => inject_Z (if s then Z.neg m else Z.pos m) * (2 # 1) ^ e
  | _ => 0
  end%Q.
