(** What a generator shows when asked for more nodes than there are node ids (C83). *)
From Verif Require Import Base Api Spec SpecGen.

(** The API shows the graph [A] over the ids of 0..n-1 taken modulo [c]: an edge x-y for
    every listed pair of numbers with these remainders, counted once per listed pair. *)
Record shows_wrapped {NL EL} (dir : bool) (c : N) (n : nat) (nls : list NL) (els : list EL) (ps : list (nat * nat))
  (V : gview NL EL) (A : agraph NL EL) : Prop := {
  sw_rep : represents V A;
  sw_missing : answers_missing V A;
  sw_iterates : iterates V;
  sw_dir : ag_dir A = dir;
  sw_nodes : ∀ x, a_has_node A x ↔ (x < N.min (N.of_nat n) c)%N;
  sw_edges : ∀ x y, a_has_edge A x y ↔ ∃ p, p ∈ ps ∧
    let s := (N.of_nat p.1 mod c)%N in let t := (N.of_nat p.2 mod c)%N in
    x = s ∧ y = t ∨ dir = false ∧ x = t ∧ y = s;
  sw_count : v_edge_count V = length ps;
  sw_labels : labels_drawn nls els A;
}.
(** Pairs of different numbers below n; for undirected graphs each pair in one direction. *)
Definition pairs_below (dir : bool) (n : nat) (ps : list (nat * nat)) : Prop :=
  NoDup ps ∧ ∀ p, p ∈ ps → p.2 < n ∧ p.1 < n ∧ if dir then p.1 ≠ p.2 else p.1 < p.2.
