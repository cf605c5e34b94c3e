(** Specification vocabulary for the graph generators (C52-C54). No code is modelled here. *)
From stdpp Require Import gmap.
From Coq.Floats Require Import SpecFloat.
From Verif Require Import Base Api Spec.

(** The nodes are 0, ..., n-1. *)
Definition numbered {NL EL} (n : nat) (A : agraph NL EL) : Prop :=
  ∀ x, a_has_node A x ↔ (x < N.of_nat n)%N.
(** No self-loop. *)
Definition loop_free {NL EL} (A : agraph NL EL) : Prop := ∀ x, ¬ a_has_edge A x x.
(** Every two distinct nodes are joined, in both directions when directed; nothing else. *)
Definition all_joined {NL EL} (A : agraph NL EL) : Prop :=
  ∀ x y, a_has_edge A x y ↔ a_has_node A x ∧ a_has_node A y ∧ x ≠ y.
Definition edge_free {NL EL} (A : agraph NL EL) : Prop := ∀ x y, ¬ a_has_edge A x y.
(** A label drawn from a list: one of its members, none only when the list is empty. *)
Definition drawn {X} (ls : list X) (l : option X) : Prop :=
  match l with Some x => x ∈ ls | None => ls = [] end.
Definition labels_drawn {NL EL} (nls : list NL) (els : list EL) (A : agraph NL EL) : Prop :=
  (∀ x l, ag_nodes A !! x = Some l → drawn nls l) ∧
  (∀ x y l, a_edge_at A x y = Some l → drawn els l).
(** The number of ordered, resp. unordered, pairs of distinct nodes. *)
Definition max_edges (dir : bool) (n : nat) : nat := if dir then n * (n - 1) else n * (n - 1) / 2.

(** What every generated graph must satisfy: the API shows the graph [A], which has the nodes
    0..n-1, no self-loop and labels from the given lists. *)
Record shows_random {NL EL} (dir : bool) (n : nat) (nls : list NL) (els : list EL)
  (V : gview NL EL) (A : agraph NL EL) : Prop := {
  sr_rep : represents V A;
  sr_missing : answers_missing V A;
  sr_iterates : iterates V;
  sr_count : exact_count V A;
  sr_dir : ag_dir A = dir;
  sr_nodes : numbered n A;
  sr_loops : loop_free A;
  sr_labels : labels_drawn nls els A;
}.

(** f32 values: a float denotes a number m * 2^e (or zero), an infinity or nothing (NaN).
    [f32] is the type of canonical binary32 floats of Coq's standard library. *)
Definition is_f32 (x : spec_float) : Prop := valid_binary 24 128 x = true.
(** x is a number in the closed interval [0,1]. *)
Definition in_unit (x : spec_float) : Prop :=
  match x with
  | S754_zero _ => True
  | S754_finite false m e =>          (* m * 2^e <= 1 *)
      (e < 0)%Z ∧ (Z.pos m ≤ 2 ^ (- e))%Z ∨ e = 0%Z ∧ m = 1%positive
  | _ => False
  end.
(** x is a number in [0,1), what gen_range(0f32, 1f32) returns. *)
Definition below_one (x : spec_float) : Prop :=
  match x with
  | S754_zero _ => True
  | S754_finite false m e => (e < 0)%Z ∧ (Z.pos m < 2 ^ (- e))%Z    (* m * 2^e < 1 *)
  | _ => False
  end.
Definition is_zero (x : spec_float) : Prop := match x with S754_zero _ => True | _ => False end.
(** x = 1 = 2^23 * 2^-23. *)
Definition f32_one : spec_float := S754_finite false 8388608 (-23).
Definition f32_zero : spec_float := S754_zero false.
