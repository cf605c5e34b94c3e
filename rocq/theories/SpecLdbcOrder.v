(** Vocabulary for the order in which a directory is listed. *)
From stdpp Require Import gmap strings.
From Verif Require Import Base Api Spec Csv Ldbc SpecLdbc.

(** All node records of an entity give it the same label. *)
Definition one_label (fs : list fact) : Prop := ∀ e l l', FNode e l ∈ fs → FNode e l' ∈ fs → l = l'.
(** [B] is [A] with every node [x] renamed to [f x], whatever the labels of the nodes. *)
Record renames_edges {NL EL} (f : N → N) (A B : agraph NL EL) : Prop := {
  re_dir : ag_dir B = ag_dir A;
  re_inj : ∀ x y, a_has_node A x → a_has_node A y → f x = f y → x = y;
  re_nodes : ∀ y, a_has_node B y ↔ ∃ x, a_has_node A x ∧ f x = y;
  re_edges : ∀ s t, a_has_node A s → a_has_node A t → a_edge_at B (f s) (f t) = a_edge_at A s t;
}.
