(** Vocabulary for CSV files cut short (C108). *)
From stdpp Require Import strings.
From Verif Require Import Base Api Spec Csv.

(** [p] is the beginning of [s]. *)
Definition begins (p s : string) : Prop := ∃ r, s = p +:+ r.
(** [r'] is [r] cut inside or after one of its fields. *)
Definition cut_row (r r' : list string) : Prop := ∃ j f f', r !! j = Some f ∧ begins f' f ∧ r' = take j r ++ [f'].
(** [got] is [full] cut short: its first items, and after them possibly one more whose place is taken by something [near] it. *)
Definition cut_list {X} (near : X → X → Prop) (full got : list X) : Prop :=
  ∃ k, got = take k full ∨ ∃ x x', full !! k = Some x ∧ near x x' ∧ got = take k full ++ [x'].
(** [l'] is no label or the label read from the beginning of the text of [l]. *)
Definition cut_label {X} (t : text X) (l l' : option X) : Prop :=
  l' = None ∨ ∃ x y s, l = Some x ∧ l' = Some y ∧ begins s (show t x) ∧ parse t s = Some y.
Definition near_node {NL} (tn : text NL) (p p' : N * option NL) : Prop := p'.1 = p.1 ∧ cut_label tn p.2 p'.2.
Definition near_edge {EL} (te : text EL) (e e' : N * N * option EL) : Prop := e'.1 = e.1 ∧ cut_label te e.2 e'.2.
(** All nodes, resp. edges, of [A] with their labels, each once. *)
Definition nodes_of {NL EL} (A : agraph NL EL) (l : list (N * option NL)) : Prop :=
  NoDup l.*1 ∧ ∀ n o, (n, o) ∈ l ↔ ag_nodes A !! n = Some o.
Definition edges_of {NL EL} (A : agraph NL EL) (l : list (N * N * option EL)) : Prop :=
  NoDup l.*1 ∧ ∀ x y o, (x, y, o) ∈ l ↔ ag_edges A !! (x, y) = Some o.
(** [B] is a part of [A] in which nodes may lack their labels; one node and one edge may have a label that is read from the beginning of
    the text of their label. *)
Record nearly_part {NL EL} (tn : text NL) (te : text EL) (B A : agraph NL EL) : Prop := {
  np_dir : ag_dir B = ag_dir A;
  np_nodes : ∀ n, a_has_node B n → a_has_node A n;
  np_edges : ∀ x y, a_has_edge B x y → a_has_edge A x y;
  np_node_label : ∃ n0, ∀ n l, ag_nodes B !! n = Some (Some l) → ag_nodes A !! n = Some (Some l) ∨ n = n0 ∧ ∃ o, ag_nodes A !! n = Some o ∧ cut_label tn o (Some l);
  np_edge_label : ∃ x0 y0, ∀ x y l, a_edge_at B x y = Some l → a_edge_at A x y = Some l ∨
    ekey (ag_dir A) x y = ekey (ag_dir A) x0 y0 ∧ ∃ o, a_edge_at A x y = Some o ∧ cut_label te o l;
}.
