(** Specification vocabulary for CSV files. *)
From Coq Require Import Ascii.
From stdpp Require Import gmap strings.
From Verif Require Import Base Api Spec Csv.

(** A value whose text is not empty and can be read back. *)
Definition readable {A} (t : text A) (x : A) : Prop := show t x ≠ ""%string ∧ parse t (show t x) = Some x.

(** The calls made for records, in order. *)
Definition add_calls {NL EL} (ns : list (N * option NL)) (es : list (N * N * option EL)) : list (gop NL EL) :=
  ((λ p, OAddNode p.1 p.2) <$> ns) ++ ((λ e, OAddEdge e.1.1 e.1.2 e.2) <$> es).

(** The same columns in another order: the header and every row are rearranged alike. *)
Definition same_columns (t t' : table) : Prop :=
  ∃ h rows h' rows', t = h :: rows ∧ t' = h' :: rows' ∧
    Forall2 (λ r r', length r = length h ∧ length r' = length h' ∧ zip h r ≡ₚ zip h' r') rows rows' ∧ h ≡ₚ h'.

(** The graph that the records describe: its nodes are those of the node records and the ends of
    the edge records; the last record for a node or an edge decides its label. *)
Record built_from {NL EL} (dir : bool) (ns : list (N * option NL)) (es : list (N * N * option EL)) (A : agraph NL EL) : Prop := {
  bf_dir : ag_dir A = dir;
  bf_nodes : ∀ n, a_has_node A n ↔ (∃ l, (n, l) ∈ ns) ∨ ∃ x y l, (x, y, l) ∈ es ∧ (n = x ∨ n = y);
  bf_node_label : ∀ ns1 n l ns2, ns = ns1 ++ (n, l) :: ns2 → (∀ l', (n, l') ∉ ns2) → ag_nodes A !! n = Some l;
  bf_other_label : ∀ n, (∀ l, (n, l) ∉ ns) → a_has_node A n → ag_nodes A !! n = Some None;
  bf_edges : ∀ x y, a_has_edge A x y ↔ ∃ x' y' l, (x', y', l) ∈ es ∧ ekey dir x' y' = ekey dir x y;
  bf_edge_label : ∀ es1 x y l es2, es = es1 ++ (x, y, l) :: es2 →
    (∀ x' y' l', (x', y', l') ∈ es2 → ekey dir x' y' ≠ ekey dir x y) → a_edge_at A x y = Some l;
}.

(** The file at [p] is the same, or the same with its columns in another order. *)
Definition alike (F F' : csvfs) (p : string) : Prop := F' !! p = F !! p ∨ ∃ t t', F !! p = Some t ∧ F' !! p = Some t' ∧ same_columns t t'.
