(** Specification vocabulary for the example programs. *)
From Coq Require Import Ascii.
From stdpp Require Import gmap strings.
From Verif Require Import Base Api Spec SpecSerde Gen.

(** A Rust string: valid UTF-8 that fits into memory. *)
Definition text_fits (s : string) : Prop := is_string (N_of_ascii <$> list_ascii_of_string s).

(** The nodes are 0, 1, ..., n-1. *)
Definition numbered_below {NL EL} (n : nat) (A : agraph NL EL) : Prop := ∀ x, a_has_node A x ↔ (x < N.of_nat n)%N.
(** [B] is [A] with [i] more edges, all unlabelled and between different nodes. *)
Record denser {NL EL} (i : nat) (A B : agraph NL EL) : Prop := {
  dn_dir : ag_dir B = ag_dir A;
  dn_nodes : ag_nodes B = ag_nodes A;
  dn_old : ∀ x y, a_has_edge A x y → a_edge_at B x y = a_edge_at A x y;
  dn_new : ∀ x y, a_has_edge B x y → ¬ a_has_edge A x y → a_edge_at B x y = Some None ∧ x ≠ y;
  dn_count : a_num_edges B = a_num_edges A + i;
}.
(** The number of edges wanted for an average degree. *)
Definition wanted (n d : nat) : nat := d * n / 2.
(** What the program has added when it is done with a list of degrees, [m] being the number of
    edges that the input file reports. *)
Definition added (n m : nat) (degrees : list nat) : nat := sum_list ((λ d, wanted n d - m) <$> degrees).
(** Every pair of numbers below [n] is drawn again and again. *)
Definition fair (R : rng) (n : nat) : Prop :=
  ∀ k s t, s < n → t < n → ∃ j, rng_int R (k + 2 * j) mod n = s ∧ rng_int R (k + 2 * j + 1) mod n = t.

(** The label that vary_labels should give to a node: the draw, if it is above 10. *)
Definition new_label (r : nat) (l : option N) : option N := if 10 <? r then Some (N.of_nat r) else l.
(** [B] is [A] without edge labels, with the node labels changed by [f]. *)
Definition a_relabel {NL EL} (f : N → option NL → option NL) (A : agraph NL EL) : agraph NL EL :=
  AG (ag_dir A) (map_imap (λ n l, Some (f n l)) (ag_nodes A)) ((λ _, None) <$> ag_edges A).
(** The labels of a label array mean something: none, or an entry of the label map. *)
Definition meaningful_labels (nlm : list N) (labels : list N) : Prop :=
  ∀ i, i ∈ labels → i = id_max TU32 ∨ N.to_nat i < length nlm.

(** The number of edges between different nodes. *)
Definition a_links {NL EL} (A : agraph NL EL) : nat := size (filter (λ kv : N * N * option EL, kv.1.1 ≠ kv.1.2) (ag_edges A)).
(** For every degree in turn the graph [A], counted as having [c] edges, gains as many edges as
    the degree wants above [m]; the result satisfies [ok]. *)
Inductive grows {NL EL} (ok : nat → nat → agraph NL EL → Prop) (n m : nat) : nat → agraph NL EL → list nat → Prop :=
  | grows_nil c A : grows ok n m c A []
  | grows_cons c A d ds B : m < wanted n d → denser (wanted n d - m) A B → ok (c + (wanted n d - m)) d B →
      grows ok n m (c + (wanted n d - m)) B ds → grows ok n m c A (d :: ds).
(** The files written for a list of degrees, starting with [c] edges. *)
Fixpoint outputs (file : nat → nat → string) (n m c : nat) (degrees : list nat) : list string :=
  match degrees with
  | [] => []
  | d :: ds => file (c + (wanted n d - m)) d :: outputs file n m (c + (wanted n d - m)) ds
  end.
(** The label map after the labels 11, 12, 13, 14 have been added. *)
Definition added_labels (nlm : list N) : list N := foldl (λ ls i, register (Some i) ls) nlm [11; 12; 13; 14]%N.
