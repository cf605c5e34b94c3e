(** What it means for the union or difference of two graphs to be a certain graph. *)
From Verif Require Import Base Api Spec SpecOps Map GraphMap GraphOps.

Section laws.
  Context {NL EL : Type}.
  Implicit Types (V : gview NL EL) (A : agraph NL EL).
  (** The graphs agree on the labels of what they share. *)
  Definition same_labels A0 A1 : Prop :=
    (∀ n l l', ag_nodes A0 !! n = Some l → ag_nodes A1 !! n = Some l' → l = l') ∧
    (∀ s t l l', a_edge_at A0 s t = Some l → a_edge_at A1 s t = Some l' → l = l').
  Context `{EqDecision NL, EqDecision EL} (lt : idty).
  (** The union of two graphs, computed and seen with any hash order, is [A]. *)
  Definition union_is V0 V1 A : Prop :=
    ∃ g, graph_union lt V0 V1 = Ok g ∧ ∀ it, hash_order g it → represents (gm_view (ag_dir A) it g) A.
  Definition minus_is V0 V1 A : Prop :=
    ∃ g, graph_minus lt V0 V1 = Ok g ∧ ∀ it, hash_order g it → shows (gm_view (ag_dir A) it g) A.
End laws.
