(** When a frozen graph is the graph it was made from. *)
From Verif Require Import Base Api Spec.

Section spec.
  Context {NL EL : Type} (lt : idty) (V : gview NL EL).
  (** The node ids are 0, 1, ..., n-1. *)
  Definition no_gaps : Prop := ∀ n, v_has_node V n = true ↔ (n < N.of_nat (v_node_count V))%N.
  (** Some node shows the label whose id is the largest value of the label id type. *)
  Definition last_node_label_used : Prop :=
    ∃ n x, v_get_node V n = Ok (Some (n, Some (id_max lt))) ∧ v_node_label V n = Ok (Some x).
  (** The same for the edges that edge_indices() lists. *)
  Definition last_edge_label_used : Prop :=
    ∃ es s t x, v_edge_indices V = Ok es ∧ (s, t) ∈ es ∧
      v_get_edge V s t = Ok (Some (s, t, Some (id_max lt))) ∧ v_edge_label V s t = Ok (Some x).
End spec.
