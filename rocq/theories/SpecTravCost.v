(** What the work of a traversal is compared with. *)
From Verif Require Import Base Api.

Section spec.
  Context {NL EL : Type} (V : gview NL EL).
  (** The ids below [b] that are not nodes. *)
  Definition gaps_below (b : N) : nat :=
    length (filter (λ x, v_has_node V x = false) (N.of_nat <$> seq 0 (N.to_nat b))).
  (** All ids that are not nodes are smaller than all nodes. *)
  Definition gaps_first : Prop := ∀ x y, v_has_node V x = false → v_has_node V y = true →
    (∃ m, v_max_seen_id V = Ok (Some m) ∧ (x ≤ m)%N) → (x < y)%N.
End spec.
