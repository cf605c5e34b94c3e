(** Vocabulary for the label lists of a GraphMap. *)
From stdpp Require Import list.
From Verif Require Import Base Api.

(** A list without the repetitions: every item where it occurs first. *)
Fixpoint first_uses {X} `{EqDecision X} (l : list X) : list X :=
  match l with
  | [] => []
  | x :: l => x :: filter (λ y, y ≠ x) (first_uses l)
  end.
(** The labels that a call gives, together with what the call returned: update_node_label and
    update_edge_label give one only if they returned true. *)
Definition gives_node {NL EL} (c : gop NL EL * gout NL EL) : list NL :=
  match c with
  | (OAddNode _ (Some l), _) | (OAddNodeLabel (Some l), _) | (OUpdateNodeLabel _ (Some l), RBool true) => [l]
  | _ => []
  end.
Definition gives_edge {NL EL} (c : gop NL EL * gout NL EL) : list EL :=
  match c with
  | (OAddEdge _ _ (Some l), _) | (OAddEdgeLabel (Some l), _) | (OUpdateEdgeLabel _ _ (Some l), RBool true) => [l]
  | _ => []
  end.
