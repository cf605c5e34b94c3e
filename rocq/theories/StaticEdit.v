(** Model of the accessors of TypedStaticGraph that hand out mutable references
    (src/graph_impl/static_graph/graph.rs l.356-379) and of what can be done with them: the
    SetMaps of labels, the vector of node labels and the two EdgeVecs (edge_vec.rs l.145-155). *)
From Verif Require Import Base Api Map Static.

Inductive sedit (NL EL : Type) :=
  (** get_node_label_map_mut().add_item(..), .pop_item() or .clear() *)
  | ENodeMap (o : map_op NL)
  (** get_edge_label_map_mut() likewise *)
  | EEdgeMap (o : map_op EL)
  (** *get_labels_mut() = ls *)
  | ELabels (ls : option (list N))
  (** get_labels_mut().as_mut().unwrap()[i] = l *)
  | ELabel (i : nat) (l : N)
  (** get_edge_vec_mut().remove_labels() and .clear() *)
  | EUnlabel
  | EClear
  (** get_in_edge_vec_mut().as_mut().unwrap().remove_labels() and .clear() *)
  | EUnlabelIn
  | EClearIn.
Arguments ENodeMap {_ _}. Arguments EEdgeMap {_ _}. Arguments ELabels {_ _}. Arguments ELabel {_ _}. Arguments EUnlabel {_ _}.
Arguments EClear {_ _}. Arguments EUnlabelIn {_ _}. Arguments EClearIn {_ _}.

Section edit.
  Context {NL EL : Type} `{EqDecision NL, EqDecision EL}.
  Definition sg_edit (o : sedit NL EL) (g : sgraph NL EL) : res (sgraph NL EL) :=
    let '(SGraph nn ne ev iv ls nlm elm) := g in
    match o with
    | ENodeMap o => let* '(_, m) := sm_step nlm o in Ok (SGraph nn ne ev iv ls m elm)
    | EEdgeMap o => let* '(_, m) := sm_step elm o in Ok (SGraph nn ne ev iv ls nlm m)
    | ELabels ls => Ok (SGraph nn ne ev iv ls nlm elm)
    | ELabel i l =>
        let* v := unwrap ls in
        if decide (i < length v) then Ok (SGraph nn ne ev iv (Some (<[i := l]> v)) nlm elm) else Panic
    | EUnlabel => Ok (SGraph nn ne (ev_remove_labels ev) iv ls nlm elm)
    | EClear => Ok (SGraph nn ne (ev_clear ev) iv ls nlm elm)
    | EUnlabelIn => let* e := unwrap iv in Ok (SGraph nn ne ev (Some (ev_remove_labels e)) ls nlm elm)
    | EClearIn => let* e := unwrap iv in Ok (SGraph nn ne ev (Some (ev_clear e)) ls nlm elm)
    end.
  Definition sg_edits (h : list (sedit NL EL)) (g : sgraph NL EL) : res (sgraph NL EL) := rfold (λ g o, sg_edit o g) h g.
End edit.
