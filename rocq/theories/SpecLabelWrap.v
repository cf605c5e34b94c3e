(** Labels beyond the range of the label id type: which label is shown in their
    place. Nothing here refers to the model of the code. *)
From Verif Require Import Base Api Spec.

(** The labels are numbered 0, 1, 2, ... in order of first use. The label id type
    only keeps the number modulo its size, so a label is shown as the label whose
    number is the remainder. *)
Definition shown {X} `{EqDecision X} (lt : idty) (ls : list X) (l : option X) : option X :=
  match l with
  | None => None
  | Some x => match index_of x ls with
              | Some i => ls !! N.to_nat (N.of_nat i mod id_card lt)
              | None => None
              end
  end.

Section shown.
  Context {NL EL : Type} `{EqDecision NL, EqDecision EL} (lt : idty) (nls : list NL) (els : list EL).
  (** The graph with every label replaced by the one shown for it. *)
  Definition a_shown (A : agraph NL EL) : agraph NL EL :=
    AG (ag_dir A) (shown lt nls <$> ag_nodes A) (shown lt els <$> ag_edges A).
  (** Likewise for what the calls return. *)
  Definition out_shown (r : gout NL EL) : gout NL EL :=
    match r with
    | RNode o => RNode ((λ p, (p.1, shown lt nls p.2)) <$> o)
    | REdge o => REdge ((λ e, (e.1, shown lt els e.2)) <$> o)
    | RLabelId o => RLabelId ((λ i, i mod id_card lt)%N <$> o)
    | r => r
    end.
End shown.

(** Label ids written directly are values of the label id type. *)
Definition raw_fits {NL EL} (lt : idty) (o : gop NL EL) : Prop :=
  match o with
  | OSetNodeLabelId _ (Some i) | OSetEdgeLabelId _ _ (Some i) => (i < id_card lt)%N
  | _ => True
  end.
