(** The specification: abstract labelled graphs, what the API calls mean on
    them, and what it means for the observations of a graph to be those of an
    abstract graph. Nothing here refers to the model of the code. *)
From Verif Require Import Base Api.

(** ** Abstract labelled graphs
    A finite set of nodes and a finite set of edges, each with an optional label.
    An undirected edge {s,t} is stored under the ordered pair (min, max). *)
Record agraph (NL EL : Type) := AG {
  ag_dir : bool;
  ag_nodes : gmap N (option NL);
  ag_edges : gmap (N * N) (option EL);
}.
Arguments AG {_ _}. Arguments ag_dir {_ _}. Arguments ag_nodes {_ _}. Arguments ag_edges {_ _}.

Definition ekey (dir : bool) (s t : N) : N * N :=
  if dir then (s, t) else (N.min s t, N.max s t).

Section agraph.
  Context {NL EL : Type}.
  Implicit Types A : agraph NL EL.

  Definition a_has_node A (n : N) : Prop := is_Some (ag_nodes A !! n).
  Definition a_edge_at A (s t : N) : option (option EL) := ag_edges A !! ekey (ag_dir A) s t.
  Definition a_has_edge A (s t : N) : Prop := is_Some (a_edge_at A s t).

  (** Well-formed: undirected edges are stored normalised, end points are nodes. *)
  Definition ag_wf A : Prop :=
    ∀ s t, is_Some (ag_edges A !! (s, t)) →
      ekey (ag_dir A) s t = (s, t) ∧ a_has_node A s ∧ a_has_node A t.

  Definition a_empty (dir : bool) : agraph NL EL := AG dir ∅ ∅.
  Definition a_add_node (n : N) (l : option NL) A :=
    AG (ag_dir A) (<[n := l]> (ag_nodes A)) (ag_edges A).
  (** A missing end point of a new edge becomes an unlabelled node. *)
  Definition a_touch (n : N) A :=
    match ag_nodes A !! n with Some _ => A | None => a_add_node n None A end.
  Definition a_add_edge (s t : N) (l : option EL) A :=
    let A' := a_touch t (a_touch s A) in
    AG (ag_dir A') (ag_nodes A') (<[ekey (ag_dir A) s t := l]> (ag_edges A')).
  Definition a_remove_edge (s t : N) A :=
    AG (ag_dir A) (ag_nodes A) (delete (ekey (ag_dir A) s t) (ag_edges A)).
  Definition touches (n : N) (k : N * N) : Prop := k.1 = n ∨ k.2 = n.
  Global Instance touches_dec n k : Decision (touches n k).
  Proof. unfold touches. apply _. Defined.
  Definition a_incident (n : N) A : gmap (N * N) (option EL) :=
    filter (λ kv, touches n kv.1) (ag_edges A).
  Definition a_remove_node (n : N) A :=
    AG (ag_dir A) (delete n (ag_nodes A)) (filter (λ kv, ¬ touches n kv.1) (ag_edges A)).
  Definition a_num_edges A : nat := size (ag_edges A).
  Definition a_num_nodes A : nat := size (ag_nodes A).
End agraph.

(** ** Meaning of the API calls on abstract graphs *)
Record sstate (NL EL : Type) := SState {
  sp_g : agraph NL EL;
  sp_count : nat;          (* what edge_count() reports *)
  sp_max : option N;       (* what max_seen_id() reports *)
  sp_nls : list NL;        (* node labels in order of first use *)
  sp_els : list EL;
}.
Arguments SState {_ _}. Arguments sp_g {_ _}. Arguments sp_count {_ _}. Arguments sp_max {_ _}.
Arguments sp_nls {_ _}. Arguments sp_els {_ _}.

(** A call returns, panics, or does something this specification leaves open. *)
Inductive sres (A : Type) := SOk (a : A) | SPanic | SUnspec.
Arguments SOk {_}. Arguments SPanic {_}. Arguments SUnspec {_}.

Definition register {L} `{EqDecision L} (l : option L) (ls : list L) : list L :=
  match l with
  | Some x => if decide (x ∈ ls) then ls else ls ++ [x]
  | None => ls
  end.
Fixpoint index_of {L} `{EqDecision L} (x : L) (ls : list L) : option nat :=
  match ls with
  | [] => None
  | y :: ls' => if decide (x = y) then Some 0 else S <$> index_of x ls'
  end.
Definition omax (o : option N) (n : N) : option N :=
  Some (match o with Some m => N.max m n | None => n end).
Definition max_new {NL EL} (A : agraph NL EL) (n : N) (o : option N) : option N :=
  match ag_nodes A !! n with Some _ => o | None => omax o n end.

Section spec_step.
  Context {NL EL : Type} `{EqDecision NL, EqDecision EL}.

  Definition s_add_node (n : N) (l : option NL) (s : sstate NL EL) : sstate NL EL :=
    SState (a_add_node n l (sp_g s)) (sp_count s) (max_new (sp_g s) n (sp_max s))
      (register l (sp_nls s)) (sp_els s).
  (** Every successful add_edge adds one to the reported edge count, also when
      the edge existed already: that is what the code does (see C10, C11). *)
  Definition s_add_edge (x y : N) (l : option EL) (s : sstate NL EL) : sstate NL EL :=
    SState (a_add_edge x y l (sp_g s)) (S (sp_count s))
      (max_new (a_touch x (sp_g s)) y (max_new (sp_g s) x (sp_max s)))
      (sp_nls s) (register l (sp_els s)).

  Definition spec_step (o : gop NL EL) (s : sstate NL EL) : sres (gout NL EL * sstate NL EL) :=
    let A := sp_g s in
    match o with
    | OAddNode n l =>
        SOk (RBool (bool_decide (ag_nodes A !! n = None)), s_add_node n l s)
    | OAddEdge x y l =>
        SOk (RBool (bool_decide (a_edge_at A x y = None)), s_add_edge x y l s)
    | ORemoveNode n =>
        match ag_nodes A !! n with
        | None => SOk (RNode None, s)
        | Some l =>
            if decide (a_has_edge A n n) then SPanic
            else SOk (RNode (Some (n, l)),
                   SState (a_remove_node n A) (sp_count s - size (a_incident n A)) (sp_max s)
                     (sp_nls s) (sp_els s))
        end
    | ORemoveEdge x y =>
        match a_edge_at A x y with
        | None => SOk (REdge None, s)
        | Some l =>
            SOk (REdge (Some (x, y, l)),
              SState (a_remove_edge x y A) (sp_count s - 1) (sp_max s) (sp_nls s) (sp_els s))
        end
    | OUpdateNodeLabel n l =>
        match ag_nodes A !! n with
        | None => SOk (RBool false, s)
        | Some _ => SOk (RBool true, s_add_node n l s)
        end
    | OUpdateEdgeLabel x y l =>
        match a_edge_at A x y with
        | None => SOk (RBool false, s)
        | Some _ => SOk (RBool true, s_add_edge x y l s)
        end
    | OAddNodeLabel l =>
        let nls := register l (sp_nls s) in
        SOk (RLabelId (l ≫= λ x, N.of_nat <$> index_of x nls),
             SState A (sp_count s) (sp_max s) nls (sp_els s))
    | OAddEdgeLabel l =>
        let els := register l (sp_els s) in
        SOk (RLabelId (l ≫= λ x, N.of_nat <$> index_of x els),
             SState A (sp_count s) (sp_max s) (sp_nls s) els)
    | ORefineEdgeCount =>
        SOk (RUnit, SState A (a_num_edges A) (sp_max s) (sp_nls s) (sp_els s))
    | OSetNodeLabelId n lid =>
        match ag_nodes A !! n with
        | None => SOk (RBool false, s)
        | Some _ =>
            match lid with
            | None => SOk (RBool true,
                SState (a_add_node n None A) (sp_count s) (sp_max s) (sp_nls s) (sp_els s))
            | Some i =>
                match sp_nls s !! N.to_nat i with
                | Some l => SOk (RBool true,
                    SState (a_add_node n (Some l) A) (sp_count s) (sp_max s) (sp_nls s) (sp_els s))
                | None => SUnspec    (* a label id that denotes no label *)
                end
            end
        end
    | OSetEdgeLabelId x y lid =>
        match a_edge_at A x y with
        | None => SOk (RBool false, s)
        | Some _ =>
            if negb (ag_dir A) && bool_decide (x ≠ y) then SUnspec    (* see C19 *)
            else
            let set l := SState (AG (ag_dir A) (ag_nodes A) (<[ekey (ag_dir A) x y := l]> (ag_edges A)))
                           (sp_count s) (sp_max s) (sp_nls s) (sp_els s) in
            match lid with
            | None => SOk (RBool true, set None)
            | Some i =>
                match sp_els s !! N.to_nat i with
                | Some l => SOk (RBool true, set (Some l))
                | None => SUnspec
                end
            end
        end
    end.

  (** A history: all return values and the final state. *)
  Fixpoint spec_run (h : list (gop NL EL)) (s : sstate NL EL) : sres (list (gout NL EL) * sstate NL EL) :=
    match h with
    | [] => SOk ([], s)
    | o :: h' =>
        match spec_step o s with
        | SOk (r, s') =>
            match spec_run h' s' with
            | SOk (rs, s'') => SOk (r :: rs, s'')
            | SPanic => SPanic
            | SUnspec => SUnspec
            end
        | SPanic => SPanic
        | SUnspec => SUnspec
        end
    end.

  Definition s_init (dir : bool) (nls : list NL) (els : list EL) : sstate NL EL :=
    SState (a_empty dir) 0 None nls els.
End spec_step.

(** ** Observations of an abstract graph
    [represents V A]: every query on [V] answers as [A] does. Lists yielded by
    iterators may come in any order but contain each element exactly once;
    neighbour lists are strictly increasing. *)
Definition lists_exactly {X} (l : list X) (P : X → Prop) : Prop :=
  NoDup l ∧ ∀ x, x ∈ l ↔ P x.
Definition increasing (l : list N) : Prop := StronglySorted N.lt l.
(** The label of a (possibly missing) node or edge. *)
Definition label_of {X} (o : option (option X)) : option X := match o with Some l => l | None => None end.
(** What a label id denotes. *)
Definition denotes {X} (lm : list X) (lid : option N) : option X :=
  match lid with Some i => lm !! N.to_nat i | None => None end.

Section represents.
  Context {NL EL : Type}.
  Implicit Types (V : gview NL EL) (A : agraph NL EL).

  Record represents V A : Prop := {
    rp_wf : ag_wf A;
    rp_directed : v_directed V = ag_dir A;
    rp_is_di : v_is_di V = ag_dir A;
    rp_node_count : v_node_count V = a_num_nodes A;
    rp_has_node : ∀ n, v_has_node V n = true ↔ a_has_node A n;
    rp_get_node : ∀ n, a_has_node A n →
      ∃ lid, v_get_node V n = Ok (Some (n, lid)) ∧
             denotes (v_node_label_map V) lid = label_of (ag_nodes A !! n);
    rp_has_edge : ∀ s t, a_has_node A s →
      ∃ b, v_has_edge V s t = Ok b ∧ (b = true ↔ a_has_edge A s t);
    rp_get_edge : ∀ s t, a_has_edge A s t →
      ∃ lid, v_get_edge V s t = Ok (Some (s, t, lid)) ∧
             denotes (v_edge_label_map V) lid = label_of (a_edge_at A s t);
    rp_node_indices : lists_exactly (v_node_indices V) (a_has_node A);
    rp_edge_indices : ∃ l, v_edge_indices V = Ok l ∧
      lists_exactly l (λ e, is_Some (ag_edges A !! e));
    rp_degree : ∀ n, a_has_node A n →
      v_degree V n = rmap length (v_neighbors V n);
    rp_neighbors : ∀ n, a_has_node A n →
      ∃ l, v_neighbors V n = Ok l ∧ increasing l ∧ ∀ t, t ∈ l ↔ a_has_edge A n t;
    rp_in_degree : ag_dir A = true → ∀ n, a_has_node A n →
      v_in_degree V n = rmap length (v_in_neighbors V n);
    rp_in_neighbors : ag_dir A = true → ∀ n, a_has_node A n →
      ∃ l, v_in_neighbors V n = Ok l ∧ increasing l ∧ ∀ s, s ∈ l ↔ a_has_edge A s n;
    rp_max_seen : ∀ n, a_has_node A n → ∃ m, v_max_seen_id V = Ok (Some m) ∧ (n ≤ m)%N;
  }.

  (** Queries about missing nodes and edges, for implementations that answer them. *)
  Record answers_missing V A : Prop := {
    am_get_node : ∀ n, ¬ a_has_node A n → v_get_node V n = Ok None;
    am_has_edge : ∀ s t, ¬ a_has_node A s → v_has_edge V s t = Ok false;
    am_get_edge : ∀ s t, ¬ a_has_edge A s t → v_get_edge V s t = Ok None;
    am_degree : ∀ n, ¬ a_has_node A n → v_degree V n = Panic ∧ v_neighbors V n = Panic;
    am_in_degree : ∀ n, ag_dir A = true → ¬ a_has_node A n →
      v_in_degree V n = Panic ∧ v_in_neighbors V n = Panic;
  }.

  (** nodes() and edges() yield get_node / get_edge of the indices. *)
  Record iterates V : Prop := {
    it_nodes : v_nodes V = rmapl (λ n, let* o := v_get_node V n in unwrap o) (v_node_indices V);
    it_edges : v_edges V =
      let* es := v_edge_indices V in rmapl (λ e, let* o := v_get_edge V e.1 e.2 in unwrap o) es;
  }.

  (** edge_count() is the number of edges. *)
  Definition exact_count V A : Prop := v_edge_count V = a_num_edges A.
End represents.

(** Forgetting all labels. *)
Definition a_unlabelled {NL EL} (A : agraph NL EL) : agraph NL EL :=
  AG (ag_dir A) ((λ _, None) <$> ag_nodes A) ((λ _, None) <$> ag_edges A).
(** Observing a graph without looking labels up. *)
Definition v_unlabelled {NL EL} (V : gview NL EL) : gview NL EL :=
  GView (v_directed V) (v_is_di V) (v_node_count V) (v_edge_count V) (v_has_node V) (v_has_edge V)
    (v_get_node V) (v_get_edge V) (v_node_indices V) (v_edge_indices V) (v_nodes V) (v_edges V)
    (v_degree V) (v_neighbors V) (v_in_degree V) (v_in_neighbors V) (v_max_seen_id V) [] [].
(** Return values without labels. *)
Definition out_unlabelled {NL EL} (r : gout NL EL) : gout NL EL :=
  match r with
  | RNode o => RNode ((λ p, (p.1, None)) <$> o)
  | REdge o => REdge ((λ e, (e.1, None)) <$> o)
  | RLabelId _ => RLabelId None
  | r => r
  end.

(** Calls that write a raw label id (set_label_id through get_node_mut or
    get_edge_mut); they change no structure. *)
Definition is_raw {NL EL} (o : gop NL EL) : bool :=
  match o with OSetNodeLabelId _ _ | OSetEdgeLabelId _ _ _ => true | _ => false end.
Definition strip {NL EL} (h : list (gop NL EL)) : list (gop NL EL) := filter (λ o, is_raw o = false) h.
(** The return values of the calls kept by [strip]. *)
Definition kept_outs {NL EL} (h : list (gop NL EL)) (rs : list (gout NL EL)) : list (gout NL EL) :=
  (filter (λ p, is_raw p.1 = false) (zip h rs)).*2.

(** As many labels as the label id type can number. *)
Definition labels_fit {X} (lt : idty) (ls : list X) : Prop := (N.of_nat (length ls) ≤ id_card lt)%N.

(** The ids a call may insert. *)
Definition inserted {NL EL} (o : gop NL EL) : list N :=
  match o with OAddNode n _ => [n] | OAddEdge x y _ => [x; y] | _ => [] end.
(** How a call and its result change the surplus of edge_count() over the number of edges. *)
Definition next_drift {NL EL} (d : nat) (o : gop NL EL) (r : gout NL EL) : nat :=
  match o, r with
  | OAddEdge _ _ _, RBool false => S d          (* the edge was there already *)
  | OUpdateEdgeLabel _ _ _, RBool true => S d   (* relabelled through add_edge *)
  | ORefineEdgeCount, _ => 0
  | _, _ => d
  end.
Fixpoint drift {NL EL} (d : nat) (h : list (gop NL EL)) (rs : list (gout NL EL)) : nat :=
  match h, rs with
  | o :: h, r :: rs => drift (next_drift d o r) h rs
  | _, _ => d
  end.
(** Calls that may change node [n] / edge {x,y} or its label. *)
Definition modifies_node {NL EL} (n : N) (o : gop NL EL) : bool :=
  match o with
  | OAddNode m _ | ORemoveNode m | OUpdateNodeLabel m _ | OSetNodeLabelId m _ => bool_decide (m = n)
  | _ => false
  end.
Definition modifies_edge {NL EL} (dir : bool) (x y : N) (o : gop NL EL) : bool :=
  match o with
  | OAddEdge s t _ | ORemoveEdge s t | OUpdateEdgeLabel s t _ | OSetEdgeLabelId s t _ =>
      bool_decide (ekey dir s t = ekey dir x y)
  | ORemoveNode m => bool_decide (m = x ∨ m = y)
  | _ => false
  end.
