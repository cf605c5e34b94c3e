(** What a history of calls on a NodeMap means, read off the calls alone, latest call first. *)
From Verif Require Import Base Api Spec GraphMap NodeOps.

(** The label of neighbour [x] of a node [id] after the calls, None if it is not a neighbour. *)
Fixpoint nbr_after (id : N) (init : N → option (option N)) (rev_h : list nop) (x : N) : option (option N) :=
  match rev_h with
  | [] => init x
  | o :: h =>
      let before := nbr_after id init h x in
      match o with
      | NAddEdge y l => if decide (x = y) then Some l else before
      | NRemoveEdge y => if decide (x = y) then None else before
      | NSetNeighbor y l => if decide (x = y) then (λ _, l) <$> before else before
      | NMapNeighbors f => f x <$> before
      | NMapNonLess f => if decide (id ≤ x)%N then f x <$> before else before
      | NAddInEdge _ | NRemoveInEdge _ | NSetLabel _ => before
      end
  end.
(** Whether [x] is an in-neighbour: the latest call about it decides. *)
Fixpoint in_after (init : N → Prop) (rev_h : list nop) (x : N) : Prop :=
  match rev_h with
  | [] => init x
  | NAddInEdge y :: h => x = y ∨ in_after init h x
  | NRemoveInEdge y :: h => x ≠ y ∧ in_after init h x
  | _ :: h => in_after init h x
  end.
(** The label of the node: the one set last. *)
Fixpoint label_after (init : option N) (rev_h : list nop) : option N :=
  match rev_h with
  | [] => init
  | NSetLabel l :: _ => l
  | _ :: h => label_after init h
  end.
(** What a call returns after the calls [rev_h]. *)
Definition returns (id : N) (ni : N → option (option N)) (ii : N → Prop) (rev_h : list nop) (o : nop) (r : nout) : Prop :=
  match o, r with
  | NAddInEdge x, NBool b => b = true ↔ ¬ in_after ii rev_h x
  | NRemoveInEdge x, NBool b => b = true ↔ in_after ii rev_h x
  | NAddEdge x _, NBool b => b = true ↔ nbr_after id ni rev_h x = None
  | NSetNeighbor x _, NBool b => b = true ↔ is_Some (nbr_after id ni rev_h x)
  | NRemoveEdge x, NEdge e => e = (λ l, (id, x, l)) <$> nbr_after id ni rev_h x
  | NMapNeighbors _, NUnit | NMapNonLess _, NUnit | NSetLabel _, NUnit => True
  | _, _ => False
  end.
(** All calls of a history return that. *)
Definition returns_all (id : N) ni ii (h : list nop) (rs : list nout) : Prop :=
  length rs = length h ∧ ∀ i o r, h !! i = Some o → rs !! i = Some r → returns id ni ii (reverse (take i h)) o r.

(** All queries of NodeMapTrait answer for neighbours [nb], in-neighbours [inn] and label [l]. *)
Record node_shows (id : N) (l : option N) (nb : N → option (option N)) (inn : N → Prop) (n : nodemap) : Prop := {
  ns_id : nm_id n = id;
  ns_label : nm_label n = l;
  ns_get : ∀ x, nm_get_neighbor n x = nb x;
  ns_has : ∀ x, nm_has_neighbor n x = true ↔ is_Some (nb x);
  ns_has_in : ∀ x, nm_has_in_neighbor n x = true ↔ inn x;
  ns_neighbors : increasing (nm_neighbors n) ∧ ∀ x, x ∈ nm_neighbors n ↔ is_Some (nb x);
  ns_in_neighbors : increasing (nm_in_neighbors n) ∧ ∀ x, x ∈ nm_in_neighbors n ↔ inn x;
  ns_degree : nm_degree n = length (nm_neighbors n);
  ns_in_degree : nm_in_degree n = length (nm_in_neighbors n);
  ns_full : (nm_neighbors_full n).*1 = pair id <$> nm_neighbors n ∧
    ∀ s x lx, (s, x, lx) ∈ nm_neighbors_full n ↔ s = id ∧ nb x = Some lx;
  ns_non_less : increasing (nm_non_less_neighbors n) ∧ ∀ x, x ∈ nm_non_less_neighbors n ↔ (id ≤ x)%N ∧ is_Some (nb x);
  ns_non_less_full : (nm_non_less_neighbors_full n).*1 = pair id <$> nm_non_less_neighbors n ∧
    ∀ s x lx, (s, x, lx) ∈ nm_non_less_neighbors_full n ↔ s = id ∧ (id ≤ x)%N ∧ nb x = Some lx;
}.

(** What the API shows of one end of an edge: the label id get_edge(s,t) carries. *)
Definition edge_lid {NL EL} (V : gview NL EL) (s t : N) : option (option N) :=
  match v_get_edge V s t with Ok (Some e) => Some e.2 | _ => None end.
Definition in_list {NL EL} (V : gview NL EL) (s t : N) : Prop :=
  ∃ l, v_in_neighbors V s = Ok l ∧ t ∈ l.
Definition with_edge_count {NL EL} (k : nat) (V : gview NL EL) : gview NL EL :=
  GView (v_directed V) (v_is_di V) (v_node_count V) k (v_has_node V) (v_has_edge V)
    (v_get_node V) (v_get_edge V) (v_node_indices V) (v_edge_indices V) (v_nodes V) (v_edges V)
    (v_degree V) (v_neighbors V) (v_in_degree V) (v_in_neighbors V) (v_max_seen_id V)
    (v_node_label_map V) (v_edge_label_map V).
