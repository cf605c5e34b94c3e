(** C99: what can be done to a static graph through the mutable references it hands out.
    [sg_edit], [sg_edits]: StaticEdit.v. [same_structure], [same_node_labels], [same_edge_labels]: SpecSGraph.v. *)
From Verif Require Import Base Api Map Static SpecSGraph StaticEdit StaticEditProps.

Section C99.
  Context {NL EL : Type} `{EqDecision NL, EqDecision EL} (it lt : idty) (dir : bool).
  Local Notation view := (sg_view it lt dir).
  (** ** C99. Edits of labels and label maps, in any number and order, leave the graph below the labels as it is. *)
  Theorem C99_structure (h : list (sedit NL EL)) (g g' : sgraph NL EL) : Forall (λ o, o ≠ EClear ∧ o ≠ EClearIn) h → sg_edits h g = Ok g' →
    same_structure (view g) (view g').
  Proof. exact (edits_structure it lt dir h g g'). Qed.
  (** A label added to the map changes no label shown; it shows only at nodes whose label id was
      waiting for it, one past the end of the map. *)
  Theorem C99_add_node_label (x : NL) (g : sgraph NL EL) : let V := view g in
    ∃ g', sg_edit (ENodeMap (MAdd x)) g = Ok g' ∧ let W := view g' in
      same_edge_labels V W ∧ (∀ n, v_get_node W n = v_get_node V n) ∧ v_nodes W = v_nodes V ∧
      ∀ n, (∀ y, v_node_label V n = Ok (Some y) → v_node_label W n = Ok (Some y)) ∧
        (v_node_label W n ≠ v_node_label V n → x ∉ v_node_label_map V ∧ v_node_label W n = Ok (Some x) ∧
          v_get_node V n = Ok (Some (n, Some (N.of_nat (length (v_node_label_map V)))))).
  Proof. exact (add_node_label it lt dir x g). Qed.
  Theorem C99_add_edge_label (x : EL) (g : sgraph NL EL) : let V := view g in
    ∃ g', sg_edit (EEdgeMap (MAdd x)) g = Ok g' ∧ let W := view g' in
      same_node_labels V W ∧ (∀ s t, v_get_edge W s t = v_get_edge V s t) ∧ v_edges W = v_edges V ∧
      ∀ s t, (∀ y, v_edge_label V s t = Ok (Some y) → v_edge_label W s t = Ok (Some y)) ∧
        (v_edge_label W s t ≠ v_edge_label V s t → x ∉ v_edge_label_map V ∧ v_edge_label W s t = Ok (Some x) ∧
          v_get_edge V s t = Ok (Some (s, t, Some (N.of_nat (length (v_edge_label_map V)))))).
  Proof. exact (add_edge_label it lt dir x g). Qed.
  (** Popping the last label takes it from exactly the nodes (edges) that show it. *)
  Theorem C99_pop_node_label (x : NL) (g : sgraph NL EL) : let V := view g in
    NoDup (v_node_label_map V) → last (v_node_label_map V) = Some x → ∃ g', sg_edit (ENodeMap MPop) g = Ok g' ∧ let W := view g' in
      same_edge_labels V W ∧ (∀ n, v_get_node W n = v_get_node V n) ∧ v_nodes W = v_nodes V ∧
      ∀ n, (v_node_label V n = Ok (Some x) → v_node_label W n = Ok None) ∧ (v_node_label V n ≠ Ok (Some x) → v_node_label W n = v_node_label V n).
  Proof. exact (pop_node_label it lt dir x g). Qed.
  Theorem C99_pop_edge_label (x : EL) (g : sgraph NL EL) : let V := view g in
    NoDup (v_edge_label_map V) → last (v_edge_label_map V) = Some x → ∃ g', sg_edit (EEdgeMap MPop) g = Ok g' ∧ let W := view g' in
      same_node_labels V W ∧ (∀ s t, v_get_edge W s t = v_get_edge V s t) ∧ v_edges W = v_edges V ∧
      ∀ s t, (v_edge_label V s t = Ok (Some x) → v_edge_label W s t = Ok None) ∧ (v_edge_label V s t ≠ Ok (Some x) → v_edge_label W s t = v_edge_label V s t).
  Proof. exact (pop_edge_label it lt dir x g). Qed.
  (** Writing label id [l] at position [i] gives node [i] that label (none for the largest id)
      and changes nothing else; a position past the end panics. *)
  Theorem C99_set_label (g : sgraph NL EL) (i : nat) (l : N) (v : list N) : sg_labels g = Some v → let V := view g in
    sg_edit (ELabel i l) g = Panic ∧ length v ≤ i ∨
    i < length v ∧ ∃ g', sg_edit (ELabel i l) g = Ok g' ∧ let W := view g' in
      same_edge_labels V W ∧ v_node_label_map W = v_node_label_map V ∧
      (∀ n, n ≠ N.of_nat i → v_get_node W n = v_get_node V n ∧ v_node_label W n = v_node_label V n) ∧
      (v_has_node V (N.of_nat i) = true → v_get_node W (N.of_nat i) = Ok (Some (N.of_nat i, if decide (l = id_max lt) then None else Some l)) ∧
        v_node_label W (N.of_nat i) = Ok (if decide (l = id_max lt) then None else v_node_label_map V !! N.to_nat l)).
  Proof. exact (set_label it lt dir g i l v). Qed.
  (** remove_labels on the edge vector: edges stay, without labels; node labels stay. *)
  Theorem C99_unlabel (g : sgraph NL EL) : let V := view g in
    ∃ g', sg_edit EUnlabel g = Ok g' ∧ let W := view g' in
      same_structure V W ∧ same_node_labels V W ∧ v_edge_label_map W = v_edge_label_map V ∧
      (∀ s t b, v_has_edge V s t = Ok b → v_get_edge W s t = Ok (if (b : bool) then Some (s, t, None) else None) ∧ v_edge_label W s t = Ok None) ∧
      (∀ es, v_edge_indices V = Ok es → v_edges W = Ok ((λ e, (e, None)) <$> es)) ∧
      sg_labels g' = sg_labels g ∧ sg_in g' = sg_in g ∧ ev_offsets (sg_evec g') = ev_offsets (sg_evec g) ∧ ev_edges (sg_evec g') = ev_edges (sg_evec g) ∧
      ev_label_vec (sg_evec g') = None.
  Proof. exact (unlabelled it lt dir g). Qed.
  (** On the vector of in-edges it changes no answer; without such a vector the unwrap panics. *)
  Theorem C99_unlabel_in (g : sgraph NL EL) : let V := view g in
    (sg_in g = None → sg_edit EUnlabelIn g = Panic) ∧
    ∀ e, sg_in g = Some e → ∃ g', sg_edit EUnlabelIn g = Ok g' ∧ let W := view g' in
      same_structure V W ∧ same_node_labels V W ∧ same_edge_labels V W ∧ sg_evec g' = sg_evec g ∧ sg_labels g' = sg_labels g ∧
      ∃ e', sg_in g' = Some e' ∧ ev_offsets e' = ev_offsets e ∧ ev_edges e' = ev_edges e ∧ ev_label_vec e' = None.
  Proof. exact (unlabelled_in it lt dir g). Qed.
  (** Replacing the vector of node labels: each node shows the label id at its position, none if
      that is the largest id or the vector is None; asking for a node past its end panics. *)
  Theorem C99_replace_labels (ls : option (list N)) (g : sgraph NL EL) : let V := view g in
    ∃ g', sg_edit (ELabels ls) g = Ok g' ∧ let W := view g' in
      same_structure V W ∧ same_edge_labels V W ∧ v_node_label_map W = v_node_label_map V ∧ sg_evec g' = sg_evec g ∧ sg_in g' = sg_in g ∧
      ∀ n, v_get_node W n = (if v_has_node V n then
          match ls with
          | None => Ok (Some (n, None))
          | Some v => match v !! N.to_nat n with Some l => Ok (Some (n, if decide (l = id_max lt) then None else Some l)) | None => Panic end
          end else Ok None) ∧
        (v_has_node V n = true → v_node_label W n =
          match ls with
          | None => Ok None
          | Some v => match v !! N.to_nat n with
                      | Some l => Ok (if decide (l = id_max lt) then None else v_node_label_map V !! N.to_nat l) | None => Panic end
          end).
  Proof. exact (replaced_labels it lt dir ls g). Qed.
  (** Clearing the edge vector leaves nodes, labels and both counts as they were, the number of
      edges included; every query about edges panics. *)
  Theorem C99_clear (g : sgraph NL EL) : let V := view g in
    ∃ g', sg_edit EClear g = Ok g' ∧ let W := view g' in
      v_node_count W = v_node_count V ∧ v_edge_count W = v_edge_count V ∧
      (∀ n, v_has_node W n = v_has_node V n) ∧ same_node_labels V W ∧ (∀ n, v_in_neighbors W n = v_in_neighbors V n) ∧
      (∀ n, v_neighbors W n = Panic ∧ v_degree W n = Panic) ∧ (∀ s t, v_has_edge W s t = Panic ∧ v_get_edge W s t = Panic) ∧
      v_edge_indices W = Panic ∧ v_edges W = Panic.
  Proof. exact (cleared it lt dir g). Qed.
  (** What its accessors return afterwards: empty slices; a vector of edge labels stays, empty. *)
  Theorem C99_clear_arrays (g g' : sgraph NL EL) : sg_edit EClear g = Ok g' → let e := sg_evec g in let e' := sg_evec g' in
    ev_offsets e' = [] ∧ ev_edges e' = [] ∧ (ev_label_vec e' = None ↔ ev_label_vec e = None) ∧ (∀ ls, ev_label_vec e' = Some ls → ls = []) ∧ sg_in g' = sg_in g.
  Proof. exact (cleared_arrays g g'). Qed.
  Theorem C99_clear_in_arrays (g g' : sgraph NL EL) e : sg_in g = Some e → sg_edit EClearIn g = Ok g' → sg_evec g' = sg_evec g ∧
    ∃ e', sg_in g' = Some e' ∧ ev_offsets e' = [] ∧ ev_edges e' = [] ∧ (ev_label_vec e' = None ↔ ev_label_vec e = None) ∧ (∀ ls, ev_label_vec e' = Some ls → ls = []).
  Proof. exact (cleared_in_arrays g g' e). Qed.
End C99.
Print Assumptions C99_structure.
Print Assumptions C99_add_node_label.
Print Assumptions C99_add_edge_label.
Print Assumptions C99_pop_node_label.
Print Assumptions C99_pop_edge_label.
Print Assumptions C99_set_label.
Print Assumptions C99_unlabel.
Print Assumptions C99_unlabel_in.
Print Assumptions C99_replace_labels.
Print Assumptions C99_clear.
Print Assumptions C99_clear_arrays.
Print Assumptions C99_clear_in_arrays.
(** Node 0 has label 8, node 1 none, node 2 the label id one past the end. *)
Example C99_case : ∃ g g' : sgraph N N,
  sg_with_labels true (EV [0; 1; 2; 2] [1; 2]%N (Some [0; 1]%N)) (Some (ev_new [0; 0; 1; 2] [0; 1]%N)) [1; 255; 2]%N [7; 8]%N [5; 6]%N None None = Ok g ∧
  sg_edits [ENodeMap (MAdd 9%N); EEdgeMap MPop; ELabel 1 0%N] g = Ok g' ∧ Forall (λ o, o ≠ EClear ∧ o ≠ EClearIn) [ENodeMap (MAdd 9%N); EEdgeMap (NL := N) (EL := N) MPop; ELabel 1 0%N] ∧
  (v_node_label (sg_view TU8 TU8 true g) <$> [0; 1; 2]%N) = [Ok (Some 8%N); Ok None; Ok None] ∧
  (v_node_label (sg_view TU8 TU8 true g') <$> [0; 1; 2]%N) = [Ok (Some 8%N); Ok (Some 7%N); Ok (Some 9%N)] ∧
  v_edge_label (sg_view TU8 TU8 true g) 1 2 = Ok (Some 6%N) ∧ v_edge_label (sg_view TU8 TU8 true g') 1 2 = Ok None ∧
  NoDup (sg_nlm g) ∧ last (sg_elm g) = Some 6%N.
Proof.
  eexists _, _. split; [by vm_compute|]. split; [by vm_compute|]. split; [by repeat constructor|]. split_and!; try by vm_compute.
  apply (bool_decide_unpack _). by vm_compute.
Qed.
