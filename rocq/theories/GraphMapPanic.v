(** What remove_node leaves when it panics (graph.rs l.299-324) and the panic is caught.

    Each step of its loops looks up a node, unwraps it and only then changes it, so a panic leaves exactly the changes of the steps before.
    The same holds for the subtraction at the end. No other method of a GraphMap panics in the middle of its changes (C09). *)
From Verif Require Import Base Api Map GraphMap.

Section left.
  Context {NL EL : Type} `{EqDecision NL, EqDecision EL} (dir : bool).
  Notation graph := (graphmap NL EL).
  (** A for loop over [l] with body [f]: the graph when it is over, and whether it came to its end. *)
  Fixpoint loop_left (f : graph → N → res graph) (l : list N) (g : graph) : graph * bool :=
    match l with
    | [] => (g, true)
    | x :: l => match f g x with Ok g => loop_left f l g | _ => (g, false) end
    end.
  (** remove_node, graph.rs l.299-324: the graph when the call is over, and whether the call returned. *)
  Definition gm_remove_node_left (id : N) (g : graph) : graph * bool :=
    match g_nodes g !! id with
    | None => (g, true)
    | Some node =>
        let g := set_nodes (delete id (g_nodes g)) g in
        let '(g, b) :=
          if dir then
            let '(g, b) := loop_left (λ g nb, upd_node nb (nm_remove_in_edge id) g) (nm_neighbors node) g in
            if b : bool then loop_left (λ g nb, upd_node nb (λ n, (nm_remove_edge id n).2) g) (nm_in_neighbors node) g else (g, false)
          else
            loop_left (λ g nb, upd_node nb (λ n, (nm_remove_edge id n).2) g) (nm_neighbors node) g in
        if b : bool then
          match usub (g_nedges g) (nm_degree node + nm_in_degree node) with
          | Ok k => (set_nedges k g, true)
          | _ => (g, false)
          end
        else (g, false)
    end.
End left.
