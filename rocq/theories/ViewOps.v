(** Model of the functions that compare and hash graphs through the traits:
    src/generic/graph.rs l.237-329 and the PartialEq and Hash impls of the graph types. *)
From Verif Require Import Base Api.

(** A loop that returns false at the first failing element. *)
Fixpoint rall {X} (f : X → res bool) (l : list X) : res bool :=
  match l with
  | [] => Ok true
  | x :: l => let* b := f x in if (b : bool) then rall f l else Ok false
  end.

(** [!x] on a 64-bit usize. *)
Definition usize_not (x : nat) : N := (2 ^ 64 - 1 - N.of_nat x mod 2 ^ 64)%N.

Section ops.
  Context {NL EL : Type} `{EqDecision NL, EqDecision EL}.
  Implicit Types V : gview NL EL.

  (** The two loops shared by eq and equal: every node and edge of [V] is in [V'] with the
      same label (generic/graph.rs l.278-288, graph_map/graph.rs l.97-107,
      static_graph/graph.rs l.76-86). *)
  Definition same_node V V' (n : N) : res bool :=
    if negb (v_has_node V' n) then Ok false else
    let* l := v_node_label V n in
    let* l' := v_node_label V' n in
    Ok (bool_decide (l = l')).
  Definition same_edge V V' (e : N * N) : res bool :=
    let* b := v_has_edge V' e.1 e.2 in
    if negb b then Ok false else
    let* l := v_edge_label V e.1 e.2 in
    let* l' := v_edge_label V' e.1 e.2 in
    Ok (bool_decide (l = l')).
  Definition included V V' : res bool :=
    let* b := rall (same_node V V') (v_node_indices V) in
    if negb b then Ok false else
    let* es := v_edge_indices V in
    rall (same_edge V V') es.

  (** PartialEq::eq of TypedGraphMap (graph_map/graph.rs l.92-110) and of TypedStaticGraph
      (static_graph/graph.rs l.71-89): [!a == b] compares the bitwise complement. *)
  Definition graph_eq V V' : res bool :=
    if decide (usize_not (v_node_count V) = N.of_nat (v_node_count V')) then Ok false
    else if decide (usize_not (v_edge_count V) = N.of_nat (v_edge_count V')) then Ok false
    else included V V'.
  (** equal, generic/graph.rs l.267-291 (the label id types may differ), and eq of
      Box<GeneralGraph>, l.293-299. *)
  Definition v_equal V V' : res bool :=
    if decide (v_directed V ≠ v_directed V' ∨ v_node_count V ≠ v_node_count V' ∨ v_edge_count V ≠ v_edge_count V')
    then Ok false else included V V'.

  (** What is fed to a Hasher. A Vec feeds its length and its elements, an Option its
      discriminant and its content. *)
  Inductive htok := HBool (b : bool) | HLen (n : nat) | HId (n : N) | HNone | HSome | HNodeLabel (l : NL) | HEdgeLabel (l : EL).
  Definition h_vec {X} (h : X → list htok) (l : list X) : list htok := HLen (length l) :: (l ≫= h).
  Definition h_opt {X} (h : X → htok) (o : option X) : list htok :=
    match o with Some x => [HSome; h x] | None => [HNone] end.
  (** sorted() on ids and on pairs of ids. *)
  Definition pair_le (p q : N * N) : Prop := (p.1 < q.1)%N ∨ (p.1 = q.1 ∧ (p.2 ≤ q.2)%N).
  #[export] Instance pair_le_dec p q : Decision (pair_le p q).
  Proof. unfold pair_le. apply _. Defined.
  Definition sorted_ids (l : list N) : list N := merge_sort N.le l.
  Definition sorted_pairs (l : list (N * N)) : list (N * N) := merge_sort pair_le l.
  (** Hash::hash of TypedGraphMap (graph_map/graph.rs l.120-140) and TypedStaticGraph
      (static_graph/graph.rs l.99-119). *)
  Definition graph_hash V : res (list htok) :=
    let nodes := sorted_ids (v_node_indices V) in
    let* node_labels := rmapl (v_node_label V) nodes in
    let* es := v_edge_indices V in
    let edges := sorted_pairs es in
    let* edge_labels := rmapl (λ e, v_edge_label V e.1 e.2) edges in
    Ok (h_vec (λ n, [HId n]) nodes ++ h_vec (h_opt HNodeLabel) node_labels ++
        h_vec (λ e, [HId e.1; HId e.2]) edges ++ h_vec (h_opt HEdgeLabel) edge_labels).
  (** Hash for Box<GeneralGraph>, generic/graph.rs l.306-328. *)
  Definition box_hash V : res (list htok) :=
    let* h := graph_hash V in Ok (HBool (v_is_di V) :: h).

  (** node_labels and edge_labels l.197-205, has_*_labels l.208-215, num_of_*_labels
      l.218-225: about the label maps, whether or not a label is in use. *)
  Definition v_node_labels V : list NL := v_node_label_map V.
  Definition v_edge_labels V : list EL := v_edge_label_map V.
  Definition v_has_node_labels V : bool := match v_node_labels V with [] => false | _ => true end.
  Definition v_has_edge_labels V : bool := match v_edge_labels V with [] => false | _ => true end.
  Definition v_num_node_labels V : nat := length (v_node_labels V).
  Definition v_num_edge_labels V : nat := length (v_edge_labels V).
  (** get_node_label_counter l.228-232 and get_edge_label_counter l.235-239. A Counter maps
      every collected item to how often it was collected. *)
  Definition counter_get {X} `{EqDecision X} (x : X) (items : list X) : nat := length (filter (λ y, y = x) items).
  Definition v_node_label_counter V : res (list NL) :=
    let* ls := rmapl (v_node_label V) (v_node_indices V) in Ok (omap id ls).
  Definition v_edge_label_counter V : res (list EL) :=
    let* es := v_edge_indices V in
    let* ls := rmapl (λ e, v_edge_label V e.1 e.2) es in Ok (omap id ls).
End ops.
