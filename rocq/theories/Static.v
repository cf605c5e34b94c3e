(** Model of src/graph_impl/static_graph/{edge_vec,static_edge_iter,node,graph}.rs and of
    into_static (src/graph_impl/graph_map/graph.rs l.835-945).

    [it] is the node id type Id, [lt] the label id type L, [dir] is Ty::is_directed().
    Counters and offsets (usize) are unbounded naturals. Logging (debug!, warn!) and
    shrink_to_fit are left out; the expressions that guard the logging are kept where they
    can panic. *)
From Verif Require Import Base Api Map GraphMap ViewOps.

(** [slice::binary_search] of the Rust standard library (2018): halve [size] until it is 1,
    then compare. [inl i] is Ok(i), [inr i] is Err(i). *)
Fixpoint bsearch_loop (fuel : nat) (l : list N) (x : N) (base size : nat) : res nat :=
  if decide (size ≤ 1) then Ok base else
  match fuel with
  | O => NoFuel
  | S fuel =>
      let half := size / 2 in
      let mid := base + half in
      let* y := unwrap (l !! mid) in
      bsearch_loop fuel l x (if decide (x < y)%N then base else mid) (size - half)
  end.
Definition bsearch (l : list N) (x : N) : res (nat + nat) :=
  if decide (length l = 0) then Ok (inr 0) else
  let* base := bsearch_loop (length l) l x 0 (length l) in
  let* y := unwrap (l !! base) in
  if decide (y = x) then Ok (inl base)
  else Ok (inr (if decide (y < x)%N then S base else base)).

(** EdgeVec, edge_vec.rs l.34-38. *)
Record evec := EV { ev_offsets : list nat; ev_edges : list N; ev_label_vec : option (list N) }.
(** get_labels, l.195-200. *)
Definition ev_labels (e : evec) : list N := default [] (ev_label_vec e).

Section edge_vec.
  Context (e : evec).
  (** num_nodes, l.47: overflow-checked. *)
  Definition ev_num_nodes : res nat := usub (length (ev_offsets e)) 1.
  (** num_edges, l.52. *)
  Definition ev_num_edges : nat := length (ev_edges e).
  (** has_node, l.75. *)
  Definition ev_has_node (n : N) : res bool :=
    let* k := ev_num_nodes in Ok (bool_decide (id_id n < k)).
  (** The offsets of [n] and its successor. *)
  Definition ev_bounds (n : N) : res (nat * nat) :=
    let* b := ev_has_node n in
    if negb b then Panic else
    let* s := unwrap (ev_offsets e !! id_id n) in
    let* t := unwrap (ev_offsets e !! (id_id n + 1)) in
    Ok (s, t).
  (** neighbors, l.57-63: slicing panics unless start <= end <= len. *)
  Definition ev_neighbors (n : N) : res (list N) :=
    let* '(s, t) := ev_bounds n in
    if decide (s ≤ t ∧ t ≤ length (ev_edges e)) then Ok (take (t - s) (drop s (ev_edges e))) else Panic.
  (** degree, l.66-72. *)
  Definition ev_degree (n : N) : res nat := let* '(s, t) := ev_bounds n in usub t s.
  (** find_edge_index, l.80-91. *)
  Definition ev_find_edge_index (s t : N) : res (option nat) :=
    let* bs := ev_has_node s in
    let* bt := (if bs : bool then ev_has_node t else Ok false) in
    if negb bt then Ok None else
    let* nb := ev_neighbors s in
    let* found := bsearch nb t in
    match found with
    | inr _ => Ok None
    | inl idx => let* o := unwrap (ev_offsets e !! id_id s) in Ok (Some (o + idx))
    end.
  (** find_edge_label_id, l.94-106. *)
  Definition ev_find_edge_label_id (s t : N) : res (option N) :=
    match ev_labels e with
    | [] => Ok None
    | labels => let* o := ev_find_edge_index s t in
                Ok (match o with None => None | Some idx => labels !! idx end)
    end.
  (** has_edge, l.109. *)
  Definition ev_has_edge (s t : N) : res bool :=
    let* o := ev_find_edge_index s t in Ok (match o with Some _ => true | None => false end).
End edge_vec.
(** new, l.115. *)
Definition ev_new (offs : list nat) (edges : list N) : evec := EV offs edges None.
(** with_labels, l.123-136. *)
Definition ev_with_labels (offs : list nat) (edges labels : list N) : res evec :=
  if decide (length edges ≠ length labels) then Panic else Ok (EV offs edges (Some labels)).
(** from_raw, l.138-143. *)
Definition ev_from_raw (offs : list nat) (edges : list N) (labels : option (list N)) : res evec :=
  match labels with Some ls => ev_with_labels offs edges ls | None => Ok (ev_new offs edges) end.
(** remove_labels, l.145. *)
Definition ev_remove_labels (e : evec) : evec := EV (ev_offsets e) (ev_edges e) None.
(** clear, l.149-155. *)
Definition ev_clear (e : evec) : evec := EV [] [] ((λ _, []) <$> ev_label_vec e).

Section iter.
  Context (it : idty) (dir : bool) (e : evec).
  (** StaticEdgeIndexIter::next, static_edge_iter.rs l.47-92. The while loop and the loop
      around it are one recursion: every repetition goes to the next node. The state is
      (curr_node, curr_neighbor_index). *)
  Fixpoint ei_next (fuel : nat) (curr idx : nat) : res (option ((N * N) * (nat * nat))) :=
    match fuel with
    | O => NoFuel
    | S fuel =>
        let node := id_new it curr in
        let* hn := ev_has_node e node in
        let* skip := (if hn : bool then let* d := ev_degree e node in Ok (bool_decide (d ≤ idx)) else Ok false) in
        if skip : bool then ei_next fuel (S curr) 0 else
        if negb hn then Ok None else
        let* nb := ev_neighbors e node in
        let yield i := let* x := unwrap (nb !! i) in Ok (Some ((node, x), (curr, S i))) in
        if dir then yield idx else
        let* x := unwrap (nb !! idx) in
        if decide (x < node)%N then
          let* found := bsearch nb node in
          match found with
          | inl i => yield i
          | inr i => if decide (i < length nb) then yield i else ei_next fuel (S curr) 0
          end
        else yield idx
    end.
  (** What the iterator yields until it returns None. *)
  Fixpoint ei_collect (fuel inner : nat) (curr idx : nat) : res (list (N * N)) :=
    match fuel with
    | O => NoFuel
    | S fuel =>
        let* o := ei_next inner curr idx in
        match o with
        | None => Ok []
        | Some (x, (curr', idx')) => let* l := ei_collect fuel inner curr' idx' in Ok (x :: l)
        end
    end.
  Definition ei_all : res (list (N * N)) :=
    ei_collect (S (length (ev_edges e))) (S (length (ev_offsets e))) 0 0.
End iter.

(** TypedStaticGraph, graph.rs l.52-66. *)
Record sgraph (NL EL : Type) := SGraph {
  sg_num_nodes : nat;
  sg_num_edges : nat;
  sg_evec : evec;
  sg_in : option evec;
  sg_labels : option (list N);
  sg_nlm : list NL;
  sg_elm : list EL;
}.
Arguments SGraph {_ _}. Arguments sg_num_nodes {_ _}. Arguments sg_num_edges {_ _}. Arguments sg_evec {_ _}.
Arguments sg_in {_ _}. Arguments sg_labels {_ _}. Arguments sg_nlm {_ _}. Arguments sg_elm {_ _}.

(** StaticNode::new_static (node.rs l.36-45) and Edge::new_static (graph_map/edge.rs): the
    largest id stands for no label. *)
Definition static_label (lt : idty) (l : N) : option N := if decide (l = id_max lt) then None else Some l.

Section static_graph.
  Context {NL EL : Type} (it lt : idty) (dir : bool).
  Notation graph := (sgraph NL EL).
  Implicit Types g : graph.

  (** The guard shared by new, with_labels and from_raw (l.148-161, l.207-220, l.278-291). *)
  Definition sg_check_in (in_edges : option evec) : res unit :=
    if dir then match in_edges with None => Panic | Some _ => Ok tt end else Ok tt.
  Definition sg_counts (edges : evec) (nn ne : option nat) : res (nat * nat) :=
    let* k := ev_num_nodes edges in
    let num_nodes := match nn with Some n => n | None => k end in
    let num_edges := match ne with
                     | Some n => n
                     | None => if dir then ev_num_edges edges else ev_num_edges edges / 2
                     end in
    Ok (num_nodes, num_edges).
  (** new, l.142-196. *)
  Definition sg_new (edges : evec) (in_edges : option evec) (nn ne : option nat) : res graph :=
    let* _ := sg_check_in in_edges in
    let* '(num_nodes, num_edges) := sg_counts edges nn ne in
    Ok (SGraph num_nodes num_edges edges in_edges None [] []).
  (** with_labels, l.198-259. *)
  Definition sg_with_labels (edges : evec) (in_edges : option evec) (labels : list N)
      (nlm : list NL) (elm : list EL) (nn ne : option nat) : res graph :=
    let* _ := sg_check_in in_edges in
    let* '(num_nodes, num_edges) := sg_counts edges nn ne in
    Ok (SGraph num_nodes num_edges edges in_edges (Some labels) nlm elm).
  (** from_raw, l.261-329. *)
  Definition sg_from_raw (num_nodes num_edges : nat) (edges : evec) (in_edges : option evec)
      (labels : option (list N)) (nlm : list NL) (elm : list EL) : res graph :=
    let* _ := ev_num_nodes edges in
    let* _ := sg_check_in in_edges in
    Ok (SGraph num_nodes num_edges edges in_edges labels nlm elm).
  (** remove_node_labels, l.382. *)
  Definition sg_remove_node_labels g : graph :=
    SGraph (sg_num_nodes g) (sg_num_edges g) (sg_evec g) (sg_in g) None [] (sg_elm g).
  (** remove_edge_labels, l.388-394. *)
  Definition sg_remove_edge_labels g : graph :=
    SGraph (sg_num_nodes g) (sg_num_edges g) (ev_remove_labels (sg_evec g)) (ev_remove_labels <$> sg_in g)
      (sg_labels g) (sg_nlm g) [].
  (** remove_labels, l.397-400. *)
  Definition sg_remove_labels g : graph := sg_remove_edge_labels (sg_remove_node_labels g).

  (** has_node, l.484. *)
  Definition sg_has_node g (n : N) : bool := bool_decide (id_id n < sg_num_nodes g).
  (** get_node, l.459-468. *)
  Definition sg_get_node g (n : N) : res (option (N * option N)) :=
    if negb (sg_has_node g n) then Ok None else
    match sg_labels g with
    | Some labels => let* l := unwrap (labels !! id_id n) in Ok (Some (n, static_label lt l))
    | None => Ok (Some (n, None))
    end.
  (** get_edge, l.471-481. *)
  Definition sg_get_edge g (s t : N) : res (option (N * N * option N)) :=
    let* b := ev_has_edge (sg_evec g) s t in
    if negb b then Ok None else
    let* l := ev_find_edge_label_id (sg_evec g) s t in
    Ok (Some (s, t, match l with Some l => static_label lt l | None => None end)).
  (** node_indices, l.509. *)
  Definition sg_node_indices g : list N := id_new it <$> seq 0 (sg_num_nodes g).
  (** edge_indices, l.514-519. *)
  Definition sg_edge_indices g : res (list (N * N)) := ei_all it dir (sg_evec g).
  (** nodes, l.522-540. *)
  Definition sg_nodes g : list (N * option N) :=
    match sg_labels g with
    | None => (λ n, (n, None)) <$> sg_node_indices g
    | Some labels => (λ p, (p.1, static_label lt p.2)) <$> zip (sg_node_indices g) labels
    end.
  (** edges, l.543-555. *)
  Definition sg_edges g : res (list (N * N * option N)) :=
    let* es := sg_edge_indices g in
    Ok (match ev_labels (sg_evec g) with
        | [] => (λ e, (e, None)) <$> es
        | labels => (λ p, (p.1, static_label lt p.2)) <$> zip es labels
        end).
  (** max_seen_id, l.575: overflow-checked. *)
  Definition sg_max_seen_id g : res (option N) :=
    let* k := usub (sg_num_nodes g) 1 in Ok (Some (id_new it k)).
  (** in_neighbors, l.612-621; in_degree, l.607. *)
  Definition sg_in_neighbors g (n : N) : res (list N) :=
    let* e := unwrap (sg_in g) in ev_neighbors e n.
  Definition sg_in_degree g (n : N) : res nat := rmap length (sg_in_neighbors g n).

  (** The observations (as_digraph: l.662 for directed graphs, the default None otherwise). *)
  Definition sg_view g : gview NL EL := {|
    v_directed := dir;
    v_is_di := dir;
    v_node_count := sg_num_nodes g;
    v_edge_count := sg_num_edges g;
    v_has_node := sg_has_node g;
    v_has_edge := ev_has_edge (sg_evec g);
    v_get_node := sg_get_node g;
    v_get_edge := sg_get_edge g;
    v_node_indices := sg_node_indices g;
    v_edge_indices := sg_edge_indices g;
    v_nodes := Ok (sg_nodes g);
    v_edges := sg_edges g;
    v_degree := ev_degree (sg_evec g);
    v_neighbors := ev_neighbors (sg_evec g);
    v_in_degree := sg_in_degree g;
    v_in_neighbors := sg_in_neighbors g;
    v_max_seen_id := sg_max_seen_id g;
    v_node_label_map := sg_nlm g;
    v_edge_label_map := sg_elm g;
  |}.
End static_graph.

(** ** into_static, graph_map/graph.rs l.835-945 *)
(** The local variables of the loop. *)
Record isst := ISst {
  is_map : gmap N nodemap;
  is_offset : nat;
  is_offsets : list nat;
  is_edges : list N;
  is_elabels : option (list N);
  is_nlabels : option (list N);
  is_in_offset : option nat;
  is_in_offsets : option (list nat);
  is_in_edges : option (list N);
}.
Section into_static.
  Context {NL EL : Type} (it lt : idty) (dir : bool).

  (** [None => L::max_value()] *)
  Definition raw_label (l : option N) : N := match l with Some i => i | None => id_max lt end.
  (** One iteration of the loop, l.874-921, without the increment. *)
  Definition is_step (nid : N) (s : isst) : isst :=
    let s :=
      match is_map s !! nid with
      | Some node =>
          let nbrs := bt_iter (nm_nbrs node) in
          ISst (delete nid (is_map s)) (is_offset s + length nbrs) (is_offsets s)
            (is_edges s ++ nbrs.*1)
            ((λ v, v ++ (raw_label <$> nbrs.*2)) <$> is_elabels s)
            ((λ v, v ++ [raw_label (nm_label node)]) <$> is_nlabels s)
            ((λ o, match is_in_edges s with Some _ => o + size (nm_in node) | None => o end) <$> is_in_offset s)
            (is_in_offsets s)
            ((λ v, match is_in_offset s with Some _ => v ++ bs_iter (nm_in node) | None => v end) <$> is_in_edges s)
      | None =>
          ISst (is_map s) (is_offset s) (is_offsets s) (is_edges s) (is_elabels s)
            ((λ v, v ++ [id_max lt]) <$> is_nlabels s)
            (is_in_offset s) (is_in_offsets s) (is_in_edges s)
      end in
    ISst (is_map s) (is_offset s) (is_offsets s ++ [is_offset s]) (is_edges s) (is_elabels s) (is_nlabels s)
      (is_in_offset s)
      (match is_in_offset s with Some o => (λ v, v ++ [o]) <$> is_in_offsets s | None => is_in_offsets s end)
      (is_in_edges s).
  (** while nid <= max_nid *)
  Fixpoint is_loop (fuel : nat) (max_nid nid : N) (s : isst) : res isst :=
    if decide (nid ≤ max_nid)%N then
      match fuel with
      | O => NoFuel
      | S fuel =>
          let s := is_step nid s in
          let* nid := id_incr it nid in
          is_loop fuel max_nid nid s
      end
    else Ok s.
  (** node_indices().max(), over the keys in any order. *)
  Definition max_key (m : gmap N nodemap) : option N :=
    match bt_keys m with [] => None | k :: ks => Some (foldl N.max k ks) end.
  Definition gm_into_static (g : graphmap NL EL) : res (sgraph NL EL) :=
    let has_elabels := match g_elm g with [] => false | _ => true end in
    let has_nlabels := match g_nlm g with [] => false | _ => true end in
    let* max_nid := unwrap (max_key (g_nodes g)) in
    let s := ISst (g_nodes g) 0 [0] [] (if has_elabels then Some [] else None) (if has_nlabels then Some [] else None)
               (if dir then Some 0 else None) (if dir then Some [0] else None) (if dir then Some [] else None) in
    let* s := is_loop (S (N.to_nat max_nid)) max_nid (id_new it 0) s in
    let* edge_vec := ev_from_raw (is_offsets s) (is_edges s) (is_elabels s) in
    let in_edge_vec := match is_in_offsets s, is_in_edges s with
                       | Some o, Some e => Some (ev_new o e)
                       | _, _ => None
                       end in
    sg_from_raw dir (gm_node_count g) (gm_edge_count g) edge_vec in_edge_vec (is_nlabels s) (g_nlm g) (g_elm g).
End into_static.
