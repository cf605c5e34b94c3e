(** Builds without overflow checks. Rust checks integer arithmetic for overflow in debug builds
    only; in release builds it wraps around. The other model files have the checks on (usub and
    id_incr in Base.v). Here the functions that do unchecked-in-release arithmetic are written
    with [checks] as a parameter; for [checks = true] they are the ones of the other files
    (proved in ReleaseProps.v, [*_checked]). *)
From stdpp Require Import gmap strings.
From Verif Require Import Base Api Spec Map GraphMap Static SpecConn ConnComp Csv Ldbc.

(** a - b on usize. *)
Definition b_sub (checks : bool) (a b : nat) : res nat :=
  if decide (b ≤ a) then Ok (a - b)
  else if checks then Panic else Ok (N.to_nat (id_card TUsize) + a - b).
(** IdType::increment, dtype.rs l.92 and l.118. *)
Definition b_incr (checks : bool) (t : idty) (x : N) : res N :=
  match t with
  | TUnit => Ok 0%N
  | _ => if decide (x + 1 < id_card t)%N then Ok (x + 1)%N else if checks then Panic else Ok 0%N
  end.

(** ** GraphMap: graph_map/graph.rs *)
Section gm.
  Context {NL EL : Type} `{EqDecision NL, EqDecision EL}.
  Context (checks dir : bool) (lt : idty).
  Notation graph := (graphmap NL EL).
  Implicit Types g : graph.
  (** remove_node, l.299-324. *)
  Definition b_remove_node (id : N) g : res (option nodemap * graph) :=
    match g_nodes g !! id with
    | None => Ok (None, g)
    | Some node =>
        let g := set_nodes (delete id (g_nodes g)) g in
        let* g :=
          if dir then
            let* g := rfold (λ g nb, upd_node nb (nm_remove_in_edge id) g) (nm_neighbors node) g in
            rfold (λ g nb, upd_node nb (λ n, (nm_remove_edge id n).2) g) (nm_in_neighbors node) g
          else
            rfold (λ g nb, upd_node nb (λ n, (nm_remove_edge id n).2) g) (nm_neighbors node) g in
        let* k := b_sub checks (g_nedges g) (nm_degree node + nm_in_degree node) in
        Ok (Some node, set_nedges k g)
    end.
  (** remove_edge, l.372-395. *)
  Definition b_remove_edge (s t : N) g : res (option (N * N * option N) * graph) :=
    if gm_has_edge g s t then
      let* ns := unwrap (g_nodes g !! s) in
      let '(edge, ns') := nm_remove_edge t ns in
      let g := set_nodes (<[s := ns']> (g_nodes g)) g in
      let* g :=
        if dir then upd_node t (nm_remove_in_edge s) g
        else upd_node t (λ n, (nm_remove_edge s n).2) g in
      let* k := b_sub checks (g_nedges g) 1 in
      Ok (edge, set_nedges k g)
    else Ok (None, g).
  (** The calls; the others do no subtraction. *)
  Definition b_step (o : gop NL EL) g : res (gout NL EL * graph) :=
    match o with
    | ORemoveNode n =>
        rmap (λ p, (RNode ((λ x, (nm_id x, lookup_label (g_nlm p.2) (nm_label x))) <$> p.1), p.2)) (b_remove_node n g)
    | ORemoveEdge s t =>
        rmap (λ p, (REdge ((λ e, (e.1.1, e.1.2, lookup_label (g_elm p.2) e.2)) <$> p.1), p.2)) (b_remove_edge s t g)
    | o => gm_step dir lt o g
    end.
  Fixpoint b_run (h : list (gop NL EL)) g : res (list (gout NL EL) * graph) :=
    match h with
    | [] => Ok ([], g)
    | o :: h' =>
        let* '(r, g') := b_step o g in
        rmap (λ p, (r :: p.1, p.2)) (b_run h' g')
    end.

  (** The loop of into_static, l.871-921, for at most [fuel] rounds, and what follows it. *)
  Context (it : idty).
  Fixpoint b_is_loop (fuel : nat) (max_nid nid : N) (s : isst) : res isst :=
    if decide (nid ≤ max_nid)%N then
      match fuel with
      | O => NoFuel
      | S fuel =>
          let s := is_step lt nid s in
          let* nid := b_incr checks it nid in
          b_is_loop fuel max_nid nid s
      end
    else Ok s.
  Definition b_into_static (fuel : nat) g : res (sgraph NL EL) :=
    let has_elabels := match g_elm g with [] => false | _ => true end in
    let has_nlabels := match g_nlm g with [] => false | _ => true end in
    let* max_nid := unwrap (max_key (g_nodes g)) in
    let s := ISst (g_nodes g) 0 [0] [] (if has_elabels then Some [] else None) (if has_nlabels then Some [] else None)
               (if dir then Some 0 else None) (if dir then Some [0] else None) (if dir then Some [] else None) in
    let* s := b_is_loop fuel max_nid (id_new it 0) s in
    let* edge_vec := ev_from_raw (is_offsets s) (is_edges s) (is_elabels s) in
    let in_edge_vec := match is_in_offsets s, is_in_edges s with
                       | Some o, Some e => Some (ev_new o e)
                       | _, _ => None
                       end in
    sg_from_raw dir (gm_node_count g) (gm_edge_count g) edge_vec in_edge_vec (is_nlabels s) (g_nlm g) (g_elm g).

  (** max_seen_id of a static graph, static_graph/graph.rs l.575 (graph_mmap.rs l.272 alike). *)
  Definition b_max_seen_id (g : sgraph NL EL) : res (option N) :=
    let* k := b_sub checks (sg_num_nodes g) 1 in Ok (Some (id_new it k)).
End gm.

(** ** ConnComp: algorithm/conn_comp.rs *)
(** process_new_edge, l.107-128. *)
Definition b_cc_process (checks : bool) (x y : N) (c : ccomp) : res ccomp :=
  let c := cc_see y (cc_see x c) in
  let* '(o, c) := cc_get_root x c in
  let* x_root := unwrap o in
  let* '(o, c) := cc_get_root y c in
  let* y_root := unwrap o in
  if decide (x_root = y_root) then Ok c
  else let* n := b_sub checks (cc_count c) 1 in
       Ok (CC (<[x_root := y_root]> (cc_parent c)) n).
Definition b_cc_step (checks : bool) (o : ccop) (c : ccomp) : res ccomp :=
  match o with CEdge x y => b_cc_process checks x y c | o => cc_step o c end.
Definition b_cc_run (checks : bool) (h : list ccop) (c : ccomp) : res ccomp := rfold (λ c o, b_cc_step checks o c) h c.

(** ** LDBC nodes: io/ldbc/node.rs *)
Section ldbc.
  Context (checks : bool) (it : idty).
  (** The closure of or_insert_with, l.62-65. *)
  Definition b_next_id (g : graphmap string string) : res N :=
    match gm_max_seen_id g with
    | Some i => b_incr checks it i
    | None => Ok 0%N
    end.
  (** Node::add_node, l.54-71, and the records of a file in turn. *)
  Definition b_ldbc_add_node (nd : ldbc_node) (r : row) (st : graphmap string string * gmap string N) :
      res (graphmap string string * gmap string N) :=
    let '(g, m) := st in
    let* f := field r (ln_id nd) in
    let key := (ln_name nd +:+ f)%string in
    let* '(id, m) := match m !! key with
                     | Some id => Ok (id, m)
                     | None => let* id := b_next_id g in Ok (id, <[key := id]> m)
                     end in
    let* l := field r (ln_label nd) in
    let* g := rmap snd (gm_add_node it id (Some l) g) in
    Ok (g, m).
  Definition b_ldbc_add_nodes (nd : ldbc_node) (rs : list row) (st : graphmap string string * gmap string N) :
      res (graphmap string string * gmap string N) :=
    rfold (λ st r, b_ldbc_add_node nd r st) rs st.
End ldbc.
