(** Model of reorder_id, reorder_id_with, reorder_label_map and ReorderResult,
    src/graph_impl/graph_map/graph.rs l.683-833 and l.948-998.

    [idt] is the node id type, [lt] the label id type. The iteration order of the
    node table is [it]; the iteration orders of the two label id counters (hash
    maps inside the counter crate) are [no] and [eo]. *)
From Verif Require Import Base Api Map GraphMap.

(** slice::sort_by, a stable sort; [le x y] says that [x] may stay before [y]. *)
Fixpoint sort_insert {A} (le : A → A → bool) (x : A) (l : list A) : list A :=
  match l with
  | [] => [x]
  | y :: l' => if le x y then x :: l else y :: sort_insert le x l'
  end.
Definition sort_by {A} (le : A → A → bool) (l : list A) : list A := foldr (sort_insert le) [] l.

(** Iterator::skip_while. *)
Fixpoint skip_while {A} (p : A → bool) (l : list A) : list A :=
  match l with
  | [] => []
  | x :: l' => if p x then skip_while p l' else l
  end.

(** A Counter over [items] whose hash map is iterated in the order [o]. *)
Definition counter_order (items o : list N) : Prop := NoDup o ∧ ∀ x, x ∈ o ↔ x ∈ items.
Definition count_of (items : list N) (x : N) : nat := length (filter (λ y, y = x) items).
(** Counter::most_common (counter crate): the entries sorted by decreasing count. *)
Definition most_common (items o : list N) : list (N * nat) :=
  sort_by (λ a b, b.2 <=? a.2) ((λ x, (x, count_of items x)) <$> o).

(** collect into a BTreeMap: a later entry replaces an earlier one. *)
Definition bt_collect (l : list (N * option N)) : gmap N (option N) :=
  foldl (λ m p, <[p.1 := p.2]> m) ∅ l.

(** [if let Some(ref map) = o { T::new(map.find_index(&x).unwrap()) } else { x }] *)
Definition via (t : idty) (o : option (list N)) (x : N) : res N :=
  match o with
  | Some m => let* i := unwrap (sm_find_index m x) in Ok (id_new t i)
  | None => Ok x
  end.
(** The same under Option::map. *)
Definition via_opt (t : idty) (o : option (list N)) (x : option N) : res (option N) :=
  match x with Some i => rmap Some (via t o i) | None => Ok None end.

Section reorder.
  Context {NL EL : Type} `{EqDecision NL, EqDecision EL} (dir : bool) (idt lt : idty).
  Notation graph := (graphmap NL EL).

  (** reorder_label_map, graph.rs l.948-962: [take] empties a slot, [unwrap]
      panics on an empty one, indexing panics out of range. *)
  Definition reorder_label_map {X} `{EqDecision X} (new_map : list N) (old : list X) : res (list X) :=
    rmap snd (rfold (λ (st : list (option X) * list X) i,
      let* slot := unwrap (st.1 !! id_id i) in
      let* l := unwrap slot in
      let* p := sm_add_item st.2 l in
      Ok (<[id_id i := None]> st.1, p.2)) (sm_items new_map) (Some <$> sm_items old, sm_new)).

  (** The body of the loop over node_map, graph.rs l.754-806. *)
  Definition reorder_node (im nlm elm : option (list N)) (n : nodemap) : res nodemap :=
    let* id := via idt im (nm_id n) in
    let* label := via_opt lt nlm (nm_label n) in
    let* nbrs :=
      (match im, elm with
       | None, None => Ok (nm_nbrs n)
       | _, _ => rmap bt_collect (rmapl (λ p : N * option N,
           let* x := via idt im p.1 in
           let* l := via_opt lt elm p.2 in
           Ok (x, l)) (bt_iter (nm_nbrs n)))
       end) in
    let* ins :=
      (match im with
       | Some _ => rmap list_to_set (rmapl (via idt im) (bs_iter (nm_in n)))
       | None => Ok (nm_in n)
       end) in
    Ok (NodeMap id label nbrs ins).

  (** The maximum of a list: [keys().max()]. *)
  Definition list_max_N (l : list N) : option N :=
    foldr (λ x o, Some (match o with Some y => N.max x y | None => x end)) None l.

  (** reorder_id_with, graph.rs l.739-833. *)
  Definition gm_reorder_id_with (it : list N) (im nlm elm : option (list N)) (g : graph) : res graph :=
    match im, nlm, elm with
    | None, None, None => Ok g
    | _, _, _ =>
      let* m := rfold (λ m n, let* n' := reorder_node im nlm elm n in Ok (<[nm_id n' := n']> m))
                  (gm_values g it) ∅ in
      let* nls := (match nlm with Some mp => reorder_label_map mp (g_nlm g) | None => Ok (g_nlm g) end) in
      let* els := (match elm with Some mp => reorder_label_map mp (g_elm g) | None => Ok (g_elm g) end) in
      Ok (GraphMap m (gm_edge_count g) nls els (list_max_N (map_to_list m).*1))
    end.

  (** get_node_label_id_counter and get_edge_label_id_counter (generic/graph.rs
      l.119-126): the counted items. *)
  Definition node_label_ids (g : graph) (it : list N) : list N := omap snd (gm_node_list g it).
  Definition edge_label_ids (g : graph) (it : list N) : list N := omap snd (gm_edge_list dir g it).

  (** The node order of reorder_id, graph.rs l.692-704. *)
  Definition node_order (g : graph) (it : list N) : list N :=
    (sort_by (λ a b : N * nat, a.2 <=? b.2)
      ((λ n, (nm_id n, nm_degree n + nm_in_degree n)) <$> gm_values g it)).*1.
  (** The label order of reorder_id, graph.rs l.706-732. *)
  Definition label_order (items o : list N) : list N :=
    (skip_while (λ p, p.2 =? 0) (reverse (most_common items o))).*1.

  (** ReorderResult, graph.rs l.964-968; [graph] is Some until take_graph. *)
  Record reorder_result := ReorderResult { rr_map : option (list N); rr_graph : option graph }.

  (** reorder_id, graph.rs l.686-737. *)
  Definition gm_reorder_id (it no eo : list N) (fn fnl fel : bool) (g : graph) : res reorder_result :=
    let* im := (if fn then rmap Some (sm_from_iter (node_order g it)) else Ok None) in
    let* nlm := (if fnl then rmap Some (sm_from_iter (label_order (node_label_ids g it) no)) else Ok None) in
    let* elm := (if fel then rmap Some (sm_from_iter (label_order (edge_label_ids g it) eo)) else Ok None) in
    let* g' := gm_reorder_id_with it im nlm elm g in
    Ok (ReorderResult im (Some g')).

  (** take_graph, graph.rs l.974. *)
  Definition rr_take_graph (r : reorder_result) : option graph * reorder_result :=
    (rr_graph r, ReorderResult (rr_map r) None).
  (** get_original_node_id, graph.rs l.984-989. *)
  Definition rr_get_original_node_id (r : reorder_result) (id : N) : res N :=
    match rr_map r with
    | Some m => unwrap (sm_get_item m (id_id id))
    | None => Ok id
    end.
  (** find_new_node_id, graph.rs l.992-997. *)
  Definition rr_find_new_node_id (r : reorder_result) (id : N) : res N := via idt (rr_map r) id.
End reorder.
Arguments ReorderResult {_ _}. Arguments rr_map {_ _}. Arguments rr_graph {_ _}.
