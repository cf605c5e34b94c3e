(** Model of src/io/mmap.rs, of EdgeVec::dump_mmap (static_graph/edge_vec.rs l.166-181) and
    TypedStaticGraph::dump_mmap (static_graph/graph.rs l.424-452), and of
    src/graph_impl/static_graph/mmap/{edge_vec_mmap,graph_mmap}.rs.

    Files are byte lists in the file system of Bytes.v; numbers are laid out little endian
    (x86). Operations on files take effect in program order. Results of calls that cannot fail
    in this file system (metadata, create, write) are not modelled. *)
From stdpp Require Import gmap strings.
From Verif Require Import Base Api Bytes Map GraphMap Static Serde.

(** ** Typed arrays, mmap.rs *)
(** typed_as_byte_slice, l.98-106. *)
Definition typed_bytes (t : idty) (l : list N) : list N := l ≫= le_bytes (id_size t).
Definition usize_bytes (l : list nat) : list N := typed_bytes TUsize (N.of_nat <$> l).
(** The loop of dump, l.112-120: writes of at most 10000 bytes. *)
Fixpoint dump_writes (fuel : nat) (b : list N) : list (list N) :=
  match b, fuel with
  | [], _ => []
  | _, O => [b]
  | _, S fuel =>
      let to_write := if decide (length b < N.to_nat 10000) then length b else N.to_nat 10000 in
      take to_write b :: dump_writes fuel (drop to_write b)
  end.
(** dump into File::create(f), l.108-123. The BufWriter may merge the writes; it is flushed
    at the end. *)
Definition dump_ops (f : string) (b : list N) : list fsop :=
  FCreate f :: (FWrite f <$> dump_writes (length b) b).

(** TypedMemoryMap, l.35-41. *)
Record tmap := TMap { tm_map : list N; tm_len : nat; tm_type_len : nat }.
(** TypedMemoryMap::new, l.44-54: panics when the file is missing, when it is empty (mmap
    rejects a zero length) and, dividing by the size of the type, for the type (). *)
Definition tm_new (t : idty) (F : fs) (f : string) : res tmap :=
  let* b := unwrap (F !! f) in
  if decide (b = []) then Panic else
  if decide (id_size t = 0) then Panic else
  Ok (TMap b (length b / id_size t) (id_size t)).
(** slice::from_raw_parts: [count] items from byte [start] on. Reading outside of the map is
    undefined behaviour; it is shown as Panic. *)
Fixpoint raw_items (k count : nat) (b : list N) : list N :=
  match count with O => [] | S c => le_value (take k b) :: raw_items k c (drop k b) end.
Definition raw_parts (m : tmap) (start count : nat) : res (list N) :=
  if decide (start + count * tm_type_len m ≤ length (tm_map m))
  then Ok (raw_items (tm_type_len m) count (drop start (tm_map m))) else Panic.
(** Index by .., i.. and ..j, l.68-96. *)
Definition tm_full (m : tmap) : res (list N) := raw_parts m 0 (tm_len m).
Definition tm_from (m : tmap) (i : nat) : res (list N) :=
  let* c := usub (tm_len m) i in raw_parts m (i * tm_type_len m) c.
Definition tm_to (m : tmap) (j : nat) : res (list N) := raw_parts m 0 j.
(** A mapped file seen through [..], as every user in the crate does. *)
Definition typed_map (t : idty) (F : fs) (f : string) : res (list N) :=
  let* m := tm_new t F f in tm_full m.

(** metadata(f).is_ok() *)
Definition fs_exists (F : fs) (f : string) : bool := match F !! f with Some _ => true | None => false end.

(** ** File names *)
Definition f_offsets (p : string) : string := p +:+ ".offsets".
Definition f_edges (p : string) : string := p +:+ ".edges".
Definition f_labels (p : string) : string := p +:+ ".labels".
Definition p_out (p : string) : string := p +:+ "_OUT".
Definition p_in (p : string) : string := p +:+ "_IN".
Definition f_aux (p : string) : string := p +:+ "_aux.bin".

(** ** Edge vectors *)
(** EdgeVec::dump_mmap, edge_vec.rs l.166-181. *)
Definition ev_dump_ops (it lt : idty) (e : evec) (p : string) : list fsop :=
  dump_ops (f_offsets p) (usize_bytes (ev_offsets e)) ++
  dump_ops (f_edges p) (typed_bytes it (ev_edges e)) ++
  match ev_labels e with [] => [] | ls => dump_ops (f_labels p) (typed_bytes lt ls) end.
(** EdgeVecMmap::new, edge_vec_mmap.rs l.35-53. The maps are represented by the arrays they
    show; EdgeVecMmap uses the provided methods of EdgeVecTrait, as EdgeVec does. *)
Definition ev_open (it lt : idty) (F : fs) (p : string) : res evec :=
  let* offs := typed_map TUsize F (f_offsets p) in
  let* edges := typed_map it F (f_edges p) in
  if fs_exists F (f_labels p)
  then let* ls := typed_map lt F (f_labels p) in Ok (EV (N.to_nat <$> offs) edges (Some ls))
  else Ok (EV (N.to_nat <$> offs) edges None).

Section graph.
  Context {NL EL : Type} `{EqDecision NL, EqDecision EL} (it lt : idty) (cn : codec NL) (ce : codec EL).
  Notation graph := (sgraph NL EL).
  (** TypedStaticGraph::dump_mmap, graph.rs l.424-452. *)
  Definition sg_dump_ops (g : graph) (p : string) : list fsop :=
    ev_dump_ops it lt (sg_evec g) (p_out p) ++
    match sg_in g with Some e => ev_dump_ops it lt e (p_in p) | None => [] end ++
    match sg_labels g with Some ls => dump_ops (f_labels p) (typed_bytes lt ls) | None => [] end ++
    export_ops (f_aux p) (enc (c_aux cn ce) (sg_num_nodes g, (sg_num_edges g, (sg_nlm g, sg_elm g)))).
  Definition sg_dump_mmap (g : graph) (p : string) (F : fs) : fs := fs_run F (sg_dump_ops g p).
  (** StaticGraphMmap::new, graph_mmap.rs l.91-134. StaticGraphMmap (l.39-51) has the fields
      of TypedStaticGraph. *)
  Definition mm_open (F : fs) (p : string) : res graph :=
    let* edges := ev_open it lt F (p_out p) in
    let* in_edges := (if fs_exists F (f_offsets (p_in p))
                      then let* e := ev_open it lt F (p_in p) in Ok (Some e) else Ok None) in
    let* labels := (if fs_exists F (f_labels p)
                    then let* l := typed_map lt F (f_labels p) in Ok (Some l) else Ok None) in
    let* aux := (if fs_exists F (f_aux p)
                 then unwrap (import (c_aux cn ce) (f_aux p) F)
                 else let* num_node := ev_num_nodes edges in
                      let num_edge := match in_edges with Some _ => ev_num_edges edges | None => ev_num_edges edges / 2 end in
                      Ok (num_node, (num_edge, ([], [])))) in
    Ok (SGraph aux.1 aux.2.1 edges in_edges labels aux.2.2.1 aux.2.2.2).

  Implicit Types m : graph.
  (** is_directed, l.208. *)
  Definition mm_directed m : bool := match sg_in m with Some _ => true | None => false end.
  (** has_edge, l.189-195. *)
  Definition mm_has_edge m (s t : N) : res bool :=
    let* nb := ev_neighbors (sg_evec m) s in
    let* pos := bsearch nb t in
    Ok (match pos with inl _ => true | inr _ => false end).
  (** get_edge, l.171-181. *)
  Definition mm_get_edge m (s t : N) : res (option (N * N * option N)) :=
    let* b := mm_has_edge m s t in
    if negb b then Ok None else
    let* l := ev_find_edge_label_id (sg_evec m) s t in
    Ok (Some (s, t, match l with Some l => static_label lt l | None => None end)).
  (** degree, l.257. *)
  Definition mm_degree m (n : N) : res nat := rmap length (ev_neighbors (sg_evec m) n).
  (** inner_in_neighbors, l.144-150. *)
  Definition mm_in_neighbors m (n : N) : res (list N) :=
    match sg_in m with Some e => ev_neighbors e n | None => Ok [] end.
  (** The observations. get_node l.157-168, has_node l.184, node_indices l.214, edge_indices
      l.219-224, nodes l.227-239, edges l.242-254, max_seen_id l.272 and the label maps l.286-293
      are the same code as in TypedStaticGraph. in_degree and in_neighbors l.300-312, as_digraph
      l.334-340. *)
  Definition mm_view m : gview NL EL := {|
    v_directed := mm_directed m;
    v_is_di := mm_directed m;
    v_node_count := sg_num_nodes m;
    v_edge_count := sg_num_edges m;
    v_has_node := sg_has_node m;
    v_has_edge := mm_has_edge m;
    v_get_node := sg_get_node lt m;
    v_get_edge := mm_get_edge m;
    v_node_indices := sg_node_indices it m;
    v_edge_indices := sg_edge_indices it (mm_directed m) m;
    v_nodes := Ok (sg_nodes it lt m);
    v_edges := sg_edges it lt (mm_directed m) m;
    v_degree := mm_degree m;
    v_neighbors := ev_neighbors (sg_evec m);
    v_in_degree := λ n, rmap length (mm_in_neighbors m n);
    v_in_neighbors := mm_in_neighbors m;
    v_max_seen_id := sg_max_seen_id it m;
    v_node_label_map := sg_nlm m;
    v_edge_label_map := sg_elm m;
  |}.
End graph.
