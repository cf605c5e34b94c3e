(** Model of dump_mmap and StaticGraphMmap::new on any machine: src/io/mmap.rs l.35-123 copies the
    memory of its arrays, so the files depend on the byte order of the machine and on the size of
    usize; Mmap.v is the case of x86-64 (C112_x86_64). The auxiliary file is written by bincode,
    which uses little endian and 64 bits on every machine. *)
From stdpp Require Import gmap strings.
From Verif Require Import Base Api Bytes Map GraphMap Static Serde Mmap.

(** Byte order and bytes of a usize. *)
Record machine := Machine { m_big : bool; m_usize : nat }.
Definition x86_64 : machine := Machine false 8.
(** mem::size_of of the id types. *)
Definition size_on (M : machine) (t : idty) : nat := match t with TUsize => m_usize M | _ => id_size t end.
(** A number of [k] bytes in memory. *)
Definition word_bytes (M : machine) (k : nat) (x : N) : list N := if m_big M then reverse (le_bytes k x) else le_bytes k x.
Definition word_value (M : machine) (b : list N) : N := le_value (if m_big M then reverse b else b).

(** typed_as_byte_slice, mmap.rs l.98-106. *)
Definition bytes_on (M : machine) (t : idty) (l : list N) : list N := l ≫= word_bytes M (size_on M t).
(** slice::from_raw_parts. *)
Fixpoint items_on (M : machine) (k count : nat) (b : list N) : list N :=
  match count with O => [] | S c => word_value M (take k b) :: items_on M k c (drop k b) end.
(** TypedMemoryMap::new and indexing by .., l.44-54 and 68-74. *)
Definition map_on (M : machine) (t : idty) (F : fs) (f : string) : res (list N) :=
  let* b := unwrap (F !! f) in
  if decide (b = []) then Panic else
  if decide (size_on M t = 0) then Panic else
  Ok (items_on M (size_on M t) (length b / size_on M t) b).

(** EdgeVec::dump_mmap, edge_vec.rs l.166-181. *)
Definition ev_dump_on (M : machine) (it lt : idty) (e : evec) (p : string) : list fsop :=
  dump_ops (f_offsets p) (bytes_on M TUsize (N.of_nat <$> ev_offsets e)) ++
  dump_ops (f_edges p) (bytes_on M it (ev_edges e)) ++
  match ev_labels e with [] => [] | ls => dump_ops (f_labels p) (bytes_on M lt ls) end.
(** EdgeVecMmap::new, edge_vec_mmap.rs l.35-53. *)
Definition ev_open_on (M : machine) (it lt : idty) (F : fs) (p : string) : res evec :=
  let* offs := map_on M TUsize F (f_offsets p) in
  let* edges := map_on M it F (f_edges p) in
  if fs_exists F (f_labels p)
  then let* ls := map_on M lt F (f_labels p) in Ok (EV (N.to_nat <$> offs) edges (Some ls))
  else Ok (EV (N.to_nat <$> offs) edges None).
Section graph.
  Context {NL EL : Type} `{EqDecision NL, EqDecision EL} (M : machine) (it lt : idty) (cn : codec NL) (ce : codec EL).
  (** TypedStaticGraph::dump_mmap, graph.rs l.424-452. *)
  Definition sg_dump_on (g : sgraph NL EL) (p : string) (F : fs) : fs :=
    fs_run F (ev_dump_on M it lt (sg_evec g) (p_out p) ++
      match sg_in g with Some e => ev_dump_on M it lt e (p_in p) | None => [] end ++
      match sg_labels g with Some ls => dump_ops (f_labels p) (bytes_on M lt ls) | None => [] end ++
      export_ops (f_aux p) (enc (c_aux cn ce) (sg_num_nodes g, (sg_num_edges g, (sg_nlm g, sg_elm g))))).
  (** A count that does not fit a usize is a decoding error (serde); this check is made for the
      two counts only. *)
  Definition aux_on (F : fs) (p : string) : option (nat * (nat * (list NL * list EL))) :=
    a ← import (c_aux cn ce) (f_aux p) F;
    if decide (N.of_nat a.1 < 256 ^ N.of_nat (m_usize M) ∧ N.of_nat a.2.1 < 256 ^ N.of_nat (m_usize M))%N then Some a else None.
  (** StaticGraphMmap::new, graph_mmap.rs l.91-134. *)
  Definition mm_open_on (F : fs) (p : string) : res (sgraph NL EL) :=
    let* edges := ev_open_on M it lt F (p_out p) in
    let* in_edges := (if fs_exists F (f_offsets (p_in p))
                      then let* e := ev_open_on M it lt F (p_in p) in Ok (Some e) else Ok None) in
    let* labels := (if fs_exists F (f_labels p)
                    then let* l := map_on M lt F (f_labels p) in Ok (Some l) else Ok None) in
    let* aux := (if fs_exists F (f_aux p)
                 then unwrap (aux_on F p)
                 else let* num_node := ev_num_nodes edges in
                      let num_edge := match in_edges with Some _ => ev_num_edges edges | None => ev_num_edges edges / 2 end in
                      Ok (num_node, (num_edge, ([], [])))) in
    Ok (SGraph aux.1 aux.2.1 edges in_edges labels aux.2.2.1 aux.2.2.2).
End graph.
