(** Model of an opened StaticGraphMmap over time. A TypedMemoryMap (src/io/mmap.rs l.35-54) holds
    a shared, read-only mapping of its file (memmap::Mmap::map) and the number of items that the
    file had when it was opened: what it shows follows the file. File::create, used by dump_mmap
    (static_graph/edge_vec.rs l.166-181, graph.rs l.424-452), truncates the file in place.

    A mapped byte beyond the end of the file reads as zero up to the end of the last page of the
    file; touching a byte behind that page ends the process (SIGBUS), shown as Panic. [page] is
    the size of a page. A graph is seen at one moment: all of its arrays are read from the same
    file system; if a part of an array is out of reach the whole is shown as Panic. *)
From stdpp Require Import gmap strings.
From Verif Require Import Base Api Bytes Map GraphMap Static Serde Mmap.

(** Bytes covered by the pages of a file of [n] bytes. *)
Definition page_span (page n : nat) : nat := (n + (page - 1)) / page * page.

(** TypedMemoryMap, mmap.rs l.35-41: the mapped file, the type of its items and the length of the
    map in bytes. *)
Record lmap := LMap { lm_file : string; lm_type : idty; lm_size : nat }.
(** TypedMemoryMap::new, l.44-54; panics as in [tm_new]. *)
Definition lm_open (t : idty) (F : fs) (f : string) : res lmap :=
  let* m := tm_new t F f in Ok (LMap f t (length (tm_map m))).
(** Index by .., l.68-74, with the file system at the time of the access. *)
Definition lm_now (page : nat) (F : fs) (m : lmap) : res (list N) :=
  let b := default [] (F !! lm_file m) in
  if decide (lm_size m ≤ page_span page (length b))
  then Ok (raw_items (id_size (lm_type m)) (lm_size m / id_size (lm_type m))
             (take (lm_size m) b ++ replicate (lm_size m - length b) 0%N))
  else Panic.

(** EdgeVecMmap, edge_vec_mmap.rs l.28-32. *)
Record lev := LEV { lv_offsets : lmap; lv_edges : lmap; lv_labels : option lmap }.
(** EdgeVecMmap::new, l.35-53. *)
Definition lv_open (it lt : idty) (F : fs) (p : string) : res lev :=
  if fs_exists F (f_labels p)
  then let* offs := lm_open TUsize F (f_offsets p) in
       let* edges := lm_open it F (f_edges p) in
       let* ls := lm_open lt F (f_labels p) in Ok (LEV offs edges (Some ls))
  else let* offs := lm_open TUsize F (f_offsets p) in
       let* edges := lm_open it F (f_edges p) in Ok (LEV offs edges None).
(** The slices get_offsets, get_edges and get_labels, l.56-74, at a later time. *)
Definition lv_now (page : nat) (F : fs) (e : lev) : res evec :=
  let* offs := lm_now page F (lv_offsets e) in
  let* edges := lm_now page F (lv_edges e) in
  match lv_labels e with
  | Some m => let* ls := lm_now page F m in Ok (EV (N.to_nat <$> offs) edges (Some ls))
  | None => Ok (EV (N.to_nat <$> offs) edges None)
  end.

(** StaticGraphMmap, graph_mmap.rs l.39-51. The counts and the label maps are in memory. *)
Record lgraph (NL EL : Type) := LGraph {
  lg_num_nodes : nat; lg_num_edges : nat; lg_evec : lev; lg_in : option lev; lg_labels : option lmap;
  lg_nlm : list NL; lg_elm : list EL }.
Arguments LGraph {_ _}. Arguments lg_num_nodes {_ _}. Arguments lg_num_edges {_ _}. Arguments lg_evec {_ _}.
Arguments lg_in {_ _}. Arguments lg_labels {_ _}. Arguments lg_nlm {_ _}. Arguments lg_elm {_ _}.

Section graph.
  Context {NL EL : Type} `{EqDecision NL, EqDecision EL} (it lt : idty) (cn : codec NL) (ce : codec EL) (page : nat).
  (** StaticGraphMmap::new, graph_mmap.rs l.91-134. Without the auxiliary file num_nodes and
      num_edges (edge_vec.rs l.47-54) use the lengths of the maps. *)
  Definition lg_open (F : fs) (p : string) : res (lgraph NL EL) :=
    let* edges := lv_open it lt F (p_out p) in
    let* in_edges := (if fs_exists F (f_offsets (p_in p))
                      then let* e := lv_open it lt F (p_in p) in Ok (Some e) else Ok None) in
    let* labels := (if fs_exists F (f_labels p)
                    then let* l := lm_open lt F (f_labels p) in Ok (Some l) else Ok None) in
    let* aux := (if fs_exists F (f_aux p)
                 then unwrap (import (c_aux cn ce) (f_aux p) F)
                 else let num_edge := lm_size (lv_edges edges) / id_size it in
                      let* num_node := usub (lm_size (lv_offsets edges) / id_size TUsize) 1 in
                      Ok (num_node, (match in_edges with Some _ => num_edge | None => num_edge / 2 end, ([], [])))) in
    Ok (LGraph aux.1 aux.2.1 edges in_edges labels aux.2.2.1 aux.2.2.2).
  (** What the graph consists of at a later time; its queries are [mm_view] of that. *)
  Definition lg_now (F : fs) (h : lgraph NL EL) : res (sgraph NL EL) :=
    let* edges := lv_now page F (lg_evec h) in
    let* in_edges := (match lg_in h with Some e => let* e := lv_now page F e in Ok (Some e) | None => Ok None end) in
    let* labels := (match lg_labels h with Some m => let* l := lm_now page F m in Ok (Some l) | None => Ok None end) in
    Ok (SGraph (lg_num_nodes h) (lg_num_edges h) edges in_edges labels (lg_nlm h) (lg_elm h)).
End graph.
