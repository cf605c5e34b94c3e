(** Model of src/io/serde.rs and of the derived (de)serialisers of SetMap, VecMap, GraphMap
    and StaticGraph, in the bincode 1.0 format. [cn] and [ce] (de)serialise the labels. *)
From stdpp Require Import gmap strings.
From Verif Require Import Base Bytes Map GraphMap Static.

(** Serializer::export, serde.rs l.53-64: File::create, then serialize_into through a
    BufWriter. *)
Definition export_ops (path : string) (b : list N) : list fsop := [FCreate path; FWrite path b].
Definition export (path : string) (b : list N) (F : fs) : fs := fs_run F (export_ops path b).
(** Deserializer::import, l.66-77: File::open, then deserialize_from; what follows the value
    is ignored. None is Err. *)
Definition import {A} (c : codec A) (path : string) (F : fs) : option A :=
  b ← F !! path; fst <$> dec c b.

(** SetMap, set_map.rs l.32-35: the IndexSet is a sequence in index order; reading inserts
    one item after the other. *)
Definition c_setmap {L} `{EqDecision L} (c : codec L) : codec (list L) := c_iso id sm_from_vec (c_list c).
(** VecMap, vec_map.rs l.31-34. *)
Definition c_vecmap {L} (c : codec L) : codec (list L) := c_list c.

(** Reading a map or a set inserts the entries one after the other. *)
Definition map_of {V} (l : list (N * V)) : gmap N V := foldl (λ m p, <[p.1 := p.2]> m) ∅ l.
Definition set_of (l : list N) : gset N := foldl (λ s x, {[x]} ∪ s) ∅ l.
(** BTreeMap and BTreeSet, written in key order. *)
Definition c_btmap {V} (it : idty) (c : codec V) : codec (gmap N V) :=
  c_iso bt_iter map_of (c_list (c_pair (c_id it) c)).
Definition c_btset (it : idty) : codec (gset N) := c_iso bs_iter set_of (c_list (c_id it)).

(** Structures: the fields in the order of their declaration. *)
Section graph.
  Context {NL EL : Type} `{EqDecision NL, EqDecision EL} (it lt : idty) (cn : codec NL) (ce : codec EL).
  (** NodeMap, graph_map/node.rs l.26-32. *)
  Definition c_nodemap : codec nodemap :=
    c_iso (λ n, (nm_id n, (nm_label n, (nm_nbrs n, nm_in n))))
      (λ '(i, (l, (m, s))), NodeMap i l m s)
      (c_pair (c_id it) (c_pair (c_option (c_id lt)) (c_pair (c_btmap it (c_option (c_id lt))) (c_btset it)))).
  (** The node table, an FnvHashMap: written in its iteration order [ord]. *)
  Definition table_entries (ord : list N) (m : gmap N nodemap) : list (N * nodemap) :=
    omap (λ n, (λ v, (n, v)) <$> m !! n) ord.
  Definition c_table (ord : list N) : codec (gmap N nodemap) :=
    c_iso (table_entries ord) map_of (c_list (c_pair (c_id it) c_nodemap)).
  (** TypedGraphMap, graph_map/graph.rs l.73-87; PhantomData takes no bytes. *)
  Definition c_graphmap (ord : list N) : codec (graphmap NL EL) :=
    c_iso (λ g, (g_nodes g, (g_nedges g, (g_nlm g, (g_elm g, g_max g)))))
      (λ '(m, (k, (nl, (el, mx)))), GraphMap m k nl el mx)
      (c_pair (c_table ord) (c_pair c_usize (c_pair (c_setmap cn) (c_pair (c_setmap ce) (c_option (c_id it)))))).
  (** EdgeVec, static_graph/edge_vec.rs l.34-39. *)
  Definition c_evec : codec evec :=
    c_iso (λ e, (ev_offsets e, (ev_edges e, ev_label_vec e))) (λ '(o, (e, l)), EV o e l)
      (c_pair (c_list c_usize) (c_pair (c_list (c_id it)) (c_option (c_list (c_id lt))))).
  (** TypedStaticGraph, static_graph/graph.rs l.51-66. *)
  Definition c_sgraph : codec (sgraph NL EL) :=
    c_iso (λ g, (sg_num_nodes g, (sg_num_edges g, (sg_evec g, (sg_in g, (sg_labels g, (sg_nlm g, sg_elm g)))))))
      (λ '(a, (k, (e, (i, (l, (nl, el)))))), SGraph a k e i l nl el)
      (c_pair c_usize (c_pair c_usize (c_pair c_evec (c_pair (c_option c_evec)
        (c_pair (c_option (c_list (c_id lt))) (c_pair (c_setmap cn) (c_setmap ce))))))).
  (** StaticGraphMmapAux, mmap/graph_mmap.rs l.53-59. *)
  Definition c_aux : codec (nat * (nat * (list NL * list EL))) :=
    c_pair c_usize (c_pair c_usize (c_pair (c_setmap cn) (c_setmap ce))).
End graph.
