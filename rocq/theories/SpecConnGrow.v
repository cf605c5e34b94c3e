(** Specification for ConnComps that are kept while edges come and go. *)
From Verif Require Import Base Api Spec SpecConn ConnComp.

(** An edge between [x] and [y] occurs, in either direction. *)
Definition linked (es : list (N * N)) (x y : N) : Prop := (x, y) ∈ es ∨ (y, x) ∈ es.
(** The same edges, in any order and number, each in either direction. *)
Definition same_links (es es' : list (N * N)) : Prop := ∀ x y, linked es x y ↔ linked es' x y.

(** is_connected(a, b) returns true. *)
Definition connected (c : ccomp) (a b : N) : Prop := ∃ c', cc_is_connected a b c = Ok (true, c').
(** The node has occurred in an edge: get_parent knows it. *)
Definition known (c : ccomp) (n : N) : Prop := is_Some (cc_get_parent n c).
(** Two ConnComps answer alike: get_count, is_connected, get_connected_nodes (a set: its order
    is that of a HashMap's keys) and for which nodes there is a parent. *)
Record cc_alike (c c' : ccomp) : Prop := {
  ca_count : cc_get_count c = cc_get_count c';
  ca_connected : ∀ a b, ∃ v d d', cc_is_connected a b c = Ok (v, d) ∧ cc_is_connected a b c' = Ok (v, d');
  ca_known : ∀ n, known c n ↔ known c' n;
  ca_nodes : ∀ keys keys' n, lists_exactly keys (known c) → lists_exactly keys' (known c') →
    match cc_get_connected_nodes keys n c, cc_get_connected_nodes keys' n c' with
    | Ok (None, _), Ok (None, _) => ¬ known c n
    | Ok (Some l, _), Ok (Some l', _) => l ≡ₚ l'
    | _, _ => False
    end;
}.

(** What a user does to keep a ConnComp up to date: process_new_edge for every add_edge. *)
Definition edges_added {NL EL} (h : list (gop NL EL)) : list (N * N) :=
  omap (λ o, match o with OAddEdge x y _ => Some (x, y) | _ => None end) h.
Definition removes {NL EL} (o : gop NL EL) : bool := match o with ORemoveNode _ | ORemoveEdge _ _ => true | _ => false end.
Definition adds_edge {NL EL} (o : gop NL EL) : bool := match o with OAddEdge _ _ _ => true | _ => false end.
(** One of the graphs has the edge. *)
Definition any_edge {NL EL} (As : list (agraph NL EL)) (x y : N) : Prop := ∃ A, A ∈ As ∧ a_has_edge A x y.
