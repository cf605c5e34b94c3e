(** Shared by the files RepoTests*.v, which run the tests of /repo/tests on the model. *)
From Verif Require Import Base Api GraphMap Static Handles.

(** assert! and assert_eq! panic when their condition fails. *)
Definition check (b : bool) : res unit := if b then Ok tt else Panic.
(** A GraphMap and a StaticGraph behind their traits; the hash order of a node map is taken to be
    ascending. DefaultId is u32. *)
Definition view {NL EL} (dir : bool) (g : graphmap NL EL) : gview NL EL := gm_view dir (bt_keys (g_nodes g)) g.
Definition sview {NL EL} (dir : bool) (g : sgraph NL EL) : gview NL EL := sg_view TU32 TU32 dir g.
(** Counter::into_map of a counter, given by the items it counts. *)
Definition counter_map (items : list N) : gmap N nat :=
  foldr (λ x m, <[x := S (default 0 (m !! x))]> m) ∅ items.
(** The keys of such a counter, ascending: one of the orders most_common may find them in. *)
Definition label_values (items : list N) : list N := bt_keys (counter_map items).
#[export] Instance mut_node_type_eq_dec : EqDecision mut_node_type.
Proof. solve_decision. Defined.
#[export] Instance mut_edge_type_eq_dec : EqDecision mut_edge_type.
Proof. solve_decision. Defined.
