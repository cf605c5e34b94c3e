(** Joining several graphs one after the other. *)
From Verif Require Import Base Api Spec Map GraphMap GraphOps.

(** Start with an empty graph and add the graphs of [gs] by graph_union; the hash tables of each graph are
    iterated in the order [ord]. *)
Definition join_all {NL EL} `{EqDecision NL, EqDecision EL} (lt : idty) (dir : bool) (ord : graphmap NL EL → list N)
    (gs : list (graphmap NL EL)) : res (graphmap NL EL) :=
  rfold (λ g p, graph_union lt (gm_view dir (ord g) g) (gm_view dir (ord p) p)) gs gm_new.
