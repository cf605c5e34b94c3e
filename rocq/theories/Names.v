(** GraphImpl::from_str, src/graph_impl/mod.rs l.41-53. Characters are bytes: to_lowercase is
    modelled for ASCII letters. For every other character the lower case is not an ASCII letter,
    except that of the Kelvin sign, which is k; no name contains a k. *)
From Coq Require Import Ascii.
From stdpp Require Import strings.
From Verif Require Import Base.

Inductive graph_impl := IGraphMap | IStaticGraph | IStaicGraphMmap.
Definition lower_char (c : ascii) : ascii :=
  let n := N_of_ascii c in if decide (65 ≤ n ≤ 90)%N then ascii_of_N (n + 32) else c.
Fixpoint to_lowercase (s : string) : string :=
  match s with EmptyString => EmptyString | String c s => String (lower_char c) (to_lowercase s) end.
Definition impl_from_str (s : string) : option graph_impl :=
  let s := to_lowercase s in
  if decide (s = "graphmap"%string) then Some IGraphMap
  else if decide (s = "staticgraph"%string) then Some IStaticGraph
  else if decide (s = "staticgraphmmap"%string) then Some IStaicGraphMmap
  else None.
