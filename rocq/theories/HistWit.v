(** Histories for the concrete cases of C88 and C89. *)
From Verif Require Import Base Api.

Definition hi_0 : list (gop N N) := [OAddEdge 1 2 (Some 5); OAddEdge 2 3 None]%N.
Definition hi_1 : list (gop N N) := [OAddNode 3 (Some 7); OAddEdge 3 4 (Some 6); ORemoveNode 4]%N.
Definition hi_2 : list (gop N N) := [ORemoveEdge 1 2; OUpdateNodeLabel 1 (Some 8); OAddEdge 5 1 (Some 6); OAddEdge 5 1 None; ORemoveNode 2]%N.
Definition hi_3 : list (gop N N) := [OAddEdge 2 6 (Some 9); OAddNode 6 (Some 7); OAddEdge 6 7 None; OAddEdge 2 6 (Some 9)]%N.
