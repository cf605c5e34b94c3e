(** A history with merges, queries, a reset and a missing node. *)
From Verif Require Import Base Api Spec SpecConn ConnComp ConnCost SpecConnCost.
Definition cost_wit : list ccop :=
  [CEdge 1 2; CEdge 2 3; CEdge 3 4; CEdge 4 5; CEdge 5 6; CEdge 6 7; CEdge 7 8; CRoot 1; CConnected 2 9; CConnected 2 3;
   CNodes [8; 7; 6; 5; 4; 3; 2; 1] 1; CReset; CEdge 3 3; CEdge 1 3]%N.
Definition cost_ids : list N := [1; 2; 3; 4; 5; 6; 7; 8]%N.
