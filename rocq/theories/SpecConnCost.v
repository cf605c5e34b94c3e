(** How many calls of get_root the calls on a ConnComp make, and which nodes they name. *)
From Verif Require Import Base SpecConn.
Definition asks (o : ccop) : nat :=
  match o with CEdge _ _ | CConnected _ _ => 2 | CRoot _ => 1 | CNodes keys _ => S (length keys) | CReset => 0 end.
Definition is_edge (o : ccop) : nat := match o with CEdge _ _ => 1 | _ => 0 end.
Definition total (f : ccop → nat) (h : list ccop) : nat := sum_list (f <$> h).
(** All edges are between the nodes [ids]. *)
Definition among (ids : list N) (h : list ccop) : Prop := ∀ x y, CEdge x y ∈ h → x ∈ ids ∧ y ∈ ids.
(** The calls ConnComp::new makes for the edges [es]. *)
Definition edge_calls (es : list (N * N * option N)) : list ccop := (λ e, CEdge e.1.1 e.1.2) <$> es.
(** The edges (0, 1), (1, 2), ..., (k - 1, k). *)
Definition chain_calls (k : nat) : list ccop := (λ i, CEdge (N.of_nat i) (N.of_nat i + 1)) <$> seq 0 k.
