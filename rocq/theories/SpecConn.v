(** Specification of connectivity, on lists of undirected edges. *)
From Verif Require Import Base Api Spec.

(** The calls on a ConnComp; the HashMap may yield its keys in any order [keys]. *)
Inductive ccop :=
  | CEdge (x y : N)
  | CRoot (n : N)
  | CConnected (a b : N)
  | CNodes (keys : list N) (n : N)
  | CReset.


(** [n] is an end point of one of the edges. *)
Definition seen (es : list (N * N)) (n : N) : Prop := ∃ e, e ∈ es ∧ (n = e.1 ∨ n = e.2).
(** Both occur in the edges and are joined by a path, ignoring directions. *)
Definition joined (es : list (N * N)) (a b : N) : Prop :=
  seen es a ∧ seen es b ∧ rtsc (λ x y, (x, y) ∈ es) a b.
(** There are [k] components: [k] nodes, no two of them joined, such that every node
    seen is joined to one of them. *)
Definition components (es : list (N * N)) (k : nat) : Prop :=
  ∃ reps, length reps = k ∧ NoDup reps ∧
    (∀ r, r ∈ reps → seen es r) ∧
    (∀ r r', r ∈ reps → r' ∈ reps → joined es r r' → r = r') ∧
    (∀ n, seen es n → ∃ r, r ∈ reps ∧ joined es n r).

(** The edges processed since the last reset. *)
Fixpoint processed_from (es : list (N * N)) (h : list ccop) : list (N * N) :=
  match h with
  | [] => es
  | CEdge x y :: h => processed_from (es ++ [(x, y)]) h
  | CReset :: h => processed_from [] h
  | _ :: h => processed_from es h
  end.
Definition processed (h : list ccop) : list (N * N) := processed_from [] h.
(** Every get_root call is about a node seen before. *)
Fixpoint roots_seen_from (es : list (N * N)) (h : list ccop) : Prop :=
  match h with
  | [] => True
  | CEdge x y :: h => roots_seen_from (es ++ [(x, y)]) h
  | CReset :: h => roots_seen_from [] h
  | CRoot n :: h => seen es n ∧ roots_seen_from es h
  | CNodes keys n :: h => (∀ k, k ∈ keys → seen es k) ∧ roots_seen_from es h
  | _ :: h => roots_seen_from es h
  end.
