(** Vocabulary for the order of rows and files. *)
From stdpp Require Import gmap strings.
From Verif Require Import Base Api Spec Map GraphMap Csv.

Section order.
  Context {NL EL : Type} `{EqDecision NL, EqDecision EL} (dir : bool) (it lt : idty) (tn : text NL) (te : text EL).
  (** One read call after the other into the same graph; None if one of them fails. *)
  Fixpoint read_all (Rs : list reader) (F : csvfs) (g : graphmap NL EL) : res (option (graphmap NL EL)) :=
    match Rs with
    | [] => Ok (Some g)
    | R :: Rs => let* '(g, ok) := csv_read dir it lt tn te R F g in if (ok : bool) then read_all Rs F g else Ok None
    end.
  (** All records that the iterators of the readers yield. *)
  Definition all_records (Rs : list reader) (F : csvfs) : option (list (N * option NL) * list (N * N * option EL)) :=
    ns ← mapM (λ R, csv_node_iter it tn R F) Rs;
    es ← mapM (λ R, csv_edge_iter it te R F) Rs;
    Some (mjoin ns, mjoin es).
  (** Records of the same node, or of the same edge, give the same label. *)
  Definition consistent (ns : list (N * option NL)) (es : list (N * N * option EL)) : Prop :=
    (∀ n l l', (n, l) ∈ ns → (n, l') ∈ ns → l = l') ∧
    (∀ x y l x' y' l', (x, y, l) ∈ es → (x', y', l') ∈ es → ekey dir x y = ekey dir x' y' → l = l').
End order.
(** The same file, or the same header with the same rows in another order. *)
Definition rows_moved (headers : bool) (F F' : csvfs) (p : string) : Prop :=
  F' !! p = F !! p ∨
  ∃ h t t', F !! p = Some (h ++ t) ∧ F' !! p = Some (h ++ t') ∧ t' ≡ₚ t ∧ length h = if headers then 1 else 0.
