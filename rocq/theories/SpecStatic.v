(** Specification of compressed adjacency arrays (CSR). *)
From Verif Require Import Base Api Spec.

Section csr.
  Context (offs : list nat) (edges : list N).
  (** Number of nodes. *)
  Definition csr_nodes : N := N.of_nat (length offs - 1).
  (** The entries between the offset of [n] and the next one. *)
  Definition row {X} (entries : list X) (n : N) : list X :=
    match offs !! N.to_nat n, offs !! S (N.to_nat n) with
    | Some a, Some b => take (b - a) (drop a entries)
    | _, _ => []
    end.
  (** Monotone offsets into the edge array; every slice sorted and without repetition; every
      target a node. *)
  Record csr_wf : Prop := {
    csr_nonempty : offs ≠ [];
    csr_mono : ∀ i a b, offs !! i = Some a → offs !! S i = Some b → a ≤ b;
    csr_bound : ∀ i a, offs !! i = Some a → a ≤ length edges;
    csr_sorted : ∀ n, increasing (row edges n);
    csr_targets : ∀ n t, t ∈ row edges n → (t < csr_nodes)%N;
  }.
  (** The slices cover the edge array. *)
  Definition csr_tight : Prop := head offs = Some 0 ∧ last offs = Some (length edges).
End csr.

(** Lexicographic order on edges. *)
Definition lex_lt (p q : N * N) : Prop := (p.1 < q.1)%N ∨ (p.1 = q.1 ∧ (p.2 < q.2)%N).
