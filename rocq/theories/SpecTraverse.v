(** Specification of graph traversals, on abstract graphs. *)
From Verif Require Import Base Api Spec.

Section spec.
  Context {NL EL : Type} (A : agraph NL EL).

  Definition reaches : N → N → Prop := rtc (a_has_edge A).
  (** [k] is the length of a shortest path from [r] to [x]. *)
  Definition distance (r x : N) (k : nat) : Prop :=
    nsteps (a_has_edge A) k r x ∧ ∀ j, nsteps (a_has_edge A) j r x → k ≤ j.

  (** [b] lists, starting with [r], the nodes reachable from [r] that are not in
      [pre], each once, in an order satisfying [ord pre b]. *)
  Definition block (ord : N → list N → Prop) (pre : list N) (r : N) (b : list N) : Prop :=
    head b = Some r ∧ NoDup b ∧ (∀ x, x ∈ b ↔ reaches r x ∧ x ∉ pre) ∧ ord r b.

  (** [r] is the smallest node not in [pre]. *)
  Definition smallest_left (pre : list N) (r : N) : Prop :=
    a_has_node A r ∧ r ∉ pre ∧ ∀ n, a_has_node A n → n ∉ pre → (r ≤ n)%N.

  (** [l] continues [pre] block by block, each block starting at the smallest node
      left, until no node is left. *)
  Inductive blocks (ord : list N → N → list N → Prop) : list N → list N → Prop :=
    | blocks_nil pre : (∀ n, a_has_node A n → n ∈ pre) → blocks ord pre []
    | blocks_cons pre r b l : smallest_left pre r → block (ord pre) pre r b →
        blocks ord (pre ++ b) l → blocks ord pre (b ++ l).

  (** The whole traversal: first the block of the start node. *)
  Definition traversal (ord : list N → N → list N → Prop) (start : N) (l : list N) : Prop :=
    ∃ b l', l = b ++ l' ∧ block (ord []) [] start b ∧ blocks ord b l'.

  (** Breadth first: non-decreasing distance from the first node. *)
  Definition by_distance (_ : list N) (r : N) (b : list N) : Prop :=
    ∃ ks, Forall2 (distance r) b ks ∧ StronglySorted le ks.

  (** Depth first: every node but the first is a neighbour of the most recently
      visited node that still has an unvisited neighbour. *)
  Definition depth_first (pre : list N) (r : N) (b : list N) : Prop :=
    ∀ i x, b !! S i = Some x →
      ∃ j p, j ≤ i ∧ b !! j = Some p ∧ a_has_edge A p x ∧
        ∀ k p', j < k ≤ i → b !! k = Some p' → ∀ y, a_has_edge A p' y → y ∈ pre ++ take (S i) b.

  (** [x] is discovered by position [j]: its first neighbour in [b] is at [j]. *)
  Definition discovered_at (b : list N) (x : N) (j : nat) : Prop :=
    (∃ p, b !! j = Some p ∧ a_has_edge A p x) ∧
    ∀ k p, k < j → b !! k = Some p → ¬ a_has_edge A p x.
  (** Every node but the first is, among the nodes discovered but not visited, the one
      that was discovered last; of those discovered together the largest. *)
  Definition latest_discovered (pre : list N) (r : N) (b : list N) : Prop :=
    ∀ i x, b !! S i = Some x →
      ∃ j, j ≤ i ∧ discovered_at b x j ∧
        ∀ y k, y ∉ pre ++ take (S i) b → k ≤ i → discovered_at b y k →
          k < j ∨ (k = j ∧ (y ≤ x)%N).
  (** The same with first instead of last: the first discovered, of those discovered
      together the smallest. *)
  Definition earliest_discovered (pre : list N) (r : N) (b : list N) : Prop :=
    ∀ i x, b !! S i = Some x →
      ∃ j, j ≤ i ∧ discovered_at b x j ∧
        ∀ y k, y ∉ pre ++ take (S i) b → k ≤ i → discovered_at b y k →
          j < k ∨ (k = j ∧ (x ≤ y)%N).

  (** The first node: the given one, which must exist, or the first of node_indices(). *)
  Definition starts (V : gview NL EL) (start : option N) (s : N) : Prop :=
    match start with
    | Some s' => s = s' ∧ a_has_node A s
    | None => head (v_node_indices V) = Some s
    end.
End spec.
