(** C93: the parent map of a ConnComp, through get_parent and parent(). [seen], [joined] and
    [processed] are in SpecConn.v. *)
From Verif Require Import Base Api Spec SpecConn ConnComp ConnHeld ConnHeldProps.

(** A parent is in the same component; every component has exactly one node that is its own
    parent, and that is what get_root finds; get_count counts these nodes. *)
Theorem C93_get_parent h c : cc_run h cc_empty = Ok c →
  (∀ n, match cc_get_parent n c with None => ¬ seen (processed h) n | Some p => joined (processed h) n p end) ∧
  (∀ n, seen (processed h) n → ∃ r, joined (processed h) n r ∧ cc_get_parent r c = Some r ∧
     (∀ r', joined (processed h) n r' → cc_get_parent r' c = Some r' → r' = r) ∧
     ∃ c', cc_get_root n c = Ok (Some r, c')) ∧
  (∀ l, lists_exactly l (λ n, cc_get_parent n c = Some n) → cc_get_count c = length l).
Proof.
  intros H. split; [exact (parent_thm h c H)|]. split; [|exact (count_roots h c H)]. intros n Hn.
  destruct (root_unique h c H n Hn) as (r & Hj & Hr & Hu). exists r. split; [exact Hj|]. split; [exact Hr|]. split; [exact Hu|].
  exact (get_root_is h c H n r Hn Hj Hr).
Qed.
Print Assumptions C93_get_parent.
(** While the result of parent() is kept, queries give the right answer or panic; they panic
    exactly when a node they look up is not its own parent. *)
Theorem C93_held_get_root h c n : cc_run h cc_empty = Ok c →
  (cc_get_parent n c = Some n → cc_get_root_held n c = Ok (Some n)) ∧
  (cc_get_parent n c ≠ Some n → cc_get_root_held n c = Panic).
Proof. intros H. rewrite (root_held h c H). destruct (decide _); by split. Qed.
Print Assumptions C93_held_get_root.
Theorem C93_held_is_connected h c a b : cc_run h cc_empty = Ok c →
  match cc_is_connected_held a b c with
  | Ok v => v = true ↔ joined (processed h) a b
  | Panic => seen (processed h) a ∧ seen (processed h) b ∧ (cc_get_parent a c ≠ Some a ∨ cc_get_parent b c ≠ Some b)
  | NoFuel => False
  end.
Proof. intros H. exact (connected_held h c H a b). Qed.
Print Assumptions C93_held_is_connected.
(** get_connected_nodes looks up all nodes: it can only succeed for single nodes. *)
Theorem C93_held_connected_nodes h c keys n : cc_run h cc_empty = Ok c →
  lists_exactly keys (λ k, is_Some (cc_get_parent k c)) →
  match cc_get_connected_nodes_held keys n c with
  | Ok None => ¬ seen (processed h) n
  | Ok (Some l) => l = [n] ∧ ∀ x, joined (processed h) n x ↔ x = n
  | Panic => seen (processed h) n ∧ ∃ k, seen (processed h) k ∧ cc_get_parent k c ≠ Some k
  | NoFuel => False
  end.
Proof. intros H. exact (nodes_held h c H keys n). Qed.
Print Assumptions C93_held_connected_nodes.
Example C93_case : ∃ c, cc_run [CEdge 1 2; CEdge 4 4]%N cc_empty = Ok c ∧
  cc_is_connected_held 2 4 c = Ok false ∧ cc_is_connected_held 1 2 c = Panic ∧ rmap fst (cc_is_connected 1 2 c) = Ok true ∧
  cc_get_connected_nodes_held [1; 2; 4]%N 4 c = Panic.
Proof. exact held_case. Qed.
