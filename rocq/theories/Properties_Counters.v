(** C115: the edge counter of a GraphMap as a machine word. [u_run W checks] (Counters.v) are the
    calls with a counter that holds the values below [W], in a build with or without overflow
    checks; [gm_run] lets it grow without bound. *)
From Verif Require Import Base BaseFacts Api Spec Map GraphMap SpecCounters Counters CountersProps.

(** ** C115. Fewer than [W] calls that may count an edge: the size of the word does not matter. *)
Theorem C115_enough {NL EL} `{EqDecision NL, EqDecision EL} (W : nat) (checks dir : bool) (lt : idty) (nls : list NL) (els : list EL) h :
  1 < W → NoDup nls → NoDup els → length (filter (λ o, counts o = true) h) < W →
  u_run W checks dir lt h (gm_with_label_map nls els) = gm_run dir lt h (gm_with_label_map nls els).
Proof. intros HW Hn He. exact (enough_thm W HW dir lt nls els Hn He checks h). Qed.
Print Assumptions C115_enough.
(** edge_count is at most the number of those calls. *)
Theorem C115_bound {NL EL} `{EqDecision NL, EqDecision EL} (dir : bool) (lt : idty) (nls : list NL) (els : list EL) h rs g it :
  NoDup nls → NoDup els → gm_run dir lt h (gm_with_label_map nls els) = Ok (rs, g) →
  v_edge_count (gm_view dir it g) ≤ length (filter (λ o, counts o = true) h).
Proof. exact (bound dir lt nls els h rs g). Qed.
Print Assumptions C115_bound.
(** Without checks, after any number of calls: edge_count is reduced modulo [W] and nothing else differs. *)
Theorem C115_release {NL EL} `{EqDecision NL, EqDecision EL} (W : nat) (dir : bool) (lt : idty) (nls : list NL) (els : list EL) h :
  1 < W → NoDup nls → NoDup els →
  match gm_run dir lt h (gm_with_label_map nls els) with
  | Ok (rs, g) => ∃ g', u_run W false dir lt h (gm_with_label_map nls els) = Ok (rs, g') ∧
      (∀ it, hash_order g' it ↔ hash_order g it) ∧
      ∀ it, gm_view dir it g' = with_edge_count (v_edge_count (gm_view dir it g) mod W) (gm_view dir it g)
  | r => u_run W false dir lt h (gm_with_label_map nls els) = r
  end.
Proof. intros HW Hn He. exact (release_view W HW dir lt nls els Hn He h). Qed.
Print Assumptions C115_release.
(** With checks: a panic exactly when the count would leave the word. *)
Theorem C115_checked {NL EL} `{EqDecision NL, EqDecision EL} (W : nat) (dir : bool) (lt : idty) (nls : list NL) (els : list EL) h :
  1 < W → NoDup nls → NoDup els →
  ((∀ h1 rs g it, h1 `prefix_of` h → gm_run dir lt h1 (gm_with_label_map nls els) = Ok (rs, g) → v_edge_count (gm_view dir it g) < W) →
    u_run W true dir lt h (gm_with_label_map nls els) = gm_run dir lt h (gm_with_label_map nls els)) ∧
  (∀ h1 rs g it, h1 `prefix_of` h → gm_run dir lt h1 (gm_with_label_map nls els) = Ok (rs, g) → W ≤ v_edge_count (gm_view dir it g) →
    u_run W true dir lt h (gm_with_label_map nls els) = Panic).
Proof. intros HW Hn He. exact (conj (checked_view W HW dir lt nls els Hn He h) (checked_panic W HW dir lt nls els Hn He h)). Qed.
Print Assumptions C115_checked.
(** It can happen with a single edge: add_edge counts an edge again each time it is given (C11). *)
Theorem C115_one_edge {NL EL} `{EqDecision NL, EqDecision EL} (W : nat) (dir : bool) (lt : idty) (nls : list NL) (els : list EL) x y :
  1 < W → NoDup nls → NoDup els →
  ∃ rs g, u_run W false dir lt (replicate W (OAddEdge x y None)) (gm_with_label_map nls els : graphmap NL EL) = Ok (rs, g) ∧
    (∀ it, v_edge_count (gm_view dir it g) = 0 ∧ v_has_edge (gm_view dir it g) x y = Ok true) ∧
    u_run W true dir lt (replicate W (OAddEdge x y None)) (gm_with_label_map nls els : graphmap NL EL) = Panic.
Proof. intros HW Hn He. exact (readd_wraps W HW dir lt nls els Hn He x y). Qed.
Print Assumptions C115_one_edge.
(** A word of four values: three edges fit; five do not, and removing brings the count back. *)
Example C115_case dir : let h k := [OAddEdge 1 2 None; OAddEdge 2 3 (Some 7); OAddEdge 1 2 None; OUpdateEdgeLabel 2 3 None; OAddEdge 3 4 None]%N ++ k in
  let count r := rmap (λ p : list (gout N N) * graphmap N N, g_nedges p.2) r in
  let init := gm_with_label_map [] [] in
  length (filter (λ o, counts o = true) (take 3 (h []))) < 4 ∧
  count (u_run 4 true dir TU8 (take 3 (h [])) init) = Ok 3 ∧ u_run 4 true dir TU8 (h []) init = Panic ∧
  count (gm_run dir TU8 (h []) init) = Ok 5 ∧ count (u_run 4 false dir TU8 (h []) init) = Ok 1 ∧
  count (u_run 4 false dir TU8 (h [ORemoveEdge 3 4; ORemoveNode 1]%N) init) = Ok 3 ∧
  count (gm_run dir TU8 (h [ORemoveEdge 3 4; ORemoveNode 1]%N) init) = Ok 3.
Proof. destruct dir; cbv zeta; split_and!; vm_compute; try lia; reflexivity. Qed.
