(** C121: all the calls on a ConnComp together take O(k log n) rounds, as its documentation says,
    where n is the number of nodes and k the number of roots looked up. [t_run h] makes the calls
    [h] and counts the rounds of the loop of get_root (ConnCost.v); [total asks h] is the number of
    get_root calls in [h], [total is_edge h] the number of process_new_edge calls (SpecConnCost.v). *)
From Verif Require Import Base Api Spec SpecConn ConnComp ConnCost SpecConnCost ConnCostProps ConnCostWit ConnCompProps.

(** [cc_rounds] is the number of rounds: with one more the loop ends, with fewer it does not. *)
Theorem C121_counts c n o c' : cc_get_root n c = Ok (o, c') →
  root_loop (S (cc_rounds n c)) (cc_parent c) n = Ok (o, cc_parent c') ∧
  root_loop (cc_rounds n c) (cc_parent c) n = NoFuel.
Proof. exact (counts_lemma c n o c'). Qed.
Print Assumptions C121_counts.
Example C121_counts_case : ∃ c, cc_run [CEdge 1 2; CEdge 2 3; CEdge 3 4]%N cc_empty = Ok c ∧ cc_rounds 1 c = 2 ∧
  ∃ c', cc_get_root 1 c = Ok (Some 4%N, c').
Proof. eexists. split; [vm_compute; reflexivity|]. split; [vm_compute; reflexivity|]. eexists. vm_compute. reflexivity. Qed.

(** Any calls in any order, on the nodes [ids]. *)
Theorem C121_total ids h c : among ids h → cc_run h cc_empty = Ok c →
  ∃ t, t_run h (cc_empty, 0) = Ok (c, t) ∧
    t ≤ total asks h * (Nat.log2 (length ids) + 1) + total is_edge h * Nat.log2 (length ids).
Proof. exact (total_lemma ids h c). Qed.
Print Assumptions C121_total.
Example C121_total_case : among cost_ids cost_wit ∧ total asks cost_wit = 32 ∧ total is_edge cost_wit = 9 ∧
  Nat.log2 (length cost_ids) = 3 ∧ ∃ c, cc_run cost_wit cc_empty = Ok c ∧ t_run cost_wit (cc_empty, 0) = Ok (c, 15).
Proof.
  split; [intros x y H; unfold cost_wit in H; unfold cost_ids; set_solver|].
  split_and!; [vm_compute; reflexivity..|]. eexists. split; vm_compute; reflexivity.
Qed.

(** ConnComp::new on any graph behind the traits. *)
Theorem C121_new {NL EL} (V : gview NL EL) (A : agraph NL EL) : represents V A → iterates V →
  ∃ es c t, v_edges V = Ok es ∧ cc_new V = Ok c ∧ t_run (edge_calls es) (cc_empty, 0) = Ok (c, t) ∧
    t ≤ a_num_edges A * (3 * Nat.log2 (a_num_nodes A) + 2).
Proof. exact (new_lemma V A). Qed.
Print Assumptions C121_new.
Example C121_new_case : ∃ (V : gview N N) A, represents V A ∧ iterates V ∧
  (∃ c, cc_new V = Ok c ∧ cc_get_count c = 1) ∧ a_num_nodes A = 5.
Proof. exact cc_wit_graph. Qed.

(** A single call may take n/2 rounds: only the sum is small. *)
Theorem C121_one_call k : ∃ c, cc_run (chain_calls (S k)) cc_empty = Ok c ∧ cc_rounds 0 c = Nat.div2 (S (S k)).
Proof. exact (linear_lemma k). Qed.
Print Assumptions C121_one_call.
Example C121_one_call_case : chain_calls 3 = [CEdge 0 1; CEdge 1 2; CEdge 2 3]%N.
Proof. reflexivity. Qed.
