(** C33, the constructors of static graphs. [sg_new], [sg_with_labels], [sg_from_raw]: Static.v. Vocabulary: SpecCons.v (arrays_describe, shows, edge_number), SpecStatic.v (csr_nodes), Spec.v (represents). *)
From Verif Require Import Base Api Spec SpecStatic Static SpecSGraph SpecCons StaticCons.

(** The graph built from arrays that describe [A] is [A], with the label maps handed over. A number of nodes, if given, must be right; a number of edges, if given, is what is reported. *)
Theorem C33_new {NL EL} it lt e in_e (A : agraph NL EL) nn ne : arrays_describe lt e in_e None [] [] A → (csr_nodes (ev_offsets e) < id_card it)%N →
  (∀ n, nn = Some n → N.of_nat n = csr_nodes (ev_offsets e)) →
  ∃ g, sg_new (ag_dir A) e in_e nn ne = Ok g ∧ shows (sg_view it lt (ag_dir A) g) A [] [] (edge_number (ag_dir A) e ne).
Proof. exact (new_ok it lt e in_e A nn ne). Qed.
Print Assumptions C33_new.
Example C33_new_case dir : ∃ e in_e (A : agraph N N), arrays_describe TU8 e in_e None [] [] A ∧ (csr_nodes (ev_offsets e) < id_card TU8)%N ∧
  ag_dir A = dir ∧ a_num_nodes A = 3 ∧ a_num_edges A = 3.
Proof. exact (cons_plain_case dir). Qed.
Theorem C33_with_labels {NL EL} it lt e in_e (A : agraph NL EL) ls nlm elm nn ne : arrays_describe lt e in_e (Some ls) nlm elm A → (csr_nodes (ev_offsets e) < id_card it)%N →
  (∀ n, nn = Some n → N.of_nat n = csr_nodes (ev_offsets e)) →
  ∃ g, sg_with_labels (ag_dir A) e in_e ls nlm elm nn ne = Ok g ∧ shows (sg_view it lt (ag_dir A) g) A nlm elm (edge_number (ag_dir A) e ne).
Proof. exact (with_labels_ok it lt e in_e A ls nlm elm nn ne). Qed.
Print Assumptions C33_with_labels.
Theorem C33_from_raw {NL EL} it lt e in_e (A : agraph NL EL) ls nlm elm n m : arrays_describe lt e in_e ls nlm elm A → (csr_nodes (ev_offsets e) < id_card it)%N →
  N.of_nat n = csr_nodes (ev_offsets e) →
  ∃ g, sg_from_raw (ag_dir A) n m e in_e ls nlm elm = Ok g ∧ shows (sg_view it lt (ag_dir A) g) A nlm elm m.
Proof. exact (from_raw_ok it lt e in_e A ls nlm elm n m). Qed.
Print Assumptions C33_from_raw.
Example C33_with_labels_case dir : ∃ e in_e ls (A : agraph N N), arrays_describe TU8 e in_e (Some ls) [7; 8]%N [5; 6]%N A ∧ (csr_nodes (ev_offsets e) < id_card TU8)%N ∧
  ag_dir A = dir ∧ a_num_nodes A = 4 ∧ a_num_edges A = 4.
Proof. exact (cons_case dir). Qed.
(** They panic exactly when a directed graph has no in-edges or there is no offset. *)
Theorem C33_panics {NL EL} e in_e dir ls ls' (nlm : list NL) (elm : list EL) nn ne n m : let bad := (dir = true ∧ in_e = None) ∨ ev_offsets e = [] in
  ((sg_new dir e in_e nn ne : res (sgraph NL EL)) = Panic ↔ bad) ∧ (sg_with_labels dir e in_e ls nlm elm nn ne = Panic ↔ bad) ∧
  (sg_from_raw dir n m e in_e ls' nlm elm = Panic ↔ bad).
Proof. exact (cons_panics e in_e dir ls ls' nlm elm nn ne n m). Qed.
Print Assumptions C33_panics.
