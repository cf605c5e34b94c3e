(** C102: the order of the rows of CSV files and of the files. Vocabulary: SpecCsvOrder.v (read_all,
    all_records, consistent, rows_moved), SpecHist.v (same_answers). *)
From stdpp Require Import gmap strings.
From Verif Require Import Base Api Spec Map GraphMap Csv SpecCsv SpecHist SpecCsvOrder CsvOrder CsvOrderWit.

(** ** C102. Two ways to spread the same records over files, in any order, read one after the other
    into a graph with any history, give graphs that answer all queries alike. *)
Theorem C102_same_records {NL EL} `{EqDecision NL, EqDecision EL} (dir : bool) (it lt : idty) (tn : text NL) (te : text EL)
  (nls : list NL) (els : list EL) h0 rs0 g0 Rs Rs' F F' ns es ns' es' g : NoDup nls → NoDup els → Forall (λ o, is_raw o = false) h0 →
  gm_run dir lt h0 (gm_with_label_map nls els) = Ok (rs0, g0) →
  all_records it tn te Rs F = Some (ns, es) → all_records it tn te Rs' F' = Some (ns', es') → ns' ≡ₚ ns → es' ≡ₚ es → consistent dir ns es →
  read_all dir it lt tn te Rs F g0 = Ok (Some g) → labels_fit lt (g_nlm g) → labels_fit lt (g_elm g) →
  ∃ g', read_all dir it lt tn te Rs' F' g0 = Ok (Some g') ∧
    ∀ o o', hash_order g o → hash_order g' o' → same_answers (gm_view dir o g) (gm_view dir o' g').
Proof. intros Hn He. exact (records_order dir it lt tn te nls els Hn He h0 rs0 g0 Rs Rs' F F' ns es ns' es' g). Qed.
Print Assumptions C102_same_records.
Example C102_case : all_records TU8 (t_id TU32) (t_id TU32) [ro_all] ro_files = Some (ro_ns, ro_es) ∧
  all_records TU8 (t_id TU32) (t_id TU32) [ro_two; ro_one] ro_files = Some (reverse ro_ns, [(2, 3, None); (1, 2, Some 5); (2, 1, Some 5)]%N) ∧
  reverse ro_ns ≡ₚ ro_ns ∧ [(2, 3, None); (1, 2, Some 5); (2, 1, Some 5)]%N ≡ₚ ro_es ∧ consistent false ro_ns ro_es ∧
  ∃ g, read_all false TU8 TU8 (t_id TU32) (t_id TU32) [ro_all] ro_files gm_new = Ok (Some g) ∧ labels_fit TU8 (g_nlm g) ∧ labels_fit TU8 (g_elm g) ∧
    gm_node_count g = 3 ∧ gm_edge_count g = 3.
Proof. exact ro_case. Qed.
(** The files in another order. *)
Theorem C102_file_order {NL EL} `{EqDecision NL, EqDecision EL} (dir : bool) (it lt : idty) (tn : text NL) (te : text EL)
  (nls : list NL) (els : list EL) h0 rs0 g0 Rs Rs' F ns es g : NoDup nls → NoDup els → Forall (λ o, is_raw o = false) h0 →
  gm_run dir lt h0 (gm_with_label_map nls els) = Ok (rs0, g0) → all_records it tn te Rs F = Some (ns, es) → consistent dir ns es → Rs' ≡ₚ Rs →
  read_all dir it lt tn te Rs F g0 = Ok (Some g) → labels_fit lt (g_nlm g) → labels_fit lt (g_elm g) →
  ∃ g', read_all dir it lt tn te Rs' F g0 = Ok (Some g') ∧
    ∀ o o', hash_order g o → hash_order g' o' → same_answers (gm_view dir o g) (gm_view dir o' g').
Proof.
  intros Hn He H0 Hr Ha Hc Hp. destruct (records_files it tn te Rs Rs' F ns es Hp Ha) as (ns' & es' & Ha' & Hpn & Hpe).
  exact (records_order dir it lt tn te nls els Hn He h0 rs0 g0 Rs Rs' F F ns es ns' es' g H0 Hr Ha Ha' Hpn Hpe Hc).
Qed.
Print Assumptions C102_file_order.
(** The rows of a file in another order, below the header or, if the reader is flexible, without one. *)
Theorem C102_row_order {NL EL} `{EqDecision NL, EqDecision EL} (dir : bool) (it lt : idty) (tn : text NL) (te : text EL)
  (nls : list NL) (els : list EL) h0 rs0 g0 R F F' ns es g : NoDup nls → NoDup els → Forall (λ o, is_raw o = false) h0 →
  gm_run dir lt h0 (gm_with_label_map nls els) = Ok (rs0, g0) →
  csv_node_iter it tn R F = Some ns → csv_edge_iter it te R F = Some es → consistent dir ns es →
  rd_headers R || rd_flexible R = true → (∀ p, rd_nodes R = Some p ∨ rd_edges R = p → rows_moved (rd_headers R) F F' p) →
  csv_read dir it lt tn te R F g0 = Ok (g, true) → labels_fit lt (g_nlm g) → labels_fit lt (g_elm g) →
  ∃ g', csv_read dir it lt tn te R F' g0 = Ok (g', true) ∧
    ∀ o o', hash_order g o → hash_order g' o' → same_answers (gm_view dir o g) (gm_view dir o' g').
Proof. intros Hn He. exact (row_order dir it lt tn te nls els Hn He h0 rs0 g0 R F F' ns es g). Qed.
Print Assumptions C102_row_order.
Example C102_row_case : rd_headers ro_all || rd_flexible ro_all = true ∧ (∀ p, rd_nodes ro_all = Some p ∨ rd_edges ro_all = p → rows_moved true ro_files ro_files' p) ∧
  csv_node_iter TU8 (t_id TU32) ro_all ro_files = Some ro_ns ∧ csv_edge_iter TU8 (t_id TU32) ro_all ro_files = Some ro_es ∧ consistent false ro_ns ro_es.
Proof. exact ro_row_case. Qed.
(** Without headers and not flexible the length of the first row decides which rows are read. *)
Theorem C102_headless_refuted : ∃ F F' : csvfs, (∀ p, rows_moved false F F' p) ∧ let R := Reader None "e" false false in
  csv_edge_iter TU8 (t_id TU32) R F = Some [(1, 2, None)]%N ∧ csv_edge_iter TU8 (t_id TU32) R F' = Some [(3, 4, Some 5)]%N.
Proof. exact ro_headless. Qed.
Print Assumptions C102_headless_refuted.
