(** C103: text files into csv_to_static. [csv_to_static_text], [static_to_csv_text], [text_write], [text_read]: ExamplesPipe.v, ExamplesText.v, CsvText.v (the programs).
    Vocabulary: SpecCsv.v (built_from), SpecReorder.v (renames, onto_prefix), SpecExamples.v (text_fits), Spec.v (represents), SpecCsvText.v (lines). *)
From Coq Require Import Ascii.
From stdpp Require Import gmap strings.
From Verif Require Import Base Api Spec SpecFacts SpecOps SpecStatic SpecSGraph Map GraphMap Static SpecReorder Reorder Bytes SpecSerde Serde
  Csv SpecCsv SpecExamples Examples ExamplesFacts ExamplesWit CsvText SpecCsvText ExamplesText ExamplesPipe PipeWit Paths.

(** ** C103. Text files with the separator that the option names. *)
Theorem C103_text_files (a : cs_args) (sep : ascii) (C : gmap string string) ns es nls els :
  let R := Reader (ca_nodes a) (ca_edges a) (ca_headers a) (ca_flexible a) in let dir := ca_directed a in let out := default "graph.static"%string (ca_out a) in
  (match ca_separator a with Some s => csv_separator s | None => Ok ","%char end) = Ok sep →
  text_node_iter TU32 t_string R sep C = Some ns → text_edge_iter TU32 t_string R sep C = Some es →
  (∀ n l, (n, Some l) ∈ ns → l ∈ nls) → (∀ x y l, (x, y, Some l) ∈ es → l ∈ els) →
  (N.of_nat (length nls) ≤ id_max TU32)%N → (N.of_nat (length els) ≤ id_max TU32)%N →
  Forall text_fits nls → Forall text_fits els → in_usize (length es) → ns ≠ [] ∨ es ≠ [] →
  ∃ A, built_from dir ns es A ∧ ((N.of_nat (a_num_nodes A) ≤ id_max TU32)%N →
    (ca_reorder a = true ∨ ∀ n m, a_has_node A n → (m < n)%N → a_has_node A m) →
    ∃ g, text_read dir TU32 TU32 t_string t_string R sep C gm_new = Ok (g, true) ∧
      ∀ ord no eo F, hash_order g ord → counter_order (node_label_ids g ord) no → counter_order (edge_label_ids dir g ord) eo →
        ∃ F' sg f B, csv_to_static_text a ord no eo C F = Ok F' ∧ (∀ p, p ≠ out → F' !! p = F !! p) ∧
          import (c_sgraph TU32 TU32 c_text c_text) out F' = Some sg ∧
          renames f A B ∧ (if ca_reorder a then onto_prefix f A else ∀ x, f x = x) ∧
          represents (sg_view TU32 TU32 dir sg) B ∧ answers_missing (sg_view TU32 TU32 dir sg) B ∧
          v_edge_count (sg_view TU32 TU32 dir sg) = length es).
Proof. exact (pipe_files a sep C ns es nls els). Qed.
Print Assumptions C103_text_files.
(** Lines that end in CR LF or LF, a quoted field with the separator inside, the separator "tab". *)
Example C103_files_case : let a := pipe_arg in let R := Reader (ca_nodes a) (ca_edges a) (ca_headers a) (ca_flexible a) in
  (match ca_separator a with Some s => csv_separator s | None => Ok ","%char end) = Ok "009"%char ∧
  text_node_iter TU32 t_string R "009" pipe_files_wit = Some [(5, Some (String "a" (String "009" "b"))); (7, None)]%N ∧
  text_edge_iter TU32 t_string R "009" pipe_files_wit = Some [(5, 7, Some "x"); (7, 9, None)]%N%string ∧ ca_reorder a = true.
Proof. exact pipe_files_case. Qed.

(** Any graph that is written and then converted comes back, renumbered with -i. *)
Theorem C103_written_graph (a : cs_args) (V : gview string string) (A : agraph string string) nls els pn pe sep (C : gmap string string) :
  let dir := ca_directed a in let out := default "graph.static"%string (ca_out a) in
  ca_nodes a = Some pn → ca_edges a = pe → ca_headers a = true → dir = ag_dir A → pn ≠ pe →
  (match ca_separator a with Some s => csv_separator s | None => Ok ","%char end) = Ok sep → sep ≠ "010"%char →
  represents V A → (∀ n, a_has_node A n → in_type TU32 n) → uses_labels A nls els →
  Forall (λ l, l ≠ ""%string) nls → Forall (λ l, l ≠ ""%string) els →
  (N.of_nat (length nls) ≤ id_max TU32)%N → (N.of_nat (length els) ≤ id_max TU32)%N → Forall text_fits nls → Forall text_fits els →
  in_usize (a_num_edges A) → a_num_nodes A ≠ 0 → (N.of_nat (a_num_nodes A) ≤ id_max TU32)%N →
  ca_reorder a = true ∨ (∀ n m, a_has_node A n → (m < n)%N → a_has_node A m) →
  ∃ C' g, text_write TU32 t_string t_string V pn pe sep C = Ok C' ∧ (∀ p, p ≠ pn → p ≠ pe → C' !! p = C !! p) ∧
    text_read dir TU32 TU32 t_string t_string (Reader (Some pn) pe true (ca_flexible a)) sep C' gm_new = Ok (g, true) ∧
    ∀ ord no eo F, hash_order g ord → counter_order (node_label_ids g ord) no → counter_order (edge_label_ids dir g ord) eo →
      ∃ F' sg f B, csv_to_static_text a ord no eo C' F = Ok F' ∧ (∀ p, p ≠ out → F' !! p = F !! p) ∧
        import (c_sgraph TU32 TU32 c_text c_text) out F' = Some sg ∧
        renames f A B ∧ (if ca_reorder a then onto_prefix f A else ∀ x, f x = x) ∧
        represents (sg_view TU32 TU32 dir sg) B ∧ answers_missing (sg_view TU32 TU32 dir sg) B ∧ v_edge_count (sg_view TU32 TU32 dir sg) = a_num_edges A.
Proof.
  intros dir out H1 H2 H3 H4 H5 H6 H7 H8 H9 H10 H11 H12 H13 H14 H15 H16 H17 H18 H19 H20.
  exact (pipe_view a V A nls els pn pe sep H1 H2 H3 H4 H5 H6 H7 H8 H9 H10 H11 H12 H13 H14 H15 H16 H17 H18 H19 H20 C).
Qed.
Print Assumptions C103_written_graph.
(** static_to_csv and then csv_to_static: the graph that was saved. *)
Theorem C103_both_programs (h : list (gop string string)) nls els rs s : NoDup nls → NoDup els →
  spec_run h (s_init false nls els) = SOk (rs, s) →
  (N.of_nat (length (sp_nls s)) ≤ id_max TU32)%N → (N.of_nat (length (sp_els s)) ≤ id_max TU32)%N → Forall (in_type TU32) (h ≫= inserted) →
  Forall text_fits (sp_nls s) → Forall text_fits (sp_els s) → Forall (λ l, l ≠ ""%string) (sp_nls s) → Forall (λ l, l ≠ ""%string) (sp_els s) →
  a_num_nodes (sp_g s) ≠ 0 → (N.of_nat (a_num_nodes (sp_g s)) ≤ id_max TU32)%N → in_usize (sp_count s) → in_usize (a_num_edges (sp_g s)) →
  ∃ g : graphmap string string, gm_run false TU32 h (gm_with_label_map nls els) = Ok (rs, g) ∧
    ∀ in_file out_dir ord ord' F C a, hash_order g ord → hash_order g ord' →
      let nodes := path_join out_dir "nodes.csv" in let edges := path_join out_dir "edges.csv" in let out := default "graph.static"%string (ca_out a) in
      ca_nodes a = Some nodes → ca_edges a = edges → ca_headers a = true → ca_directed a = false → ca_separator a = None ∨ ca_separator a = Some "comma"%string →
      ca_reorder a = true ∨ (∀ n m, a_has_node (sp_g s) n → (m < n)%N → a_has_node (sp_g s) m) →
      ∃ C' g', static_to_csv_text in_file out_dir ord (export in_file (enc (c_graphmap TU32 TU32 c_text c_text ord') g) F) C = Ok C' ∧
        (∀ p, p ≠ nodes → p ≠ edges → C' !! p = C !! p) ∧
        text_read false TU32 TU32 t_string t_string (Reader (Some nodes) edges true (ca_flexible a)) "," C' gm_new = Ok (g', true) ∧
        ∀ ord1 no eo F1, hash_order g' ord1 → counter_order (node_label_ids g' ord1) no → counter_order (edge_label_ids false g' ord1) eo →
          ∃ F' sg f B, csv_to_static_text a ord1 no eo C' F1 = Ok F' ∧ (∀ p, p ≠ out → F' !! p = F1 !! p) ∧
            import (c_sgraph TU32 TU32 c_text c_text) out F' = Some sg ∧
            renames f (sp_g s) B ∧ (if ca_reorder a then onto_prefix f (sp_g s) else ∀ x, f x = x) ∧
            represents (sg_view TU32 TU32 false sg) B ∧ answers_missing (sg_view TU32 TU32 false sg) B ∧ v_edge_count (sg_view TU32 TU32 false sg) = a_num_edges (sp_g s).
Proof. exact (both_ways h nls els rs s). Qed.
Print Assumptions C103_both_programs.
Example C103_case : spec_run ex_hist (s_init false [] []) = SOk (ex_outs, ex_state) ∧
  (N.of_nat (length (sp_nls ex_state)) ≤ id_max TU32)%N ∧ (N.of_nat (length (sp_els ex_state)) ≤ id_max TU32)%N ∧ Forall (in_type TU32) (ex_hist ≫= inserted) ∧
  Forall text_fits (sp_nls ex_state) ∧ Forall text_fits (sp_els ex_state) ∧ Forall (λ l, l ≠ ""%string) (sp_nls ex_state) ∧ Forall (λ l, l ≠ ""%string) (sp_els ex_state) ∧
  a_num_nodes (sp_g ex_state) = 6 ∧ in_usize (sp_count ex_state) ∧ a_num_edges (sp_g ex_state) = 2 ∧
  (∀ n m, a_has_node (sp_g ex_state) n → (m < n)%N → a_has_node (sp_g ex_state) m) ∧
  ∃ (V : gview string string), represents V (sp_g ex_state) ∧ uses_labels (sp_g ex_state) (sp_nls ex_state) (sp_els ex_state) ∧ ∀ n, a_has_node (sp_g ex_state) n → in_type TU32 n.
Proof. exact pipe_case. Qed.
