(** C98: CSV files as text. [table_text], [read_table], [text_write], [text_read]: CsvText.v.
    Vocabulary: SpecCsvText.v (plain, joined, line_end, lines, usual), SpecCsv.v (readable). *)
From Coq Require Import Ascii.
From stdpp Require Import gmap strings.
From Verif Require Import Base Api Spec SpecOps SpecSerde Map GraphMap Csv SpecCsv CsvWit CsvText SpecCsvText CsvTextProps CsvTextGraph CsvTextWit
  SpecFacts Bytes Serde SpecExamples Examples ExamplesFacts ExamplesWit Paths ExamplesText.

(** ** C98. Fields with separators, quotes and line ends inside survive. *)
Theorem C98_records (sep : ascii) (t : table) : usual sep → Forall (λ r, r ≠ []) t → read_table sep (table_text sep t) = t.
Proof.
  intros (H1 & H2 & H3) Ht. apply read_table_text; [done|]. eapply Forall_impl; [exact Ht|]. intros r Hr. split; [done|by left].
Qed.
Print Assumptions C98_records.
Example C98_records_case : usual "," ∧ Forall (λ r, r ≠ []) odd_table ∧
  table_text "," [["a,b"; ""]; [""]]%string = (String "034" "a,b" +:+ String "034" ("," +:+ String "010" (String "034" (String "034" (String "010" "")))))%string.
Proof. split_and!; [done|repeat constructor; done|by vm_compute]. Qed.
(** A graph written with a separator and read with the same one is the same graph, whatever the
    labels contain; every separator that is accepted will do, except LF. *)
Theorem C98_roundtrip {NL EL} `{EqDecision NL, EqDecision EL} (it lt : idty) (tn : text NL) (te : text EL) separator sep
  (V : gview NL EL) (A : agraph NL EL) nls els pn pe flexible (F : textfs) :
  csv_separator separator = Ok sep → sep ≠ "010"%char →
  it ≠ TUnit → represents V A → pn ≠ pe → (∀ n, a_has_node A n → in_type it n) → uses_labels A nls els →
  Forall (readable tn) nls → Forall (readable te) els → labels_fit lt nls → labels_fit lt els →
  ∃ F' g, text_write it tn te V pn pe sep F = Ok F' ∧ (∀ p, p ≠ pn → p ≠ pe → F' !! p = F !! p) ∧
    text_read (ag_dir A) it lt tn te (Reader (Some pn) pe true flexible) sep F' gm_new = Ok (g, true) ∧
    ∀ o, hash_order g o → shows (gm_view (ag_dir A) o g) A.
Proof. intros _ Hs _. exact (text_roundtrip it lt tn te sep V A nls els pn pe flexible F Hs). Qed.
Print Assumptions C98_roundtrip.
Example C98_case dir : (∃ (V : gview N N) A, represents V A ∧ ag_dir A = dir ∧ (∀ n, a_has_node A n → in_type TU8 n) ∧
  uses_labels A [7; 8]%N [5; 6]%N ∧ Forall (readable (t_id TU32)) [7; 8]%N ∧ Forall (readable (t_id TU32)) [5; 6]%N ∧
  ag_nodes A !! 1%N = Some (Some 7%N) ∧ ag_nodes A !! 0%N = Some None ∧ a_edge_at A 3 1 = Some None ∧ a_num_edges A = 4) ∧
  csv_separator "comma" = Ok ","%char ∧ csv_separator (String "034" "") = Ok "034"%char ∧ csv_separator "1" = Ok "1"%char.
Proof. split; [exact (csv_graph_case dir)|done]. Qed.
(** With LF as separator nothing is read back: the file is a single record, taken as header. *)
Theorem C98_lf_refuted {NL EL} `{EqDecision NL, EqDecision EL} (it lt : idty) (tn : text NL) (te : text EL)
  (V : gview NL EL) (A : agraph NL EL) dir pn pe flexible (F : textfs) g :
  csv_separator (String "010" "") = Ok "010"%char ∧ (represents V A → pn ≠ pe →
  ∃ F', text_write it tn te V pn pe "010" F = Ok F' ∧ text_read dir it lt tn te (Reader (Some pn) pe true flexible) "010" F' g = Ok (g, true)).
Proof. split; [done|]. exact (lf_nothing it lt tn te V A dir pn pe flexible F g). Qed.
Print Assumptions C98_lf_refuted.
(** A file without quotes: each line is a record, split at the separators, nothing trimmed; the
    three line ends may be mixed, the last may be missing, empty lines are skipped. *)
Theorem C98_lines (sep : ascii) (ls : list (row * string)) (last : row) : usual sep →
  Forall (λ l, l.1 ≠ [] ∧ Forall (plain sep) l.1 ∧ line_end l.2) ls → last ≠ [] → Forall (plain sep) last →
  read_table sep (lines sep ls +:+ joined sep last) = filter (λ r, r ≠ [""%string]) (ls.*1 ++ [last]).
Proof. exact (read_lines sep ls last). Qed.
Print Assumptions C98_lines.
Example C98_lines_case : usual "|" ∧ Forall (λ l, l.1 ≠ [] ∧ Forall (plain "|") l.1 ∧ line_end l.2) some_lines ∧ Forall (plain "|") ["7"; " x"; ""]%string ∧
  read_table "|" (lines "|" some_lines +:+ joined "|" ["7"; " x"; ""]%string) = [["a"; "b "]; ["1"; ""]; ["7"; " x"; ""]]%string.
Proof. exact some_lines_case. Qed.
(** A row with a quote that is never closed takes all later lines with it. *)
Theorem C98_open_quote_refuted (sep : ascii) (ls : list (row * string)) (r : row) (s : string) : usual sep →
  Forall (λ l, l.1 ≠ [] ∧ Forall (plain sep) l.1 ∧ line_end l.2) ls → Forall (plain sep) r → ¬ has_char "034" s →
  read_table sep (lines sep ls +:+ joined sep (r ++ [String "034" s])) = filter (λ r, r ≠ [""%string]) ls.*1 ++ [r ++ [s]].
Proof. exact (read_open sep ls r s). Qed.
Print Assumptions C98_open_quote_refuted.
Example C98_open_quote_case : Forall (λ l, l.1 ≠ [] ∧ Forall (plain "|") l.1 ∧ line_end l.2) some_lines ∧ Forall (plain "|") ["8"]%string ∧
  ¬ has_char "034" ("A" +:+ String "010" ("9|B" +:+ String "010" ""))%string.
Proof. split; [exact (proj1 (proj2 some_lines_case))|]. split; [by apply Forall_singleton; intros c [->|[]]|]. cbn. naive_solver. Qed.
(** The files of static_to_csv, byte for byte, hold the graph (C70). *)
Theorem C98_static_to_csv (h : list (gop string string)) nls els rs s : NoDup nls → NoDup els →
  spec_run h (s_init false nls els) = SOk (rs, s) → labels_fit TU32 (sp_nls s) → labels_fit TU32 (sp_els s) → Forall (in_type TU32) (h ≫= inserted) →
  vec_of text_fits (sp_nls s) → vec_of text_fits (sp_els s) → in_usize (a_num_nodes (sp_g s)) → in_usize (sp_count s) →
  ∃ g : graphmap string string, gm_run false TU32 h (gm_with_label_map nls els) = Ok (rs, g) ∧
    ∀ in_file out_dir ord ord' F C flexible, hash_order g ord → hash_order g ord' →
      Forall (λ l, l ≠ ""%string) (sp_nls s) → Forall (λ l, l ≠ ""%string) (sp_els s) →
      let nodes := path_join out_dir "nodes.csv" in let edges := path_join out_dir "edges.csv" in
      ∃ C' g', static_to_csv_text in_file out_dir ord (export in_file (enc (c_graphmap TU32 TU32 c_text c_text ord') g) F) C = Ok C' ∧
        (∀ p, p ≠ nodes → p ≠ edges → C' !! p = C !! p) ∧
        text_read false TU32 TU32 t_string t_string (Reader (Some nodes) edges true flexible) "," C' gm_new = Ok (g', true) ∧
        ∀ o, hash_order g' o → shows (gm_view false o g') (sp_g s).
Proof. exact (to_csv_text h nls els rs s). Qed.
Print Assumptions C98_static_to_csv.
Example C98_static_case : spec_run ex_hist (s_init false [] []) = SOk (ex_outs, ex_state) ∧ labels_fit TU32 (sp_nls ex_state) ∧ labels_fit TU32 (sp_els ex_state) ∧
  Forall (in_type TU32) (ex_hist ≫= inserted) ∧ vec_of text_fits (sp_nls ex_state) ∧ vec_of text_fits (sp_els ex_state) ∧
  in_usize (a_num_nodes (sp_g ex_state)) ∧ in_usize (sp_count ex_state) ∧
  a_num_nodes (sp_g ex_state) = 6 ∧ sp_count ex_state = 2 ∧ a_num_edges (sp_g ex_state) = 2 ∧ a_links (sp_g ex_state) = 2 ∧ sp_max ex_state = Some 5%N ∧
  sp_nls ex_state = ["a"; "b"]%string ∧ sp_els ex_state = ["x"]%string.
Proof. exact ex_case. Qed.
