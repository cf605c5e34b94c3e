(** C68: what every row of a CSV file means. Vocabulary: SpecCsvRows.v. *)
From Coq Require Import Ascii.
From stdpp Require Import gmap strings.
From Verif Require Import Base Api Spec SpecSerde Map GraphMap Csv SpecCsv SpecCsvRows CsvFacts CsvRead CsvRows CsvWit.

(** ** C68. Numbers: an id field is an optional + and decimal digits, and the number fits the id type. *)
Theorem C68_ids (it : idty) (s : string) (x : N) : parse (t_id it) s = Some x ↔ decimal s x ∧ in_type it x.
Proof. exact (id_field_spec it s x). Qed.
Print Assumptions C68_ids.
Theorem C68_written_ids (it : idty) (x : N) : in_type it x → decimal (show (t_id it) x) x.
Proof. intros H. exact (proj1 (proj1 (id_field_spec it _ x) (id_text it x H))). Qed.
Print Assumptions C68_written_ids.
Theorem C68_ids_unique (s : string) (x y : N) : decimal s x → decimal s y → x = y.
Proof. exact (decimal_fun s x y). Qed.
Print Assumptions C68_ids_unique.
Example C68_ids_case : decimal "+0255" 255 ∧ in_type TU8 255 ∧ (∀ x, ¬ decimal "25 5" x) ∧ (∀ x, ¬ decimal "" x) ∧ (∀ x, ¬ decimal "+" x) ∧ decimal "256" 256 ∧ ¬ in_type TU8 256.
Proof.
  assert (∀ s x, parse_uint 1000 s = Some x → decimal s x) as Y by (intros s x H; exact (proj1 (proj1 (parse_uint_spec _ _ _) H))).
  assert (∀ s, (∀ m, parse_uint m s = None) → ∀ x, ¬ decimal s x) as X.
  { intros s H x Hx. specialize (H x). rewrite (proj2 (parse_uint_spec x s x) (conj Hx (N.le_refl x))) in H. done. }
  split; [by apply Y|]. split; [done|]. split; [by apply X|]. split; [by apply X|]. split; [by apply X|]. split; [by apply Y|]. by vm_compute.
Qed.

Section C68.
  Context {NL EL : Type} `{EqDecision NL, EqDecision EL} (dir : bool) (it lt : idty) (tn : text NL) (te : text EL) (R : reader) (F : csvfs).
  (** Rows below a header. The rows that mean something are exactly the ones the iterators yield, in order. *)
  Theorem C68_node_rows p h rows : rd_nodes R = Some p → rd_headers R = true → F !! p = Some (h :: rows) →
    ∃ ns, csv_node_iter it tn R F = Some ns ∧ readings (λ r x, node_line it tn (rd_flexible R) h r x.1 x.2) rows ns.
  Proof. exact (node_iter_readings it tn R p F h rows). Qed.
  Theorem C68_edge_rows h rows : rd_headers R = true → F !! rd_edges R = Some (h :: rows) →
    ∃ es, csv_edge_iter it te R F = Some es ∧ readings (λ r e, edge_line it te (rd_flexible R) h r e.1.1 e.1.2 e.2) rows es.
  Proof. exact (edge_iter_readings it te R F h rows). Qed.
  (** Rows of a file without header: the first row sets the length. *)
  Theorem C68_node_rows_bare p rows : rd_nodes R = Some p → rd_headers R = false → F !! p = Some rows →
    ∃ ns, csv_node_iter it tn R F = Some ns ∧
      readings (λ r x, right_length (rd_flexible R) (length (default [] (head rows))) r ∧ bare_node_line it tn r x.1 x.2) rows ns.
  Proof. exact (node_iter_bare it tn R p F rows). Qed.
  Theorem C68_edge_rows_bare rows : rd_headers R = false → F !! rd_edges R = Some rows →
    ∃ es, csv_edge_iter it te R F = Some es ∧
      readings (λ r e, right_length (rd_flexible R) (length (default [] (head rows))) r ∧ bare_edge_line it te r e.1.1 e.1.2 e.2) rows es.
  Proof. exact (edge_iter_bare it te R F rows). Qed.
  (** Missing and empty files. *)
  Theorem C68_no_node_file : rd_nodes R = None → csv_node_iter it tn R F = Some [].
  Proof. exact (node_iter_none it tn R F). Qed.
  Theorem C68_missing_nodes p g : rd_nodes R = Some p → F !! p = None →
    csv_node_iter it tn R F = None ∧ csv_read dir it lt tn te R F g = Ok (g, false).
  Proof. exact (node_file_missing dir it lt tn te R F p g). Qed.
  Theorem C68_missing_edges g : F !! rd_edges R = None →
    csv_edge_iter it te R F = None ∧ ∀ g' b, csv_read dir it lt tn te R F g = Ok (g', b) → b = false.
  Proof. exact (edge_file_missing dir it lt tn te R F g). Qed.
  (** An empty file has no rows, whatever the reader. *)
  Theorem C68_empty_files : (∀ p, rd_nodes R = Some p → F !! p = Some [] → csv_node_iter it tn R F = Some []) ∧
    (F !! rd_edges R = Some [] → csv_edge_iter it te R F = Some []).
  Proof. exact (empty_files it tn te R F). Qed.
End C68.
Print Assumptions C68_node_rows.
Print Assumptions C68_edge_rows.
Print Assumptions C68_node_rows_bare.
Print Assumptions C68_edge_rows_bare.
Print Assumptions C68_no_node_file.
Print Assumptions C68_missing_nodes.
Print Assumptions C68_missing_edges.
Print Assumptions C68_empty_files.
(** The meaning of a row is unique, so the lists above are determined by the file. *)
Theorem C68_node_rows_unique {NL} (it : idty) (tn : text NL) flexible h r n l n' l' :
  node_line it tn flexible h r n l → node_line it tn flexible h r n' l' → n = n' ∧ l = l'.
Proof. exact (node_line_fun it tn flexible h r n l n' l'). Qed.
Print Assumptions C68_node_rows_unique.
Theorem C68_edge_rows_unique {EL} (it : idty) (te : text EL) flexible h r x y l x' y' l' :
  edge_line it te flexible h r x y l → edge_line it te flexible h r x' y' l' → x = x' ∧ y = y' ∧ l = l'.
Proof. exact (edge_line_fun it te flexible h r x y l x' y' l'). Qed.
Print Assumptions C68_edge_rows_unique.
(** Rows that mean something: with a label, with a bad label, with more fields than columns, with fewer. *)
Example C68_rows_case :
  node_line TU8 (t_id TU32) false ["nodeId:ID"; ":LABEL"]%string ["12"; "7"]%string 12 (Some 7%N) ∧
  node_line TU8 (t_id TU32) false ["nodeId:ID"; ":LABEL"]%string ["12"; "z"]%string 12 None ∧
  node_line TU8 t_string true ["nodeId:ID"; ":LABEL"]%string ["12"; "a"; "b"]%string 12 (Some "a"%string) ∧
  node_line TU8 t_string true ["nodeId:ID"; ":LABEL"]%string ["12"]%string 12 None ∧
  edge_line TU8 t_string false [":TYPE"; ":START_ID"; ":END_ID"]%string [""; "12"; "3"]%string 12 3 None ∧
  bare_edge_line TU8 t_string ["12"; "3"; ""]%string 12 3 (Some ""%string).
Proof.
  split; [by apply node_line_spec|]. split; [by apply node_line_spec|]. split; [by apply node_line_spec|]. split; [by apply node_line_spec|].
  split; [by apply edge_line_spec|by apply bare_edge_spec].
Qed.
(** Rows that mean nothing: too long, no id, id too large, header without id column, repeated column. *)
Example C68_no_rows_case n l :
  ¬ node_line TU8 t_string false ["nodeId:ID"; ":LABEL"]%string ["12"; "a"; "b"]%string n l ∧
  ¬ node_line TU8 t_string true ["nodeId:ID"; ":LABEL"]%string [""; "a"]%string n l ∧
  ¬ node_line TU8 t_string true ["nodeId:ID"; ":LABEL"]%string ["256"; "a"]%string n l ∧
  ¬ node_line TU8 t_string true [":LABEL"]%string ["1"]%string n l ∧
  ¬ node_line TU8 t_string true ["nodeId:ID"; ":LABEL"; ":LABEL"]%string ["1"; "a"; "a"]%string n l.
Proof. rewrite <-!node_line_spec. by vm_compute. Qed.
