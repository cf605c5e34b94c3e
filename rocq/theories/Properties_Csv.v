(** C55, C56, C63-C65: CSV files. Vocabulary: SpecCsv.v (readable, built_from, same_columns, alike),
    SpecOps.v (shows, uses_labels), Spec.v (represents, labels_fit). *)
From Coq Require Import Ascii.
From stdpp Require Import gmap strings.
From Verif Require Import Base Api Spec SpecOps SpecSerde Map GraphMap GraphOps Csv SpecCsv CsvFacts CsvProps CsvRead CsvWit.

(** ** C55. Labels must have a non-empty text that parses back; ids are not (). *)
Theorem C55_roundtrip {NL EL} `{EqDecision NL, EqDecision EL} (it lt : idty) (tn : text NL) (te : text EL)
  (V : gview NL EL) (A : agraph NL EL) nls els pn pe flexible (F : csvfs) :
  it ≠ TUnit → represents V A → pn ≠ pe → (∀ n, a_has_node A n → in_type it n) → uses_labels A nls els →
  Forall (readable tn) nls → Forall (readable te) els → labels_fit lt nls → labels_fit lt els →
  ∃ F' g, csv_write it tn te V pn pe F = Ok F' ∧ (∀ p, p ≠ pn → p ≠ pe → F' !! p = F !! p) ∧
    csv_read (ag_dir A) it lt tn te (Reader (Some pn) pe true flexible) F' gm_new = Ok (g, true) ∧
    ∀ o, hash_order g o → shows (gm_view (ag_dir A) o g) A.
Proof. intros _. exact (csv_roundtrip it lt tn te V A nls els pn pe flexible F). Qed.
Print Assumptions C55_roundtrip.
Example C55_case dir : ∃ (V : gview N N) A, represents V A ∧ ag_dir A = dir ∧ (∀ n, a_has_node A n → in_type TU8 n) ∧
  uses_labels A [7; 8]%N [5; 6]%N ∧ Forall (readable (t_id TU32)) [7; 8]%N ∧ Forall (readable (t_id TU32)) [5; 6]%N ∧
  ag_nodes A !! 1%N = Some (Some 7%N) ∧ ag_nodes A !! 0%N = Some None ∧ a_edge_at A 3 1 = Some None ∧ a_num_edges A = 4.
Proof. exact (csv_graph_case dir). Qed.
(** Integers of every id type are readable labels; strings are, unless empty. *)
Theorem C55_integer_labels (it : idty) (x : N) : in_type it x → readable (t_id it) x.
Proof. exact (id_readable it x). Qed.
Print Assumptions C55_integer_labels.
Theorem C55_string_labels (s : string) : readable t_string s ↔ s ≠ ""%string.
Proof. split; [by intros [? _]|]. intros H. by split. Qed.
Print Assumptions C55_string_labels.
(** A label with an empty text is lost. *)
Theorem C55_empty_label_refuted {NL} (it : idty) (tn : text NL) (n : N) (l : NL) flexible : in_type it n → show tn l = ""%string →
  csv_node_iter it tn (Reader (Some "n"%string) "e" true flexible) {["n"%string := [node_header; node_row it tn n (Some l)]]} = Some [(n, None)].
Proof. intros H1 H2. exact (csv_empty_label it tn n l flexible node_header H1 H2 eq_refl). Qed.
Print Assumptions C55_empty_label_refuted.
Example C55_empty_label_case : show t_string "" = ""%string ∧ in_type TU8 7.
Proof. done. Qed.
(** Without headers, an absent label of a written file comes back as the empty string. *)
Theorem C55_bare_refuted (n : N) flexible : in_type TU8 n →
  csv_node_iter TU8 t_string (Reader (Some "n"%string) "e" false flexible) {["n"%string := [node_row TU8 t_string n None]]} = Some [(n, Some ""%string)].
Proof.
  intros Hn. rewrite node_iter_single by done. cbn [rd_headers rd_flexible]. rewrite deserialize_bare. cbn [node_record node_seq node_row fmap list_fmap].
  rewrite (id_text TU8 n Hn). done.
Qed.
Print Assumptions C55_bare_refuted.

(** ** C56. A row does not parse iff a file with only this row (below the header) yields nothing. *)
Section C56.
  Context {NL EL : Type} `{EqDecision NL, EqDecision EL} (dir : bool) (it lt : idty) (tn : text NL) (te : text EL) (R : reader).
  Theorem C56_node_rows p h t F g : rd_nodes R = Some p → p ≠ rd_edges R → rd_headers R = true → F !! p = Some (h :: t) →
    csv_read dir it lt tn te R (<[p := h :: filter (λ r, csv_node_iter it tn R {[p := [h; r]]} ≠ Some []) t]> F) g = csv_read dir it lt tn te R F g.
  Proof. exact (skip_node_rows it lt tn te dir R p h t F g). Qed.
  Theorem C56_edge_rows h t F g : rd_nodes R ≠ Some (rd_edges R) → rd_headers R = true → F !! rd_edges R = Some (h :: t) →
    csv_read dir it lt tn te R (<[rd_edges R := h :: filter (λ r, csv_edge_iter it te R {[rd_edges R := [h; r]]} ≠ Some []) t]> F) g = csv_read dir it lt tn te R F g.
  Proof. exact (skip_edge_rows it lt tn te dir R h t F g). Qed.
  (** Without headers, but flexible. *)
  Theorem C56_node_rows_flexible p t F g : rd_nodes R = Some p → p ≠ rd_edges R → rd_headers R = false → rd_flexible R = true → F !! p = Some t →
    csv_read dir it lt tn te R (<[p := filter (λ r, csv_node_iter it tn R {[p := [r]]} ≠ Some []) t]> F) g = csv_read dir it lt tn te R F g.
  Proof. exact (skip_node_rows_flexible it lt tn te dir R p t F g). Qed.
  Theorem C56_edge_rows_flexible t F g : rd_nodes R ≠ Some (rd_edges R) → rd_headers R = false → rd_flexible R = true → F !! rd_edges R = Some t →
    csv_read dir it lt tn te R (<[rd_edges R := filter (λ r, csv_edge_iter it te R {[rd_edges R := [r]]} ≠ Some []) t]> F) g = csv_read dir it lt tn te R F g.
  Proof. exact (skip_edge_rows_flexible it lt tn te dir R t F g). Qed.
  (** Without headers and not flexible: only rows after the first may be deleted (missing: the first). *)
  Theorem C56_node_rows_bare_partial p r0 t F g : rd_nodes R = Some p → p ≠ rd_edges R → rd_headers R = false → F !! p = Some (r0 :: t) →
    csv_read dir it lt tn te R (<[p := r0 :: filter (λ r, csv_node_iter it tn R {[p := [r0; r]]} ≠ csv_node_iter it tn R {[p := [r0]]}) t]> F) g = csv_read dir it lt tn te R F g.
  Proof. exact (skip_node_rows_bare it lt tn te dir R p r0 t F g). Qed.
  Theorem C56_edge_rows_bare_partial r0 t F g : rd_nodes R ≠ Some (rd_edges R) → rd_headers R = false → F !! rd_edges R = Some (r0 :: t) →
    csv_read dir it lt tn te R (<[rd_edges R := r0 :: filter (λ r, csv_edge_iter it te R {[rd_edges R := [r0; r]]} ≠ csv_edge_iter it te R {[rd_edges R := [r0]]}) t]> F) g = csv_read dir it lt tn te R F g.
  Proof. exact (skip_edge_rows_bare it lt tn te dir R r0 t F g). Qed.
  (** A label that does not parse is dropped; its row stays. *)
  Theorem C56_bad_node_label p f x n : rd_nodes R = Some p → parse (t_id it) f = Some n → parse tn x = None →
    csv_node_iter it tn R {[p := if rd_headers R then [node_header; [f; x]] else [[f; x]]]} = Some [(n, None)].
  Proof. exact (node_row_read it tn R p f x n). Qed.
  Theorem C56_bad_edge_label f f' x n m : parse (t_id it) f = Some n → parse (t_id it) f' = Some m → parse te x = None →
    csv_edge_iter it te R {[rd_edges R := if rd_headers R then [edge_header; [f; f'; x]] else [[f; f'; x]]]} = Some [(n, m, None)].
  Proof. exact (edge_row_read it te R f f' x n m). Qed.
End C56.
Print Assumptions C56_node_rows.
Print Assumptions C56_edge_rows.
Print Assumptions C56_node_rows_flexible.
Print Assumptions C56_edge_rows_flexible.
Print Assumptions C56_node_rows_bare_partial.
Print Assumptions C56_edge_rows_bare_partial.
Print Assumptions C56_bad_node_label.
Print Assumptions C56_bad_edge_label.
Example C56_case : csv_files !! "n"%string = Some csv_nodes ∧ csv_files !! "e"%string = Some csv_edges ∧
  filter (λ r, csv_node_iter TU8 (t_id TU32) csv_reader {["n"%string := [node_header; r]]} ≠ Some []) (tail csv_nodes) =
    [["1"; "7"]; ["2"; "z"]; ["3"; ""]]%string ∧
  parse (t_id TU8) "+300" = None ∧ parse (t_id TU32) "z" = None ∧ parse (t_id TU8) "2" = Some 2%N.
Proof. by vm_compute. Qed.
Theorem C56_first_row_refuted :
  let R := Reader None "e" false false in
  csv_edge_iter TU8 t_string R {["e"%string := [["# from"; "to"; "type"; ""]]]}%string = Some [] ∧
  csv_edge_iter TU8 t_string R {["e"%string := [["# from"; "to"; "type"; ""]; ["1"; "2"; "a"]]]}%string = Some [] ∧
  csv_edge_iter TU8 t_string R {["e"%string := [["1"; "2"; "a"]]]}%string = Some [(1, 2, Some "a"%string)]%N.
Proof. by vm_compute. Qed.
Print Assumptions C56_first_row_refuted.

(** ** C63. read adds what the iterators yield, in that order; into an empty graph this gives the
    graph that the records describe. *)
Theorem C63_read_calls {NL EL} `{EqDecision NL, EqDecision EL} (dir : bool) (it lt : idty) (tn : text NL) (te : text EL) R F (g : graphmap NL EL) ns es :
  csv_node_iter it tn R F = Some ns → csv_edge_iter it te R F = Some es →
  csv_read dir it lt tn te R F g = rmap (λ x, (x.2, true)) (gm_run dir lt (add_calls ns es) g).
Proof. exact (read_calls dir it lt tn te R F g ns es). Qed.
Print Assumptions C63_read_calls.
Theorem C63_read_graph {NL EL} `{EqDecision NL, EqDecision EL} (dir : bool) (it lt : idty) (tn : text NL) (te : text EL) R F
  (ns : list (N * option NL)) (es : list (N * N * option EL)) nls els :
  csv_node_iter it tn R F = Some ns → csv_edge_iter it te R F = Some es →
  (∀ n l, (n, Some l) ∈ ns → l ∈ nls) → (∀ e l, (e, Some l) ∈ es → l ∈ els) → labels_fit lt nls → labels_fit lt els →
  ∃ g A, csv_read dir it lt tn te R F gm_new = Ok (g, true) ∧ built_from dir ns es A ∧
    ∀ o, hash_order g o → let V := gm_view dir o g in
      represents V A ∧ answers_missing V A ∧ iterates V ∧ v_edge_count V = length es.
Proof. exact (csv_read_graph it lt tn te dir R F ns es nls els). Qed.
Print Assumptions C63_read_graph.
Theorem C63_missing_nodes {NL EL} `{EqDecision NL, EqDecision EL} (dir : bool) (it lt : idty) (tn : text NL) (te : text EL) R F (g : graphmap NL EL) p :
  rd_nodes R = Some p → F !! p = None → csv_read dir it lt tn te R F g = Ok (g, false).
Proof. exact (read_missing_nodes dir it lt tn te R F g p). Qed.
Print Assumptions C63_missing_nodes.
Example C63_case : csv_node_iter TU8 (t_id TU32) csv_reader csv_files = Some [(1, Some 7); (2, None); (3, None)]%N ∧
  csv_edge_iter TU8 (t_id TU32) csv_reader csv_files = Some [(1, 2, Some 5); (2, 9, Some 6); (2, 1, Some 5)]%N ∧
  labels_fit TU8 [7]%N ∧ labels_fit TU8 [5; 6]%N.
Proof. by vm_compute. Qed.

(** ** C64. Columns are found by their names. *)
Theorem C64_column_order {NL EL} `{EqDecision NL, EqDecision EL} (dir : bool) (it lt : idty) (tn : text NL) (te : text EL) R F F' (g : graphmap NL EL) :
  rd_headers R = true → (∀ p, rd_nodes R = Some p ∨ rd_edges R = p → alike F F' p) →
  csv_node_iter it tn R F' = csv_node_iter it tn R F ∧ csv_edge_iter it te R F' = csv_edge_iter it te R F ∧
  csv_read dir it lt tn te R F' g = csv_read dir it lt tn te R F g.
Proof. exact (columns_thm it lt tn te dir R F F' g). Qed.
Print Assumptions C64_column_order.
Example C64_case : same_columns [edge_header; ["1"; "2"; "5"]; ["7"; "8"; ""]]%string [[":TYPE"; ":START_ID"; ":END_ID"]; ["5"; "1"; "2"]; [""; "7"; "8"]]%string.
Proof.
  eexists _, _, _, _. split; [done|]. split; [done|]. split.
  - repeat constructor; cbn; solve_Permutation.
  - unfold edge_header. solve_Permutation.
Qed.
(** One column of any other name and no row of the file is read. *)
Theorem C64_unknown_node_column {NL} (it : idty) (tn : text NL) R p (F : csvfs) h t k :
  rd_nodes R = Some p → rd_headers R = true → F !! p = Some (h :: t) →
  k ∈ h → k ≠ "nodeId:ID"%string → k ≠ ":LABEL"%string → csv_node_iter it tn R F = Some [].
Proof. exact (unknown_node_column it tn R p F h t k). Qed.
Print Assumptions C64_unknown_node_column.
Theorem C64_unknown_edge_column {EL} (it : idty) (te : text EL) R (F : csvfs) h t k :
  rd_headers R = true → F !! rd_edges R = Some (h :: t) →
  k ∈ h → k ≠ ":START_ID"%string → k ≠ ":END_ID"%string → k ≠ ":TYPE"%string → csv_edge_iter it te R F = Some [].
Proof. exact (unknown_edge_column it te R F h t k). Qed.
Print Assumptions C64_unknown_edge_column.

(** ** C65. *)
Theorem C65_separator s c : csv_separator s = Ok c ↔
  s = "comma"%string ∧ c = ","%char ∨ s = "space"%string ∧ c = " "%char ∨ s = "tab"%string ∧ c = "009"%char ∨ s = String c "".
Proof. exact (separator_ok s c). Qed.
Print Assumptions C65_separator.
Theorem C65_separator_panics s : (∀ c, csv_separator s ≠ Ok c) → csv_separator s = Panic.
Proof.
  intros H. destruct (csv_separator s) as [c| |] eqn:E; [by destruct (H c)|done|]. unfold csv_separator in E.
  destruct (if decide _ then _ else _) as [|a [|b s']]; done.
Qed.
Print Assumptions C65_separator_panics.
Example C65_case : csv_separator "tab" = Ok "009"%char ∧ csv_separator ";" = Ok ";"%char ∧ csv_separator "||" = Panic.
Proof. by vm_compute. Qed.
