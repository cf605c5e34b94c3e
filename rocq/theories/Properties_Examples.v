(** C69-C74: the programs in examples/. Vocabulary: SpecExamples.v (text_fits, numbered_below, denser, wanted,
    added, fair, grows, outputs, a_relabel, new_label, meaningful_labels), SpecCsvRows.v (built_from), SpecReorder.v
    (renames, onto_prefix, by_frequency), SpecMmap.v (mappable, fresh_prefix), SpecPath.v (file_name, in_dir), Spec.v (represents). *)
From Coq Require Import Ascii.
From stdpp Require Import gmap strings.
From Verif Require Import Base Api Spec SpecFacts SpecOps SpecStatic SpecSGraph Map GraphMap Static SpecReorder Reorder Bytes SpecSerde Serde Mmap SpecMmap
  Gen Csv SpecCsv SpecCsvRows Ldbc SpecLdbc LdbcFacts SpecExamples Examples ExamplesFacts ExamplesLabels ExamplesDensity ExamplesLdbc ExamplesWit SpecPath Paths PathProps.

(** ** C69. csv_to_static, for the rows that the files mean (C68). With -i the nodes are renumbered. *)
Theorem C69_csv_to_static (a : cs_args) (C : csvfs) ns es nls els :
  let R := Reader (ca_nodes a) (ca_edges a) (ca_headers a) (ca_flexible a) in let dir := ca_directed a in let out := default "graph.static"%string (ca_out a) in
  (∀ s, ca_separator a = Some s → ∃ c, csv_separator s = Ok c) →
  csv_node_iter TU32 t_string R C = Some ns → csv_edge_iter TU32 t_string R C = Some es →
  (∀ n l, (n, Some l) ∈ ns → l ∈ nls) → (∀ x y l, (x, y, Some l) ∈ es → l ∈ els) →
  (N.of_nat (length nls) ≤ id_max TU32)%N → (N.of_nat (length els) ≤ id_max TU32)%N →
  Forall text_fits nls → Forall text_fits els → in_usize (length es) → ns ≠ [] ∨ es ≠ [] →
  ∃ A, built_from dir ns es A ∧ ((N.of_nat (a_num_nodes A) ≤ id_max TU32)%N →
    (ca_reorder a = true ∨ ∀ n m, a_has_node A n → (m < n)%N → a_has_node A m) →
    ∃ g, csv_read dir TU32 TU32 t_string t_string R C gm_new = Ok (g, true) ∧
      ∀ ord no eo F, hash_order g ord → counter_order (node_label_ids g ord) no → counter_order (edge_label_ids dir g ord) eo →
        ∃ F' sg f B, csv_to_static a ord no eo C F = Ok F' ∧ (∀ p, p ≠ out → F' !! p = F !! p) ∧
          import (c_sgraph TU32 TU32 c_text c_text) out F' = Some sg ∧
          renames f A B ∧ (if ca_reorder a then onto_prefix f A else ∀ x, f x = x) ∧
          represents (sg_view TU32 TU32 dir sg) B ∧ answers_missing (sg_view TU32 TU32 dir sg) B ∧
          v_edge_count (sg_view TU32 TU32 dir sg) = length es).
Proof. intros R dir out Hsep Hns Hes Hn He HN HE HPN HPE Hus. exact (cs_main a C ns es nls els Hns Hes Hsep Hn (λ '(x, y), He x y) HN HE HPN HPE Hus). Qed.
Print Assumptions C69_csv_to_static.
Example C69_case : let a := cs_arg false in let R := Reader (ca_nodes a) (ca_edges a) (ca_headers a) (ca_flexible a) in
  csv_node_iter TU32 t_string R cs_files = Some [(5, Some "a"); (7, Some "a"); (9, Some "b")]%N%string ∧
  csv_edge_iter TU32 t_string R cs_files = Some [(5, 7, Some "x"); (7, 9, None)]%N%string ∧
  ca_reorder a = true ∧ (∀ s, ca_separator a = Some s → ∃ c, csv_separator s = Ok c).
Proof. exact (cs_case false). Qed.
(** Nothing is written when a file is missing, when there are no rows, when the separator is bad. *)
Theorem C69_missing_file (a : cs_args) ord no eo (C : csvfs) F F' :
  (∃ p, ca_nodes a = Some p ∧ C !! p = None) ∨ C !! ca_edges a = None → csv_to_static a ord no eo C F ≠ Ok F'.
Proof.
  intros H. apply cs_no_file. unfold csv_node_iter, csv_edge_iter. cbn [rd_nodes rd_edges]. destruct H as [(p & Hp & HC)|HC].
  - left. by rewrite Hp, HC.
  - right. by rewrite HC.
Qed.
Print Assumptions C69_missing_file.
Theorem C69_no_rows (a : cs_args) ord no eo (C : csvfs) F : let R := Reader (ca_nodes a) (ca_edges a) (ca_headers a) (ca_flexible a) in
  csv_node_iter TU32 t_string R C = Some [] → csv_edge_iter TU32 t_string R C = Some [] → csv_to_static a ord no eo C F = Panic.
Proof. exact (cs_no_rows a ord no eo C F). Qed.
Print Assumptions C69_no_rows.
Theorem C69_separator (a : cs_args) ord no eo (C : csvfs) F s : ca_separator a = Some s → (∀ c, csv_separator s ≠ Ok c) → csv_to_static a ord no eo C F = Panic.
Proof. exact (cs_separator a ord no eo C F s). Qed.
Print Assumptions C69_separator.
Example C69_bad_cases : ∃ C : csvfs, C !! "n"%string = None ∧ (∀ c, csv_separator "ab" ≠ Ok c) ∧
  csv_node_iter TU32 t_string (Reader None "e" true false) C = Some [] ∧ csv_edge_iter TU32 t_string (Reader None "e" true false) C = Some [].
Proof. exists {["e"%string := [[":START_ID"; ":END_ID"; ":TYPE"]]%string]}. split; [done|]. split; [by vm_compute|]. done. Qed.
(** The option to renumber labels has no effect: they are not ordered by frequency. *)
Theorem C69_label_option_refuted : (∀ nodes edges out sep headers flexible directed reorder ord no eo C F,
    csv_to_static (CsArgs nodes edges out sep headers flexible directed reorder true) ord no eo C F =
    csv_to_static (CsArgs nodes edges out sep headers flexible directed reorder false) ord no eo C F) ∧
  ∃ a C ord no eo F' sg, ca_labels a = true ∧ csv_to_static a ord no eo C ∅ = Ok F' ∧
    import (c_sgraph TU32 TU32 c_text c_text) "g.static" F' = Some sg ∧ sg_labels sg = Some [0; 1; 0]%N ∧ sg_nlm sg = ["a"; "b"]%string.
Proof.
  split; [exact cs_label_option|]. destruct cs_labels as (F' & sg & H). exists (cs_arg true), cs_files, [5; 7; 9]%N, [0; 1]%N, [0]%N, F', sg. split; [done|exact H].
Qed.
Print Assumptions C69_label_option_refuted.

(** ** C70. static_to_csv, for graphs made by the API: the files read back as the graph. *)
Theorem C70_static_to_csv (h : list (gop string string)) nls els rs s : NoDup nls → NoDup els →
  spec_run h (s_init false nls els) = SOk (rs, s) → labels_fit TU32 (sp_nls s) → labels_fit TU32 (sp_els s) → Forall (in_type TU32) (h ≫= inserted) →
  vec_of text_fits (sp_nls s) → vec_of text_fits (sp_els s) → in_usize (a_num_nodes (sp_g s)) → in_usize (sp_count s) →
  ∃ g : graphmap string string, gm_run false TU32 h (gm_with_label_map nls els) = Ok (rs, g) ∧
    ∀ in_file out_dir ord ord' F C flexible, hash_order g ord → hash_order g ord' →
      Forall (λ l, l ≠ ""%string) (sp_nls s) → Forall (λ l, l ≠ ""%string) (sp_els s) →
      let nodes := path_join out_dir "nodes.csv" in let edges := path_join out_dir "edges.csv" in
      ∃ C' g', static_to_csv in_file out_dir ord (export in_file (enc (c_graphmap TU32 TU32 c_text c_text ord') g) F) C = Ok C' ∧
        (∀ p, p ≠ nodes → p ≠ edges → C' !! p = C !! p) ∧
        csv_read false TU32 TU32 t_string t_string (Reader (Some nodes) edges true flexible) C' gm_new = Ok (g', true) ∧
        ∀ o, hash_order g' o → shows (gm_view false o g') (sp_g s).
Proof. exact (to_csv h nls els rs s). Qed.
Print Assumptions C70_static_to_csv.
Example C70_case : spec_run ex_hist (s_init false [] []) = SOk (ex_outs, ex_state) ∧ labels_fit TU32 (sp_nls ex_state) ∧ labels_fit TU32 (sp_els ex_state) ∧
  Forall (in_type TU32) (ex_hist ≫= inserted) ∧ vec_of text_fits (sp_nls ex_state) ∧ vec_of text_fits (sp_els ex_state) ∧
  in_usize (a_num_nodes (sp_g ex_state)) ∧ in_usize (sp_count ex_state) ∧
  a_num_nodes (sp_g ex_state) = 6 ∧ sp_count ex_state = 2 ∧ a_num_edges (sp_g ex_state) = 2 ∧ a_links (sp_g ex_state) = 2 ∧ sp_max ex_state = Some 5%N ∧
  sp_nls ex_state = ["a"; "b"]%string ∧ sp_els ex_state = ["x"]%string.
Proof. exact ex_case. Qed.
Theorem C70_no_file in_file out_dir ord (F : fs) C : import (c_graphmap TU32 TU32 c_text c_text ord) in_file F = None → static_to_csv in_file out_dir ord F C = Panic.
Proof. intros H. unfold static_to_csv. by rewrite H. Qed.
Print Assumptions C70_no_file.

(** ** C71. remove_labels, static_to_mmap, stats. *)
Theorem C71_remove_labels dir (g : sgraph N N) in_file out_file F :
  typed_sgraph TU32 TU32 (in_type TU32) (in_type TU32) g → import c_u32_static in_file F = Some g →
  ∃ F' g', ex_remove_labels in_file out_file F = Ok F' ∧ (∀ p, p ≠ out_file → F' !! p = F !! p) ∧ import c_u32_static out_file F' = Some g' ∧
    let V := sg_view TU32 TU32 dir g in let W := sg_view TU32 TU32 dir g' in
    same_structure V W ∧ no_node_labels W ∧ no_edge_labels W.
Proof. exact (ex_remove dir g in_file out_file F). Qed.
Print Assumptions C71_remove_labels.
Theorem C71_static_to_mmap dir (g : sgraph N N) in_file out F : mappable TU32 TU32 (in_type TU32) (in_type TU32) dir g →
  import c_u32_static in_file F = Some g → fresh_prefix F out →
  ∃ F' m, static_to_mmap in_file out F = Ok F' ∧ mm_open TU32 TU32 (c_id TU32) (c_id TU32) F' out = Ok m ∧
    same_answers (sg_view TU32 TU32 dir g) (mm_view TU32 TU32 m).
Proof. exact (ex_mmap dir g in_file out F). Qed.
Print Assumptions C71_static_to_mmap.
Example C71_case : ∃ (g : sgraph N N) F, mappable TU32 TU32 (in_type TU32) (in_type TU32) false g ∧ import c_u32_static "g" F = Some g ∧ fresh_prefix F "out" ∧
  sg_nlm g = [7; 8]%N.
Proof.
  destruct vl_two as (g & A & ls & _ & _ & _ & _ & H5 & _ & H7 & _). exists g, (export "g" (enc c_u32_static g) ∅).
  split; [exact H5|]. split; [exact (vl_file g false H5)|]. split; [|exact H7]. by repeat constructor.
Qed.
Theorem C71_max_degree {NL EL} (V : gview NL EL) A n : represents V A → a_has_node A n →
  ∃ d, max_degree V = Ok d ∧ (∃ x, a_has_node A x ∧ a_out_degree A x = d) ∧ ∀ x, a_has_node A x → a_out_degree A x ≤ d.
Proof. exact (max_degree_spec V A n). Qed.
Print Assumptions C71_max_degree.
Theorem C71_max_degree_empty {NL EL} (V : gview NL EL) A : represents V A → a_num_nodes A = 0 → max_degree V = Panic.
Proof. exact (max_degree_empty V A). Qed.
Print Assumptions C71_max_degree_empty.
Theorem C71_no_file in_file out (F : fs) : import c_u32_static in_file F = None →
  ex_remove_labels in_file out F = Panic ∧ static_to_mmap in_file out F = Panic ∧ ∀ R, vary_labels R in_file out F = Panic.
Proof. intros H. unfold ex_remove_labels, static_to_mmap, vary_labels. by rewrite H. Qed.
Print Assumptions C71_no_file.

(** ** C72. vary_density, for graphs made by the API. [n] nodes, [m] edges according to edge_count().
    The graph for the j-th degree has what that degree and all before it want above [m]. *)
Theorem C72_files_partial (h : list (gop string string)) nls els rs s : NoDup nls → NoDup els →
  spec_run h (s_init false nls els) = SOk (rs, s) → labels_fit TU32 (sp_nls s) → labels_fit TU32 (sp_els s) → Forall (in_type TU32) (h ≫= inserted) →
  vec_of text_fits (sp_nls s) → vec_of text_fits (sp_els s) → in_usize (a_num_nodes (sp_g s)) → in_usize (sp_count s) →
  let n := a_num_nodes (sp_g s) in let m := sp_count s in
  ∀ R ord, (∀ g, hash_order g (ord g)) → ∀ in_graph name out_dir ord0 g, file_name in_graph name → gm_run false TU32 h (gm_with_label_map nls els) = Ok (rs, g) → hash_order g ord0 →
  n ≠ 0 → sp_max s = Some (N.of_nat (n - 1)) → ∀ fuel degrees F F', in_usize (m + added n m degrees) →
  let F0 := export in_graph (enc (c_graphmap TU32 TU32 c_text c_text ord0) g) F in
  vary_density fuel R ord in_graph out_dir degrees F0 = Ok F' →
  grows (λ c d B, ∃ g', import (c_graphmap TU32 TU32 c_text c_text []) (vd_path name out_dir n c d) F' = Some g' ∧
                    ∀ o, hash_order g' o → represents (gm_view false o g') B ∧ v_edge_count (gm_view false o g') = c) n m m (sp_g s) degrees ∧
  ∀ p, p ∉ outputs (vd_path name out_dir n) n m m degrees → F' !! p = F0 !! p.
Proof.
  intros H1 H2 H3 H4 H5 H6 H7 H8 H9 H10 n m R ord Hord in_graph name out_dir ord0 g Hname%file_name_is Hg Ho Hn Hmax fuel degrees F F'.
  exact (density_ok h nls els rs s H1 H2 H3 H4 H5 H6 H7 H8 H9 H10 R ord Hord in_graph out_dir ord0 g Hg Ho name Hname Hn Hmax fuel degrees F F').
Qed.
Print Assumptions C72_files_partial.
(** The name of an output file: last component of the input path, nodes, edges, degree. *)
Theorem C72_file_names name out_dir n m d :
  in_dir out_dir (name +:+ "_" +:+ show_uint (N.of_nat n) +:+ "_" +:+ show_uint (N.of_nat m) +:+ "_" +:+ show_uint (N.of_nat d) +:+ ".graphmap") (vd_path name out_dir n m d).
Proof. exact (join_in _ _). Qed.
Print Assumptions C72_file_names.
Example C72_file_names_case : file_name "data/graphs/dblp" "dblp" ∧ file_name "dblp/./" "dblp" ∧ vd_path "dblp" "out" 6 7 2 = "out/dblp_6_7_2.graphmap"%string ∧
  vd_path "dblp" "out/" 6 7 2 = "out/dblp_6_7_2.graphmap"%string ∧ ∀ path, path ≠ ""%string → ∃ name, file_name path name ∧ ∀ name', file_name path name' → name' = name.
Proof.
  assert (proper_name "dblp") as H by (split; [apply (bool_decide_unpack _); by vm_compute|done]).
  split; [exact (fn_in "data/graphs" _ H)|]. split; [exact (fn_slash _ _ (fn_dot _ _ (fn_slash _ _ (fn_plain _ H))))|]. split; [by vm_compute|]. split; [by vm_compute|].
  intros path Hp. destruct (file_name_exists path Hp) as [name Hn]. exists name. split; [exact Hn|]. intros name' Hn'. apply file_name_is in Hn, Hn'. congruence.
Qed.
(** One degree: exactly the edges that it wants. *)
Theorem C72_one_degree (h : list (gop string string)) nls els rs s : NoDup nls → NoDup els →
  spec_run h (s_init false nls els) = SOk (rs, s) → labels_fit TU32 (sp_nls s) → labels_fit TU32 (sp_els s) → Forall (in_type TU32) (h ≫= inserted) →
  vec_of text_fits (sp_nls s) → vec_of text_fits (sp_els s) → in_usize (a_num_nodes (sp_g s)) → in_usize (sp_count s) →
  let n := a_num_nodes (sp_g s) in
  ∀ R ord, (∀ g, hash_order g (ord g)) → ∀ in_graph name out_dir ord0 g, file_name in_graph name → gm_run false TU32 h (gm_with_label_map nls els) = Ok (rs, g) → hash_order g ord0 →
  n ≠ 0 → sp_max s = Some (N.of_nat (n - 1)) → sp_count s = a_num_edges (sp_g s) → ∀ fuel d F F', in_usize (wanted n d) →
  vary_density fuel R ord in_graph out_dir [d] (export in_graph (enc (c_graphmap TU32 TU32 c_text c_text ord0) g) F) = Ok F' →
  ∃ i g' B, denser i (sp_g s) B ∧ a_num_edges B = wanted n d ∧
    import (c_graphmap TU32 TU32 c_text c_text []) (vd_path name out_dir n (wanted n d) d) F' = Some g' ∧
    ∀ o, hash_order g' o → represents (gm_view false o g') B ∧ v_edge_count (gm_view false o g') = a_num_edges B.
Proof.
  intros H1 H2 H3 H4 H5 H6 H7 H8 H9 H10 n R ord Hord in_graph name out_dir ord0 g Hname%file_name_is Hg Ho Hn Hmax Hcnt fuel d F F' Hus Hv.
  exact (density_one h nls els rs s H1 H2 H3 H4 H5 H6 H7 H8 H9 H10 R ord Hord in_graph out_dir ord0 g Hg Ho name Hname Hn Hmax Hcnt fuel d F F' Hus Hv).
Qed.
Print Assumptions C72_one_degree.
(** With a fair generator the program ends if and only if every degree wants more than [m] edges and
    there is room for all of them. *)
Theorem C72_finishes (h : list (gop string string)) nls els rs s : NoDup nls → NoDup els →
  spec_run h (s_init false nls els) = SOk (rs, s) → labels_fit TU32 (sp_nls s) → labels_fit TU32 (sp_els s) → Forall (in_type TU32) (h ≫= inserted) →
  vec_of text_fits (sp_nls s) → vec_of text_fits (sp_els s) → in_usize (a_num_nodes (sp_g s)) → in_usize (sp_count s) →
  let n := a_num_nodes (sp_g s) in let m := sp_count s in
  ∀ R ord, (∀ g, hash_order g (ord g)) → ∀ in_graph name out_dir ord0 g, file_name in_graph name → gm_run false TU32 h (gm_with_label_map nls els) = Ok (rs, g) → hash_order g ord0 →
  n ≠ 0 → sp_max s = Some (N.of_nat (n - 1)) → ∀ degrees F, in_usize (m + added n m degrees) → fair R n →
  let F0 := export in_graph (enc (c_graphmap TU32 TU32 c_text c_text ord0) g) F in
  (∃ fuel F', ∀ more, vary_density (fuel + more) R ord in_graph out_dir degrees F0 = Ok F') ↔
  Forall (λ d, m < wanted n d) degrees ∧ 2 * (a_links (sp_g s) + added n m degrees) ≤ n * (n - 1).
Proof.
  intros H1 H2 H3 H4 H5 H6 H7 H8 H9 H10 n m R ord Hord in_graph name out_dir ord0 g Hname%file_name_is Hg Ho Hn Hmax degrees F Hus Hf F0.
  pose proof (density_room h nls els rs s H1 H2 H3 H4 H5 H6 H7 H8 H9 H10 R ord Hord in_graph out_dir ord0 g Hg Ho name Hname Hn Hmax) as Hroom.
  pose proof (density_mono h nls els rs s H1 H2 H3 H4 H5 H6 H7 H8 H9 H10 R ord Hord in_graph out_dir ord0 g Hg Ho name Hname Hn Hmax) as Hmono.
  split.
  - intros (fuel & F' & Hv). specialize (Hv 0). exact (Hroom _ degrees F F' Hus Hv).
  - intros [Hw Hr]. destruct (density_finishes h nls els rs s H1 H2 H3 H4 H5 H6 H7 H8 H9 H10 R ord Hord in_graph out_dir ord0 g Hg Ho name Hname Hn Hmax degrees F Hus Hw Hf Hr) as (fuel & F' & Hv).
    exists fuel, F'. intros more. apply (Hmono fuel (fuel + more) degrees F F'); [lia|exact Hv].
Qed.
Print Assumptions C72_finishes.
(** No room: it draws for ever, whatever the generator. *)
Theorem C72_never_ends_refuted (h : list (gop string string)) nls els rs s : NoDup nls → NoDup els →
  spec_run h (s_init false nls els) = SOk (rs, s) → labels_fit TU32 (sp_nls s) → labels_fit TU32 (sp_els s) → Forall (in_type TU32) (h ≫= inserted) →
  vec_of text_fits (sp_nls s) → vec_of text_fits (sp_els s) → in_usize (a_num_nodes (sp_g s)) → in_usize (sp_count s) →
  let n := a_num_nodes (sp_g s) in let m := sp_count s in
  ∀ R ord, (∀ g, hash_order g (ord g)) → ∀ in_graph name out_dir ord0 g, file_name in_graph name → gm_run false TU32 h (gm_with_label_map nls els) = Ok (rs, g) → hash_order g ord0 →
  n ≠ 0 → sp_max s = Some (N.of_nat (n - 1)) → ∀ fuel degrees F, in_usize (m + added n m degrees) → Forall (λ d, m < wanted n d) degrees →
  n * (n - 1) < 2 * (a_links (sp_g s) + added n m degrees) →
  vary_density fuel R ord in_graph out_dir degrees (export in_graph (enc (c_graphmap TU32 TU32 c_text c_text ord0) g) F) = NoFuel.
Proof.
  intros H1 H2 H3 H4 H5 H6 H7 H8 H9 H10 n m R ord Hord in_graph name out_dir ord0 g Hname%file_name_is Hg Ho Hn Hmax.
  exact (density_stuck h nls els rs s H1 H2 H3 H4 H5 H6 H7 H8 H9 H10 R ord Hord in_graph out_dir ord0 g Hg Ho name Hname Hn Hmax).
Qed.
Print Assumptions C72_never_ends_refuted.
(** Ids that are not 0..n-1: a panic. *)
Theorem C72_rejects (h : list (gop string string)) nls els rs s : NoDup nls → NoDup els →
  spec_run h (s_init false nls els) = SOk (rs, s) → labels_fit TU32 (sp_nls s) → labels_fit TU32 (sp_els s) → Forall (in_type TU32) (h ≫= inserted) →
  vec_of text_fits (sp_nls s) → vec_of text_fits (sp_els s) → in_usize (a_num_nodes (sp_g s)) → in_usize (sp_count s) →
  let n := a_num_nodes (sp_g s) in
  ∀ R ord, (∀ g, hash_order g (ord g)) → ∀ in_graph out_dir ord0 g, gm_run false TU32 h (gm_with_label_map nls els) = Ok (rs, g) → hash_order g ord0 →
  n = 0 ∨ sp_max s ≠ Some (N.of_nat (n - 1)) → ∀ fuel degrees F,
  vary_density fuel R ord in_graph out_dir degrees (export in_graph (enc (c_graphmap TU32 TU32 c_text c_text ord0) g) F) = Panic.
Proof.
  intros H1 H2 H3 H4 H5 H6 H7 H8 H9 H10 n R ord Hord in_graph out_dir ord0 g Hg Ho Hbad fuel degrees F.
  exact (density_rejects h nls els rs s H1 H2 H3 H4 H5 H6 H7 H8 H9 H10 R ord Hord in_graph out_dir ord0 g Hg Ho fuel degrees F Hbad).
Qed.
Print Assumptions C72_rejects.
Example C72_case : let n := a_num_nodes (sp_g ex_state) in let m := sp_count ex_state in
  gm_run false TU32 ex_hist (gm_with_label_map [] []) = Ok (ex_outs, ex_graph) ∧ n = 6 ∧ m = 2 ∧ sp_max ex_state = Some (N.of_nat (n - 1)) ∧
  (∃ R, fair R n) ∧ Forall (λ d, m < wanted n d) [1; 2] ∧ 2 * (a_links (sp_g ex_state) + added n m [1; 2]) ≤ n * (n - 1) ∧
  n * (n - 1) < 2 * (a_links (sp_g ex_state) + added n m [3; 4]) ∧ Forall (λ d, m < wanted n d) [3; 4].
Proof.
  assert (a_num_nodes (sp_g ex_state) = 6) as E by (by vm_compute). assert (sp_count ex_state = 2) as Ec by (by vm_compute).
  assert (a_links (sp_g ex_state) = 2) as El by (by vm_compute). cbv zeta.
  split; [exact ex_run|]. split; [exact E|]. split; [exact Ec|]. split; [by vm_compute|]. split; [exact fair_case|]. rewrite E, Ec, El.
  split; [by repeat constructor|]. split; [vm_compute; lia|]. split; [vm_compute; lia|]. repeat constructor; vm_compute; lia.
Qed.
(** The graph for a second degree has too many edges. *)
Theorem C72_second_refuted : let n := a_num_nodes (sp_g ex_state) in wanted n 1 = 3 ∧ wanted n 2 = 6 ∧
  ∃ R fuel F' B, vary_density fuel R the_order "g" "out" [1; 2] (export "g" (enc (c_graphmap TU32 TU32 c_text c_text (the_order ex_graph)) ex_graph) ∅) = Ok F' ∧
    (∃ g', import (c_graphmap TU32 TU32 c_text c_text []) (vd_path "g" "out" n 7 2) F' = Some g' ∧
       ∀ o, hash_order g' o → represents (gm_view false o g') B ∧ v_edge_count (gm_view false o g') = 7) ∧ a_num_edges B = 7.
Proof. exact second_wrong. Qed.
Print Assumptions C72_second_refuted.

(** ** C73. vary_labels: the draw for node [x] is the [x]-th one. *)
Theorem C73_vary_labels (R : rng) (g : sgraph N N) (A : agraph N N) ls in_file out_file F :
  arrays_of TU32 g A → ag_dir A = false → sg_labels g = Some ls → meaningful_labels (sg_nlm g) ls → typed_sgraph TU32 TU32 (in_type TU32) (in_type TU32) g →
  in_usize (length (sg_nlm g) + 4) → (csr_nodes (ev_offsets (sg_evec g)) < id_card TU32)%N → import c_u32_static in_file F = Some g →
  let draw x := rng_int R (N.to_nat x) mod 15 in
  let B := a_relabel (λ x l, if 10 <? draw x then added_labels (sg_nlm g) !! draw x else l) A in
  ∃ F' g', vary_labels R in_file out_file F = Ok F' ∧ (∀ p, p ≠ out_file → F' !! p = F !! p) ∧ import c_u32_static out_file F' = Some g' ∧
    represents (sg_view TU32 TU32 false g') B ∧ answers_missing (sg_view TU32 TU32 false g') B ∧ v_edge_count (sg_view TU32 TU32 false g') = sg_num_edges g.
Proof. intros H1 H2 H3 H4 H5 H6 H7 H8. exact (vary_thm R g A H1 H2 ls H3 H4 H5 in_file out_file F H6 H7 H8). Qed.
Print Assumptions C73_vary_labels.
(** With eleven other labels a node whose draw is above 10 gets it as its label ... *)
Theorem C73_eleven_partial (R : rng) (g : sgraph N N) (A : agraph N N) ls in_file out_file F :
  arrays_of TU32 g A → ag_dir A = false → sg_labels g = Some ls → meaningful_labels (sg_nlm g) ls → typed_sgraph TU32 TU32 (in_type TU32) (in_type TU32) g →
  (csr_nodes (ev_offsets (sg_evec g)) < id_card TU32)%N → import c_u32_static in_file F = Some g →
  length (sg_nlm g) = 11 → Forall (λ i, i ∉ sg_nlm g) [11; 12; 13; 14]%N →
  ∃ F' g', vary_labels R in_file out_file F = Ok F' ∧ import c_u32_static out_file F' = Some g' ∧
    represents (sg_view TU32 TU32 false g') (a_relabel (λ x l, new_label (rng_int R (N.to_nat x) mod 15) l) A).
Proof.
  intros H1 H2 H3 H4 H5 H7 H8 Hlen Hno. rewrite <-(eleven_relabel R (sg_nlm g) A Hlen Hno).
  destruct (vary_thm R g A H1 H2 ls H3 H4 H5 in_file out_file F) as (F' & g' & V1 & _ & V2 & V3 & _); [by rewrite Hlen|done|done|]. by exists F', g'.
Qed.
Print Assumptions C73_eleven_partial.
Example C73_case : ∃ (g : sgraph N N) A ls F, arrays_of TU32 g A ∧ ag_dir A = false ∧ sg_labels g = Some ls ∧ meaningful_labels (sg_nlm g) ls ∧
  typed_sgraph TU32 TU32 (in_type TU32) (in_type TU32) g ∧ (csr_nodes (ev_offsets (sg_evec g)) < id_card TU32)%N ∧ import c_u32_static "g" F = Some g ∧
  length (sg_nlm g) = 11 ∧ Forall (λ i, i ∉ sg_nlm g) [11; 12; 13; 14]%N ∧ a_num_nodes A = 11 ∧ a_num_edges A = 10.
Proof.
  destruct vl_case as (g & A & ls & H1 & H2 & H3 & H4 & H5 & H6 & H7 & H8). exists g, A, ls, (export "g" (enc c_u32_static g) ∅). rewrite H7 in *.
  do 4 (split; [assumption|]). split; [exact (mp_typed _ _ _ _ _ _ H5)|]. split; [assumption|]. split; [exact (vl_file g false H5)|]. split; [done|].
  split; [apply (bool_decide_unpack _); by vm_compute|exact H8].
Qed.
(** ... otherwise not. *)
Theorem C73_other_count_refuted : ∃ (g : sgraph N N) A R F F' g' V, arrays_of TU32 g A ∧ import c_u32_static "g" F = Some g ∧ vary_labels R "g" "out" F = Ok F' ∧
  import c_u32_static "out" F' = Some g' ∧ V = sg_view TU32 TU32 false g' ∧ rng_int R 0 mod 15 = 11 ∧ v_get_node V 0%N = Ok (Some (0, Some 11)%N) ∧
  v_node_label_map V = [7; 8; 11; 12; 13; 14]%N ∧ v_node_label V 0%N = Ok None.
Proof. exact vl_wrong. Qed.
Print Assumptions C73_other_count_refuted.
(** A graph without node labels: a panic. *)
Theorem C73_no_labels_refuted R (g : sgraph N N) in_file out_file F : sg_labels g = None → import c_u32_static in_file F = Some g →
  vary_labels R in_file out_file F = Panic.
Proof. exact (vary_no_labels R g in_file out_file F). Qed.
Print Assumptions C73_no_labels_refuted.

(** ** C74. ldbc_to_graphmap, for ids that begin with a digit: the file holds the import (C58). *)
Theorem C74_ldbc_to_graphmap files (fs : list fact) nls els : directory_facts scheme_init files = Some fs → (∀ e, e ∈ entities fs → numeric e.2) →
  (N.of_nat (length (remove_dups (entities fs))) ≤ id_card TU32)%N →
  node_labels fs ⊆ nls → edge_labels fs ⊆ els → labels_fit TU32 nls → labels_fit TU32 els →
  Forall text_fits nls → Forall text_fits els → in_usize (length (relations fs)) →
  ∃ g seen A, read_ldbc false TU32 files = Ok g ∧ import_of false fs seen A ∧
    (∀ o, hash_order g o → represents (gm_view false o g) A ∧ answers_missing (gm_view false o g) A ∧ v_edge_count (gm_view false o g) = length (relations fs)) ∧
    ∀ ldbc_dir name out_dir path ord F, hash_order g (ord g) → file_name ldbc_dir name →
      in_dir out_dir (name +:+ "_" +:+ show_uint (N.of_nat (length seen)) +:+ "_" +:+ show_uint (N.of_nat (length (relations fs))) +:+ ".graphmap") path →
      ∃ F', ldbc_to_graphmap ldbc_dir out_dir ord files F = Ok F' ∧ (∀ p, p ≠ path → F' !! p = F !! p) ∧
        ∀ o, import (c_graphmap TU32 TU32 c_text c_text o) path F' = Some g.
Proof.
  intros H1 H2 H3 H4 H5 H6 H7 H8 H9 H10. destruct (ldbc_thm files fs nls els H1 H2 H3 H4 H5 H6 H7 H8 H9 H10) as (g & seen & A & G1 & G2 & G3 & G4). exists g, seen, A.
  do 3 (split; [assumption|]). intros ldbc_dir name out_dir path ord F Ho Hn Hp. rewrite (join_unique _ _ _ Hp). exact (G4 ldbc_dir name out_dir ord F Ho (file_name_is _ _ Hn)).
Qed.
Print Assumptions C74_ldbc_to_graphmap.
Example C74_case : directory_facts scheme_init LdbcWit.dir_ex = Some LdbcWit.facts_ex ∧ (∀ e, e ∈ entities LdbcWit.facts_ex → numeric e.2) ∧
  (N.of_nat (length (remove_dups (entities LdbcWit.facts_ex))) ≤ id_card TU32)%N ∧
  node_labels LdbcWit.facts_ex ⊆ LdbcWit.nls_ex ∧ edge_labels LdbcWit.facts_ex ⊆ LdbcWit.els_ex ∧ Forall text_fits LdbcWit.nls_ex ∧ Forall text_fits LdbcWit.els_ex.
Proof.
  destruct LdbcWit.ldbc_case as (H1 & H2 & H3 & H4 & _ & _ & _ & H7 & _). split; [exact H1|]. split; [exact H2|]. split; [rewrite H7; by vm_compute|].
  split; [exact H3|]. split; [exact H4|]. split; apply (bool_decide_unpack _); by vm_compute.
Qed.
Theorem C74_failed_import ldbc_dir out_dir ord files F : directory_facts scheme_init files = None → ∀ F', ldbc_to_graphmap ldbc_dir out_dir ord files F ≠ Ok F'.
Proof.
  intros H F'. unfold ldbc_to_graphmap, read_ldbc. pose proof (LdbcThms.import_malformed false TU32 scheme_init files) as Hm.
  destruct (from_path false TU32 scheme_init files) as [[g|]| |] eqn:E; [|done..]. by destruct (Hm g H).
Qed.
Print Assumptions C74_failed_import.
