(** C100, C101: the order in which an LDBC directory is listed, and LDBC directories of text files.
    Vocabulary: SpecLdbc.v, SpecReorder.v (renames), SpecLdbcOrder.v (one_label, renames_edges),
    SpecCsvText.v (plain, lines), SpecLdbcText.v (plain_file, file_text, file_rows). *)
From Coq Require Import Ascii.
From stdpp Require Import gmap strings.
From Verif Require Import Base Api Spec SpecOps SpecReorder Map GraphMap Csv Ldbc SpecLdbc LdbcThms CsvText SpecCsvText CsvTextProps LdbcText SpecLdbcText
  SpecLdbcOrder LdbcOrder LdbcTextProps LdbcOrderWit.

(** ** C100. The operating system lists the files of a directory in any order. The imports are the
    same up to the numbers of the nodes: the edges and their labels always, the labels of the nodes
    if no entity has two records with different labels. *)
Theorem C100_listing_order (dir : bool) (it : idty) (S : scheme) files files' fs nls els : files' ≡ₚ files →
  directory_facts S files = Some fs → unambiguous fs → (N.of_nat (length (remove_dups (entities fs))) ≤ id_card it)%N →
  node_labels fs ⊆ nls → edge_labels fs ⊆ els → labels_fit it nls → labels_fit it els →
  ∃ g g' A A' f, from_path dir it S files = Ok (Some g) ∧ from_path dir it S files' = Ok (Some g') ∧
    renames_edges f A A' ∧ (one_label fs → renames f A A') ∧
    ∀ o o', hash_order g o → hash_order g' o' → let V := gm_view dir o g in let V' := gm_view dir o' g' in
      represents V A ∧ represents V' A' ∧ v_node_count V' = v_node_count V ∧ v_edge_count V' = v_edge_count V.
Proof. exact (listing_order dir it S files files' fs nls els). Qed.
Print Assumptions C100_listing_order.
Example C100_case : Permutation (reverse dir_one) dir_one ∧ directory_facts scheme_init dir_one = Some facts_one ∧ unambiguous facts_one ∧
  (N.of_nat (length (remove_dups (entities facts_one))) ≤ id_card TU8)%N ∧ one_label facts_one ∧
  node_labels facts_one ⊆ nls_one ∧ edge_labels facts_one ⊆ els_one ∧ labels_fit TU8 nls_one ∧ labels_fit TU8 els_one ∧
  relation_label true facts_one ("person", "5")%string ("organisation", "0")%string = Some "workAt"%string ∧
  directory_facts scheme_init (reverse dir_one) ≠ Some facts_one.
Proof. exact order_case. Qed.
(** A directory that gives no graph gives none in any order. *)
Theorem C100_malformed (dir : bool) (it : idty) (S : scheme) files files' g : files' ≡ₚ files → directory_facts S files = None →
  from_path dir it S files' ≠ Ok (Some g).
Proof.
  intros Hp Hd. apply import_malformed. destruct (directory_facts S files') as [fs|] eqn:E; [|done].
  destruct (facts_malformed S files' files fs (symmetry Hp) E Hd).
Qed.
Print Assumptions C100_malformed.
(** An entity with two labels gets that of the file listed last. *)
Theorem C100_two_labels_refuted : ∃ files files', files' ≡ₚ files ∧ ∀ dir, ∃ g g', read_ldbc dir TU8 files = Ok g ∧ read_ldbc dir TU8 files' = Ok g' ∧
  ∀ o o', v_node_label (gm_view dir o g) 0 = Ok (Some "town"%string) ∧ v_node_label (gm_view dir o' g') 0 = Ok (Some "city"%string).
Proof. exists dir_two, (reverse dir_two). split; [by rewrite reverse_Permutation|exact order_two]. Qed.
Print Assumptions C100_two_labels_refuted.

(** ** C101. Files of lines without quotes: the graph is that of the lines, whatever their ends;
    empty lines do not matter. *)
Theorem C101_lines (dir : bool) (it : idty) (files : list line_file) fs nls els : Forall (plain_file "|") files →
  directory_facts scheme_init (file_rows <$> files) = Some fs → (∀ e, e ∈ entities fs → numeric e.2) →
  (N.of_nat (length (remove_dups (entities fs))) ≤ id_card it)%N →
  node_labels fs ⊆ nls → edge_labels fs ⊆ els → labels_fit it nls → labels_fit it els →
  ∃ g seen A, read_ldbc_text dir it (file_text "|" <$> files) = Ok g ∧ import_of dir fs seen A ∧ ag_wf A ∧
    ∀ o, hash_order g o → let V := gm_view dir o g in
      represents V A ∧ answers_missing V A ∧ iterates V ∧ v_edge_count V = length (relations fs).
Proof.
  intros Hf Hd Hn Hc H1 H2 H3 H4.
  destruct (import_ok dir it scheme_init _ fs nls els Hd (numeric_unambiguous _ _ _ scheme_types Hd Hn) Hc H1 H2 H3 H4) as (g & seen & A & Hg & H).
  exists g, seen, A. split; [|exact H]. unfold read_ldbc_text, from_path_text. rewrite (as_records_lines "|" files) by done. by rewrite Hg.
Qed.
Print Assumptions C101_lines.
Example C101_case : Forall (plain_file "|") text_dir ∧ directory_facts scheme_init (file_rows <$> text_dir) = Some text_facts ∧
  (∀ e, e ∈ entities text_facts → numeric e.2) ∧ (N.of_nat (length (remove_dups (entities text_facts))) ≤ id_card TU8)%N ∧
  node_labels text_facts ⊆ ["city"; "person"]%string ∧ edge_labels text_facts ⊆ ["knows"]%string ∧
  (file_text "|" <$> text_dir) !! 1 = Some ("place_0_0.csv", "id|name|url|type" +:+ lf +:+ "0|X, Y||city" +:+ lf)%string.
Proof. exact text_case. Qed.
(** Files with quoted fields, as the csv crate writes them: any scheme, any usual separator. *)
Theorem C101_quoted (dir : bool) (it : idty) (S : scheme) (sep : ascii) (files : list (string * table)) : usual sep →
  Forall (λ f, Forall (λ r, r ≠ []) f.2) files →
  from_path_text dir it S sep ((λ f, (f.1, table_text sep f.2)) <$> files) = from_path dir it S files.
Proof. intros Hs Hf. unfold from_path_text. by rewrite as_records_written. Qed.
Print Assumptions C101_quoted.
(** An id with a quote in front that is never closed takes the rest of the file, here [s], as
    its text: the relations that follow are lost and nothing is reported. *)
Theorem C101_open_quote_refuted header rows x s :
  Forall (λ p, plain "|" p.1 ∧ plain "|" p.2) (header :: rows) → plain "|" x → ¬ has_char "034" s →
  directory_facts scheme_init (as_records "|" [("person_knows_person_0_0.csv"%string,
    lines "|" ((λ p, ([p.1; p.2], String "010" "")) <$> header :: rows) +:+ joined "|" [x; String "034" s])]) =
  Some ((λ p : string * string, FEdge ("person", p.1) ("person", p.2) "knows")%string <$> rows ++ [(x, s)]).
Proof. exact (open_relation header rows x s). Qed.
Print Assumptions C101_open_quote_refuted.
Example C101_open_quote_case : Forall (λ p, plain "|" p.1 ∧ plain "|" p.2) [("Person.id", "Person.id"); ("1", "2")]%string ∧ plain "|" "3" ∧
  ¬ has_char "034" ("4" +:+ lf +:+ "5|6" +:+ lf)%string.
Proof. exact open_case. Qed.
