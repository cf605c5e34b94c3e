(** C58, C59, C66: LDBC import. Vocabulary: SpecLdbc.v (facts of a directory, import_of, unambiguous,
    repeated, node_file, relation_file), Spec.v (represents, answers_missing, exact_count, labels_fit). *)
From Coq Require Import Ascii.
From stdpp Require Import gmap strings.
From Verif Require Import Base Api Spec SpecOps Map GraphMap Csv Ldbc SpecLdbc LdbcThms LdbcWit.

(** ** C58. Any scheme; different entities must have different texts type ++ id. *)
Theorem C58_import_partial (dir : bool) (it : idty) (S : scheme) files fs nls els :
  directory_facts S files = Some fs → unambiguous fs → (N.of_nat (length (remove_dups (entities fs))) ≤ id_card it)%N →
  node_labels fs ⊆ nls → edge_labels fs ⊆ els → labels_fit it nls → labels_fit it els →
  ∃ g seen A, from_path dir it S files = Ok (Some g) ∧ import_of dir fs seen A ∧ ag_wf A ∧
    ∀ o, hash_order g o → let V := gm_view dir o g in
      represents V A ∧ answers_missing V A ∧ iterates V ∧ v_edge_count V = length (relations fs).
Proof. exact (import_ok dir it S files fs nls els). Qed.
Print Assumptions C58_import_partial.
(** read_ldbc_from_path: ids that begin with a digit are unambiguous. *)
Theorem C58_numeric (dir : bool) (it : idty) files fs nls els :
  directory_facts scheme_init files = Some fs → (∀ e, e ∈ entities fs → numeric e.2) →
  (N.of_nat (length (remove_dups (entities fs))) ≤ id_card it)%N →
  node_labels fs ⊆ nls → edge_labels fs ⊆ els → labels_fit it nls → labels_fit it els →
  ∃ g seen A, read_ldbc dir it files = Ok g ∧ import_of dir fs seen A ∧ ag_wf A ∧
    ∀ o, hash_order g o → let V := gm_view dir o g in
      represents V A ∧ answers_missing V A ∧ iterates V ∧ v_edge_count V = length (relations fs).
Proof.
  intros Hd Hn Hc H1 H2 H3 H4.
  destruct (import_ok dir it scheme_init files fs nls els Hd (numeric_unambiguous _ _ _ scheme_types Hd Hn) Hc H1 H2 H3 H4) as (g & seen & A & Hg & H).
  exists g, seen, A. split; [|exact H]. unfold read_ldbc. by rewrite Hg.
Qed.
Print Assumptions C58_numeric.
Example C58_case : directory_facts scheme_init dir_ex = Some facts_ex ∧ (∀ e, e ∈ entities facts_ex → numeric e.2) ∧
  node_labels facts_ex ⊆ nls_ex ∧ edge_labels facts_ex ⊆ els_ex ∧ labels_fit TU8 nls_ex ∧ labels_fit TU8 els_ex ∧
  (N.of_nat (length (remove_dups (entities facts_ex))) ≤ id_card TU8)%N ∧ length (remove_dups (entities facts_ex)) = 5 ∧
  relation_label false facts_ex ("person", "5")%string ("person", "0")%string = Some "knows"%string ∧
  entity_label facts_ex ("place", "0")%string = "town"%string ∧ entity_label facts_ex ("person", "5")%string = "person"%string.
Proof. exact ldbc_case. Qed.
(** More entities than ids: a panic. *)
Theorem C58_overflow (dir : bool) (it : idty) (S : scheme) files fs nls els :
  directory_facts S files = Some fs → unambiguous fs → it ≠ TUnit → (id_card it < N.of_nat (length (remove_dups (entities fs))))%N →
  node_labels fs ⊆ nls → edge_labels fs ⊆ els → labels_fit it nls → labels_fit it els → from_path dir it S files = Panic.
Proof. exact (import_overflow dir it S files fs nls els). Qed.
Print Assumptions C58_overflow.
Example C58_overflow_case : directory_facts scheme_init dir_big = Some facts_big ∧ unambiguous facts_big ∧
  (id_card TU8 < N.of_nat (length (remove_dups (entities facts_big))))%N ∧
  node_labels facts_big ⊆ nls_ex ∧ edge_labels facts_big ⊆ els_ex ∧ labels_fit TU8 nls_ex ∧ labels_fit TU8 els_ex.
Proof.
  destruct ldbc_big_case as (H1 & H2 & H3 & H4 & H5 & H6 & H7). split; [exact H1|].
  split; [exact (numeric_unambiguous _ _ _ scheme_types H1 H2)|]. split; [rewrite H7; reflexivity|]. exact (conj H3 (conj H4 (conj H5 H6))).
Qed.
(** A row with a wrong number of fields, or without a field that is needed: no graph. *)
Theorem C58_malformed (dir : bool) (it : idty) (S : scheme) files g : directory_facts S files = None → from_path dir it S files ≠ Ok (Some g).
Proof. exact (import_malformed dir it S files g). Qed.
Print Assumptions C58_malformed.
Example C58_malformed_case : directory_facts scheme_init dir_bad = None.
Proof. exact ldbc_bad_case. Qed.
(** The tag "class1" and the tag class "1" become one node. *)
Theorem C58_ambiguous_refuted : ∃ files, directory_facts scheme_init files = Some [FEdge ("tag", "class1") ("tagclass", "1") "hasType"]%string ∧
  ∀ dir, ∃ g, read_ldbc dir TU8 files = Ok g ∧ gm_node_count g = 1.
Proof. exists dir_amb. exact ldbc_ambiguous. Qed.
Print Assumptions C58_ambiguous_refuted.

(** ** C59. edge_count() is exact iff no relation is recorded twice. *)
Theorem C59_exact_partial (dir : bool) (it : idty) (S : scheme) files fs nls els :
  directory_facts S files = Some fs → unambiguous fs → (N.of_nat (length (remove_dups (entities fs))) ≤ id_card it)%N →
  node_labels fs ⊆ nls → edge_labels fs ⊆ els → labels_fit it nls → labels_fit it els →
  ∃ g A, from_path dir it S files = Ok (Some g) ∧ ∀ o, hash_order g o → let V := gm_view dir o g in
    represents V A ∧ v_edge_count V = length (relations fs) ∧ a_num_edges A ≤ v_edge_count V ∧ (exact_count V A ↔ ¬ repeated dir (relations fs)).
Proof.
  intros Hd Hu Hc H1 H2 H3 H4. destruct (import_ok dir it S files fs nls els Hd Hu Hc H1 H2 H3 H4) as (g & seen & A & Hg & Hi & Hw & H).
  exists g, A. split; [exact Hg|]. intros o Ho V. destruct (H o Ho) as (Hr & _ & _ & Hn). destruct (import_count dir fs seen A Hi Hw) as [Hle Hiff].
  split; [exact Hr|]. split; [exact Hn|]. unfold exact_count, V. rewrite Hn. split; [exact Hle|]. rewrite <-Hiff. done.
Qed.
Print Assumptions C59_exact_partial.
Example C59_exact_case : directory_facts scheme_init dir_ex = Some facts_ex ∧ unambiguous facts_ex ∧ ¬ repeated false (relations facts_ex) ∧
  length (relations facts_ex) = 5.
Proof. exact ldbc_exact_case. Qed.
(** The scheme lists two relations twice: their files make the count wrong, whatever they contain. *)
Theorem C59_twice_refuted (dir : bool) (it : idty) files fs nls els name t :
  directory_facts scheme_init files = Some fs → (∀ e, e ∈ entities fs → numeric e.2) → (N.of_nat (length (remove_dups (entities fs))) ≤ id_card it)%N →
  node_labels fs ⊆ nls → edge_labels fs ⊆ els → labels_fit it nls → labels_fit it els →
  (name, t) ∈ files → relation_file "forum_containerOf_post_" name ∨ relation_file "forum_hasModerator_person_" name → 1 < length t →
  ∃ g A, read_ldbc dir it files = Ok g ∧ ∀ o, hash_order g o → let V := gm_view dir o g in represents V A ∧ a_num_edges A < v_edge_count V.
Proof.
  intros Hd Hu Hc H1 H2 H3 H4 Hin Hm Ht.
  destruct (import_ok dir it scheme_init files fs nls els Hd (numeric_unambiguous _ _ _ scheme_types Hd Hu) Hc H1 H2 H3 H4) as (g & seen & A & Hg & Hi & Hw & H).
  destruct (import_count dir fs seen A Hi Hw) as [Hle Hiff]. exists g, A. split; [unfold read_ldbc; by rewrite Hg|]. intros o Ho V.
  destruct (H o Ho) as (Hr & _ & _ & Hn). split; [exact Hr|]. unfold V. rewrite Hn.
  assert (repeated dir (relations fs)); [|destruct (decide (a_num_edges A = length (relations fs))); [tauto|lia]].
  destruct Hm as [Hm|Hm]; (eapply scheme_twice; [| |exact Hin| |exact Ht]); [left; reflexivity|exact Hd|by apply match_anywhere_spec|right; reflexivity|exact Hd|by apply match_anywhere_spec].
Qed.
Print Assumptions C59_twice_refuted.
Example C59_twice_case : directory_facts scheme_init dir_twice = Some facts_twice ∧ (∀ e, e ∈ entities facts_twice → numeric e.2) ∧
  relation_file "forum_containerOf_post_" "forum_containerOf_post_0_0.csv" ∧ length (relations facts_twice) = 2.
Proof. exact ldbc_twice_case. Qed.

(** ** C66. Which files are read. *)
Theorem C66_node_files (nd : ldbc_node) name : ln_match nd name ↔ node_file (ln_file nd) name.
Proof. exact (match_here_spec (ln_file nd) name). Qed.
Print Assumptions C66_node_files.
Theorem C66_relation_files (rl : ldbc_relation) name : lr_match rl name ↔ relation_file (lr_file rl) name.
Proof. exact (match_anywhere_spec (lr_file rl) name). Qed.
Print Assumptions C66_relation_files.
Example C66_case : node_file "place_" "place_0_0.csv" ∧ ¬ node_file "place_" "person_isLocatedIn_place_0_0.csv" ∧
  relation_file "person_isLocatedIn_place_" "old_person_isLocatedIn_place_0_0.csv~".
Proof. exact ldbc_names_case. Qed.
(** Every relation of the scheme is read from the files named after it, from the first two columns;
    a node file is named after its type. *)
Theorem C66_scheme_relations rl : rl ∈ sc_relations scheme_init →
  lr_file rl = (lr_start rl +:+ "_" +:+ lr_edge rl +:+ "_" +:+ lr_target rl +:+ "_")%string ∧ lr_start_id rl = 0 ∧ lr_target_id rl = 1.
Proof. exact (ldbc_scheme_relations rl). Qed.
Print Assumptions C66_scheme_relations.
Theorem C66_scheme_nodes nd : nd ∈ sc_nodes scheme_init → ln_file nd = (ln_name nd +:+ "_")%string ∧ ln_id nd = 0 ∧
  (ln_name nd = "organisation"%string ∧ ln_label nd = 1 ∨ ln_name nd = "place"%string ∧ ln_label nd = 3).
Proof. exact (ldbc_scheme_nodes nd). Qed.
Print Assumptions C66_scheme_nodes.
(** The relations are those of the social network, and no others. *)
Theorem C66_scheme_complete s r t : in_schema s r t ↔
  ∃ rl, rl ∈ sc_relations scheme_init ∧ lr_start rl = s ∧ lr_edge rl = r ∧ lr_target rl = t.
Proof. exact (ldbc_scheme_complete s r t). Qed.
Print Assumptions C66_scheme_complete.
Example C66_scheme_case : length (sc_relations scheme_init) = 25 ∧ length (remove_dups (lr_file <$> sc_relations scheme_init)) = 23 ∧
  (ln_name <$> sc_nodes scheme_init) = ["organisation"; "place"]%string ∧ (ln_label <$> sc_nodes scheme_init) = [1; 3].
Proof. by vm_compute. Qed.
