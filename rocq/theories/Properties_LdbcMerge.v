(** C58, C59 without the assumption that different entities have different texts. *)
From stdpp Require Import gmap strings.
From Verif Require Import Base Api Spec Map GraphMap Csv Ldbc SpecLdbc SpecLdbcMerge LdbcMerge.

(** ** C58, C59. Any directory: entities whose texts type ++ id are equal are one node, labelled
    by the last node record of any of them or else by the type of the first; edge_count() is the number of relation records, and is exact iff no two records
    join the same two nodes. *)
Theorem C58_exact (dir : bool) (it : idty) (S : scheme) files fs nls els : directory_facts S files = Some fs →
  (N.of_nat (length (remove_dups (entity_text <$> entities fs))) ≤ id_card it)%N →
  node_labels (merged fs) ⊆ nls → edge_labels fs ⊆ els → labels_fit it nls → labels_fit it els →
  ∃ g seen A, from_path dir it S files = Ok (Some g) ∧ import_of dir (merged fs) seen A ∧ ag_wf A ∧
    ∀ o, hash_order g o → let V := gm_view dir o g in
      represents V A ∧ answers_missing V A ∧ iterates V ∧ v_edge_count V = length (relations fs) ∧
      (exact_count V A ↔ ¬ repeated dir (relations (merged fs))).
Proof. exact (merge_ok dir it S files fs nls els). Qed.
Print Assumptions C58_exact.
(** Two different relations can be one edge, recorded twice, when their ends share their texts. *)
Theorem C59_exact (dir : bool) (it : idty) (S : scheme) files fs nls els : directory_facts S files = Some fs →
  (N.of_nat (length (remove_dups (entity_text <$> entities fs))) ≤ id_card it)%N →
  node_labels (merged fs) ⊆ nls → edge_labels fs ⊆ els → labels_fit it nls → labels_fit it els →
  ∃ g A, from_path dir it S files = Ok (Some g) ∧ ∀ o, hash_order g o → let V := gm_view dir o g in
    represents V A ∧ v_edge_count V = length (relations fs) ∧ (exact_count V A ↔ ¬ repeated dir (relations (merged fs))).
Proof.
  intros H1 H2 H3 H4 H5 H6. destruct (merge_ok dir it S files fs nls els H1 H2 H3 H4 H5 H6) as (g & seen & A & Hg & _ & _ & H).
  exists g, A. split; [exact Hg|]. intros o Ho. destruct (H o Ho) as (R1 & _ & _ & R2 & R3). exact (conj R1 (conj R2 R3)).
Qed.
Print Assumptions C59_exact.
(** More texts than ids: a panic. *)
Theorem C58_exact_overflow (dir : bool) (it : idty) (S : scheme) files fs nls els : directory_facts S files = Some fs → it ≠ TUnit →
  (id_card it < N.of_nat (length (remove_dups (entity_text <$> entities fs))))%N →
  node_labels (merged fs) ⊆ nls → edge_labels fs ⊆ els → labels_fit it nls → labels_fit it els → from_path dir it S files = Panic.
Proof. exact (merge_overflow dir it S files fs nls els). Qed.
Print Assumptions C58_exact_overflow.
(** What merging does: entities become the same one iff their texts are equal, and nothing changes
    when different entities have different texts. *)
Theorem C58_merged fs :
  (∀ e e', e ∈ entities fs → e' ∈ entities fs → (first_with (entities fs) e = first_with (entities fs) e' ↔ entity_text e = entity_text e')) ∧
  (∀ e, e ∈ entities fs → first_with (entities fs) e ∈ entities fs) ∧
  (unambiguous fs → merged fs = fs) ∧ unambiguous (merged fs).
Proof. exact (merged_facts fs). Qed.
Print Assumptions C58_merged.
(** Five entities with four texts, no relation recorded twice, but one edge recorded twice. *)
Example C58_exact_case : directory_facts scheme_init dir_merge = Some facts_merge ∧ ¬ unambiguous facts_merge ∧
  merged facts_merge = [ FEdge ("tag", "class1") ("tag", "class1") "hasType"; FEdge ("tag", "5") ("tag", "class1") "hasType";
    FEdge ("tag", "class1") ("tagclass", "2") "hasType"; FEdge ("tag", "5") ("tagclass", "class1") "hasType";
    FEdge ("tag", "class1") ("tagclass", "2") "isSubclassOf" ]%string ∧
  node_labels (merged facts_merge) ⊆ ["tag"; "tagclass"]%string ∧ edge_labels facts_merge ⊆ ["hasType"; "isSubclassOf"]%string ∧
  labels_fit TU8 ["tag"; "tagclass"]%string ∧ labels_fit TU8 ["hasType"; "isSubclassOf"]%string ∧
  length (remove_dups (entity_text <$> entities facts_merge)) = 4 ∧ length (remove_dups (entities facts_merge)) = 5 ∧
  ¬ repeated true (relations facts_merge) ∧ repeated true (relations (merged facts_merge)).
Proof. exact merge_case. Qed.
