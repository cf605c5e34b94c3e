(** C124: LDBC directories imported, frozen and mapped. Vocabulary: SpecLdbc.v (facts of a directory,
    import_of), SpecLdbcMerge.v (merged, entity_text), Spec.v (represents, answers_missing),
    SpecMmap.v (fresh_prefix), SpecExamples.v (text_fits), SpecSerde.v (in_usize). *)
From stdpp Require Import gmap strings.
From Verif Require Import Base Api Bytes Spec SpecStatic SpecSGraph Map GraphMap Static IntoStatic Serde SpecSerde Mmap SpecMmap Csv Ldbc SpecLdbc SpecLdbcMerge
  SpecExamples Examples LdbcMerge LdbcFrozen LdbcFrozenWit.

(** ** C124. The static graph of an imported directory. *)
Theorem C124_frozen (dir : bool) (it : idty) (S : scheme) files fs nls els : directory_facts S files = Some fs → entities fs ≠ [] →
  (N.of_nat (length (remove_dups (entity_text <$> entities fs))) ≤ id_max it)%N →
  node_labels (merged fs) ⊆ nls → edge_labels fs ⊆ els → (N.of_nat (length nls) ≤ id_max it)%N → (N.of_nat (length els) ≤ id_max it)%N →
  ∃ g seen A sg, from_path dir it S files = Ok (Some g) ∧ import_of dir (merged fs) seen A ∧ gm_into_static it it dir g = Ok sg ∧
    let W := sg_view it it dir sg in represents W A ∧ answers_missing W A ∧ v_edge_count W = length (relations fs).
Proof.
  intros H1 H2 H3 H4 H5 H6 H7. destruct (ldbc_frozen dir it S files fs nls els H1 H2 H3 H4 H5 H6 H7) as (g & seen & A & sg & R1 & R2 & R3 & R4 & R5 & R6 & _).
  exists g, seen, A, sg. exact (conj R1 (conj R2 (conj R3 (conj R4 (conj R5 R6))))).
Qed.
Print Assumptions C124_frozen.
(** Saved with Serializer and loaded with Deserializer, it is the same static graph; dumped for
    memory mapping and opened, it is the same graph with the same edge count. *)
Theorem C124_mapped (dir : bool) (it : idty) (S : scheme) files fs nls els : directory_facts S files = Some fs → relations fs ≠ [] →
  (N.of_nat (length (remove_dups (entity_text <$> entities fs))) ≤ id_max it)%N →
  node_labels (merged fs) ⊆ nls → edge_labels fs ⊆ els → (N.of_nat (length nls) ≤ id_max it)%N → (N.of_nat (length els) ≤ id_max it)%N →
  Forall text_fits nls → Forall text_fits els → in_usize (length (relations fs)) →
  ∃ g seen A sg, from_path dir it S files = Ok (Some g) ∧ import_of dir (merged fs) seen A ∧ gm_into_static it it dir g = Ok sg ∧
    (in_usize (Datatypes.S (length seen) * length seen) →
     (∀ path F, import (c_sgraph it it c_text c_text) path (export path (enc (c_sgraph it it c_text c_text) sg) F) = Some sg) ∧
     ∀ p F, fresh_prefix F p → ∃ m, mm_open it it c_text c_text (sg_dump_mmap it it c_text c_text sg p F) p = Ok m ∧
       represents (mm_view it it m) A ∧ v_edge_count (mm_view it it m) = length (relations fs)).
Proof. exact (ldbc_mapped dir it S files fs nls els). Qed.
Print Assumptions C124_mapped.
Example C124_case : directory_facts scheme_init dir_merge = Some facts_merge ∧ relations facts_merge ≠ [] ∧ entities facts_merge ≠ [] ∧
  (N.of_nat (length (remove_dups (entity_text <$> entities facts_merge))) ≤ id_max TU8)%N ∧
  node_labels (merged facts_merge) ⊆ ["tag"; "tagclass"]%string ∧ edge_labels facts_merge ⊆ ["hasType"; "isSubclassOf"]%string ∧
  Forall text_fits ["tag"; "tagclass"]%string ∧ Forall text_fits ["hasType"; "isSubclassOf"]%string ∧ in_usize (length (relations facts_merge)).
Proof. exact frozen_case. Qed.
