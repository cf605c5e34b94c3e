(** C125: the ids LDBC import gives out. Vocabulary: SpecLdbc.v (facts of a directory, import_of),
    SpecLdbcMerge.v (merged, entity_text), SpecLdbcIds.v (by_first_mention), Spec.v (represents). *)
From stdpp Require Import gmap strings.
From Verif Require Import Base Api Spec Map GraphMap Csv Ldbc SpecLdbc SpecLdbcMerge SpecLdbcIds LdbcMerge LdbcIds.

(** ** C125. Node i is the i-th entity in the order of first mention, and there is only one such order. *)
Theorem C125_ids (dir : bool) (it : idty) (S : scheme) files fs nls els : directory_facts S files = Some fs →
  (N.of_nat (length (remove_dups (entity_text <$> entities fs))) ≤ id_card it)%N →
  node_labels (merged fs) ⊆ nls → edge_labels fs ⊆ els → labels_fit it nls → labels_fit it els →
  ∃ g seen A, from_path dir it S files = Ok (Some g) ∧ import_of dir (merged fs) seen A ∧ by_first_mention (entities (merged fs)) seen ∧
    (∀ seen', NoDup seen' → (∀ e, e ∈ seen' ↔ e ∈ entities (merged fs)) → by_first_mention (entities (merged fs)) seen' → seen' = seen) ∧
    ∀ o, hash_order g o → represents (gm_view dir o g) A.
Proof. exact (ids_ok dir it S files fs nls els). Qed.
Print Assumptions C125_ids.
Example C125_ids_case : directory_facts scheme_init dir_merge = Some facts_merge ∧
  by_first_mention (entities (merged facts_merge)) [("tag", "class1"); ("tag", "5"); ("tagclass", "2"); ("tagclass", "class1")]%string ∧
  node_labels (merged facts_merge) ⊆ ["tag"; "tagclass"]%string ∧ edge_labels facts_merge ⊆ ["hasType"; "isSubclassOf"]%string ∧
  labels_fit TU8 ["tag"; "tagclass"]%string ∧ labels_fit TU8 ["hasType"; "isSubclassOf"]%string ∧
  (N.of_nat (length (remove_dups (entity_text <$> entities facts_merge))) ≤ id_card TU8)%N.
Proof. exact ids_case. Qed.
