(** A directory for LdbcFrozen.v. *)
From stdpp Require Import gmap strings.
From Verif Require Import Base Api Bytes Spec Map GraphMap Serde SpecSerde Csv Ldbc SpecLdbc SpecLdbcMerge LdbcMerge SpecExamples Examples ExamplesWit.
Lemma frozen_case : directory_facts scheme_init dir_merge = Some facts_merge ∧ relations facts_merge ≠ [] ∧ entities facts_merge ≠ [] ∧
  (N.of_nat (length (remove_dups (entity_text <$> entities facts_merge))) ≤ id_max TU8)%N ∧
  node_labels (merged facts_merge) ⊆ ["tag"; "tagclass"]%string ∧ edge_labels facts_merge ⊆ ["hasType"; "isSubclassOf"]%string ∧
  Forall text_fits ["tag"; "tagclass"]%string ∧ Forall text_fits ["hasType"; "isSubclassOf"]%string ∧ in_usize (length (relations facts_merge)).
Proof.
  destruct merge_case as (M1 & _ & _ & M4 & M5 & _ & _ & M8 & _). split; [exact M1|]. split; [by vm_compute|]. split; [by vm_compute|].
  split; [rewrite M8; vm_compute; discriminate|]. split; [exact M4|]. split; [exact M5|].
  split; [apply (bool_decide_unpack _); by vm_compute|]. split; [apply (bool_decide_unpack _); by vm_compute|]. by vm_compute.
Qed.
