(** LDBC directories imported, frozen and mapped. *)
From Coq Require Import Ascii.
From stdpp Require Import gmap strings.
From Verif Require Import Base BaseFacts Api Bytes Spec SpecFacts SpecOps SpecStatic SpecSGraph Map GraphMap GraphMapFacts GraphMapRefine GraphMapSim GraphMapThms
  ViewFacts Static StaticFacts IntoStatic GraphOpsFacts GraphOpsProps Serde SpecSerde SerdeFacts Mmap SpecMmap Csv CsvFacts Ldbc SpecLdbc SpecLdbcMerge LdbcFacts LdbcProps
  LdbcThms LdbcMerge Pipeline StaticProps SpecExamples Examples ExamplesFacts.

Lemma merged_edge_labels fs : edge_labels (merged fs) = edge_labels fs.
Proof.
  unfold merged. generalize (first_with (entities fs)) as r. intros r. induction fs as [|f fs IH]; [done|].
  cbn [fmap list_fmap]. unfold edge_labels in *. cbn [omap list_omap]. rewrite IH. by destruct f.
Qed.
Lemma relation_entities fs s t : (s, t) ∈ relations fs → s ∈ entities fs ∧ t ∈ entities fs.
Proof.
  intros Hin. unfold relations in Hin. apply elem_of_list_omap in Hin as ([e l|s' t' l] & Hin & [= -> ->]).
  unfold entities. split; apply elem_of_list_bind; eexists; (split; [|exact Hin]); cbn; set_solver.
Qed.
Lemma relation_labelled dir fs s t : (s, t) ∈ relations fs → is_Some (relation_label dir fs s t).
Proof.
  induction fs as [|f fs IH] using rev_ind; [by intros ?%elem_of_nil|]. unfold relations. rewrite omap_app. intros [H|H]%elem_of_app.
  - destruct f as [e l|s' t' l]; [rewrite relation_label_snoc_node|rewrite relation_label_snoc_edge; case_decide; [done|]]; by apply IH.
  - destruct f as [e l|s' t' l]; cbn in H; [by apply elem_of_nil in H|]. apply elem_of_list_singleton in H as [= -> ->].
    rewrite relation_label_snoc_edge, decide_True by (by left). done.
Qed.
Lemma import_edge dir fs seen A s t : import_of dir fs seen A → (s, t) ∈ relations fs → ∃ a b, a_has_edge A a b.
Proof.
  intros Hio Hst. destruct (relation_entities _ _ _ Hst) as [Hs Ht].
  apply (io_entities _ _ _ _ Hio), elem_of_list_lookup in Hs as [i Hi]. apply (io_entities _ _ _ _ Hio), elem_of_list_lookup in Ht as [j Hj].
  exists (N.of_nat i), (N.of_nat j). unfold a_has_edge. rewrite (io_edges _ _ _ _ Hio i j s t Hi Hj).
  destruct (relation_labelled dir fs s t Hst) as [l ->]. by eexists.
Qed.
Section frozen.
  Context (dir : bool) (it : idty).
  Lemma ldbc_frozen S files fs nls els : directory_facts S files = Some fs → entities fs ≠ [] →
    (N.of_nat (length (remove_dups (entity_text <$> entities fs))) ≤ id_max it)%N →
    node_labels (merged fs) ⊆ nls → edge_labels fs ⊆ els → (N.of_nat (length nls) ≤ id_max it)%N → (N.of_nat (length els) ≤ id_max it)%N →
    ∃ g seen A sg, from_path dir it S files = Ok (Some g) ∧ import_of dir (merged fs) seen A ∧ gm_into_static it it dir g = Ok sg ∧
      let W := sg_view it it dir sg in represents W A ∧ answers_missing W A ∧ v_edge_count W = length (relations fs) ∧
      (Forall text_fits nls → Forall text_fits els → in_usize (length (relations fs)) → in_usize (Datatypes.S (length seen) * length seen) →
       (∀ path F, import (c_sgraph it it c_text c_text) path (export path (enc (c_sgraph it it c_text c_text) sg) F) = Some sg) ∧
       (relations fs ≠ [] → ∀ p F, fresh_prefix F p →
         ∃ m, mm_open it it c_text c_text (sg_dump_mmap it it c_text c_text sg p F) p = Ok m ∧ represents (mm_view it it m) A ∧
           v_edge_count (mm_view it it m) = length (relations fs))).
  Proof.
    intros Hd Hne Hc Hn He HN HE. rewrite <-merged_texts in Hc. rewrite <-merged_edge_labels in He.
    assert (labels_fit it nls ∧ labels_fit it els) as [HN' HE'] by (unfold labels_fit, id_max in *; lia).
    assert (length (relations (merged fs)) = length (relations fs)) as Hlen by (by rewrite merged_relations, fmap_length).
    pose proof (merged_unambiguous fs) as Hu.
    destruct (run_ok dir it nls els (entities (merged fs)) HN' HE' Hu (merged fs) [] [] (gm_new, ∅) (s_init dir [] [])) as ([g m] & s & Hr & H).
    { by apply (inv_init dir it). } { done. } { by apply facts_labelled. } { rewrite firsts_distinct. unfold id_max in Hc. lia. }
    rewrite app_nil_l in H. set (seen := firsts [] (entities (merged fs))) in *.
    assert (import_of dir (merged fs) seen (sp_g s)) as Hio.
    { split; [apply H|apply H| |apply H|apply H|apply H]. intros e. unfold seen. rewrite firsts_elem, elem_of_nil. naive_solver. }
    assert (length seen = length (remove_dups (entities (merged fs)))) as Hls by (unfold seen; by rewrite firsts_distinct).
    assert (a_num_nodes (sp_g s) = length seen) as Hsz.
    { unfold a_num_nodes. apply size_below. intros x. exact (i_nodes _ _ _ _ _ _ _ _ H x). }
    assert (entities (merged fs) ≠ []) as Hne'.
    { intros E. assert (length (remove_dups (entity_text <$> entities fs)) = 0) as E' by (rewrite <-merged_texts, E; done).
      destruct (entities fs) as [|e es]; [done|]. apply nil_length_inv in E'.
      assert (entity_text e ∈ remove_dups (entity_text <$> (e :: es))) as Hin by (apply elem_of_remove_dups; left). rewrite E' in Hin. by apply elem_of_nil in Hin. }
    assert (0 < length seen) as Hpos.
    { destruct (entities (merged fs)) as [|e es] eqn:E; [done|]. assert (e ∈ seen) as Hin by (apply (io_entities _ _ _ _ Hio); rewrite E; left).
      destruct seen; [by apply elem_of_nil in Hin|cbn; lia]. }
    pose proof (i_rel _ _ _ _ _ _ _ _ H) as Hrel. cbn [fst] in Hrel. destruct (i_within _ _ _ _ _ _ _ _ H) as (W1 & W2 & W3 & W4).
    assert (length (sp_nls s) ≤ length nls) as L1 by (by apply submseteq_length, NoDup_submseteq).
    assert (length (sp_els s) ≤ length els) as L2 by (by apply submseteq_length, NoDup_submseteq).
    destruct (static_stage dir it it c_text c_text text_fits text_fits f_text f_text g s 0%N Hrel) as (sg & Hsg & R1 & R2 & R3 & _ & _ & R6).
    { apply (i_nodes _ _ _ _ _ _ _ _ H). lia. }
    { intros x y Hx Hy. apply (i_nodes _ _ _ _ _ _ _ _ H). apply (i_nodes _ _ _ _ _ _ _ _ H) in Hx. lia. }
    { rewrite Hsz. lia. } { lia. } { lia. }
    rewrite (i_count _ _ _ _ _ _ _ _ H), Hlen in R3, R6.
    exists g, seen, (sp_g s), sg. split; [by rewrite (from_path_merged dir it S files fs), Hr|]. split; [exact Hio|]. split; [exact Hsg|].
    cbv zeta. split; [exact R1|]. split; [exact R2|]. split; [exact R3|]. intros P1 P2 P3 P4. rewrite Hsz in R6.
    assert (∀ l k : list string, length l ≤ length k → l ⊆ k → (N.of_nat (length k) ≤ id_max it)%N → Forall text_fits k → vec_of text_fits l) as Hvec.
    { intros l k L Hs Hk Hf. split; [unfold in_usize; change (id_card TUsize) with 18446744073709551616%N; assert (id_max it ≤ 18446744073709551615)%N by (destruct it; vm_compute; discriminate); lia|].
      apply Forall_forall. intros x Hx. by apply (proj1 (Forall_forall _ _) Hf), Hs. }
    destruct R6 as [R6 R7]; [by apply (Hvec _ nls)|by apply (Hvec _ els)|done|done|]. split; [exact R6|].
    intros Hr0 p F Hf. assert (∃ x y, (x, y) ∈ relations (merged fs)) as (x & y & Hxy).
    { destruct (relations (merged fs)) as [|[x y] rs]; [destruct (relations fs); done|]. exists x, y. left. }
    destruct (import_edge _ _ _ _ x y Hio Hxy) as (a & b & Hab).
    destruct (R7 a b p F Hab Hf) as (mm & Hm & Hm1 & Hm2 & _). by exists mm.
  Qed.
End frozen.
Lemma ldbc_mapped dir it S files fs nls els : directory_facts S files = Some fs → relations fs ≠ [] →
  (N.of_nat (length (remove_dups (entity_text <$> entities fs))) ≤ id_max it)%N →
  node_labels (merged fs) ⊆ nls → edge_labels fs ⊆ els → (N.of_nat (length nls) ≤ id_max it)%N → (N.of_nat (length els) ≤ id_max it)%N →
  Forall text_fits nls → Forall text_fits els → in_usize (length (relations fs)) →
  ∃ g seen A sg, from_path dir it S files = Ok (Some g) ∧ import_of dir (merged fs) seen A ∧ gm_into_static it it dir g = Ok sg ∧
    (in_usize (Datatypes.S (length seen) * length seen) →
     (∀ path F, import (c_sgraph it it c_text c_text) path (export path (enc (c_sgraph it it c_text c_text) sg) F) = Some sg) ∧
     ∀ p F, fresh_prefix F p → ∃ m, mm_open it it c_text c_text (sg_dump_mmap it it c_text c_text sg p F) p = Ok m ∧
       represents (mm_view it it m) A ∧ v_edge_count (mm_view it it m) = length (relations fs)).
Proof.
  intros H1 Hr H3 H4 H5 H6 H7 H8 H9 H10. assert (entities fs ≠ []) as H2.
  { intros E. destruct (relations fs) as [|[x y] rs] eqn:Er; [done|]. destruct (relation_entities fs x y) as [Hx _]; [rewrite Er; left|].
    rewrite E in Hx. by apply elem_of_nil in Hx. }
  destruct (ldbc_frozen dir it S files fs nls els H1 H2 H3 H4 H5 H6 H7) as (g & seen & A & sg & R1 & R2 & R3 & _ & _ & _ & R).
  exists g, seen, A, sg. split_and!; [done..|]. intros Hus. destruct (R H8 H9 H10 Hus) as [Q1 Q2]. split; [exact Q1|]. exact (Q2 Hr).
Qed.
