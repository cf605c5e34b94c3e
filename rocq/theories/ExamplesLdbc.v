(** Proofs about ldbc_to_graphmap (Examples.v). *)
From Coq Require Import Ascii.
From stdpp Require Import gmap strings.
From Verif Require Import Base BaseFacts Api Spec SpecFacts SpecOps Map GraphMap GraphMapFacts GraphMapRefine GraphMapSim GraphMapThms
  ViewFacts Static StaticFacts StaticProps GraphOpsFacts GraphOpsProps Serde SpecSerde SerdeFacts Csv CsvFacts Ldbc SpecLdbc LdbcFacts LdbcProps LdbcThms Pipeline SpecExamples Examples ExamplesFacts Paths.

Lemma within_vec (l k : list string) : NoDup l → l ⊆ k → labels_fit TU32 k → Forall text_fits k → vec_of text_fits l ∧ labels_fit TU32 l.
Proof.
  intros H1 H2 H3 H4. assert (length l ≤ length k) as Hle by (by apply submseteq_length, NoDup_submseteq).
  split; [split|].
  - unfold in_usize, labels_fit, id_max in *. change (id_card TU32) with 4294967296%N in H3. change (id_card TUsize) with 18446744073709551616%N. lia.
  - apply Forall_forall. intros x Hx. by apply (proj1 (Forall_forall _ _) H4), H2.
  - unfold labels_fit in *. lia.
Qed.

Section ldbc.
  Context (files : list (string * table)) (fs : list fact) (nls els : list string).
  Context (Hd : directory_facts scheme_init files = Some fs) (Hnum : ∀ e, e ∈ entities fs → numeric e.2).
  Context (Hc : (N.of_nat (length (remove_dups (entities fs))) ≤ id_card TU32)%N).
  Context (Hn : node_labels fs ⊆ nls) (He : edge_labels fs ⊆ els) (HN : labels_fit TU32 nls) (HE : labels_fit TU32 els).
  Context (HPN : Forall text_fits nls) (HPE : Forall text_fits els) (Hus : in_usize (length (relations fs))).
  Lemma ldbc_thm : ∃ g seen A, read_ldbc false TU32 files = Ok g ∧ import_of false fs seen A ∧
    (∀ o, hash_order g o → represents (gm_view false o g) A ∧ answers_missing (gm_view false o g) A ∧ v_edge_count (gm_view false o g) = length (relations fs)) ∧
    ∀ ldbc_dir name out_dir ord F, hash_order g (ord g) → last_component ldbc_dir = Some name →
      let path := path_join out_dir (name +:+ "_" +:+ show_uint (N.of_nat (length seen)) +:+ "_" +:+
                    show_uint (N.of_nat (length (relations fs))) +:+ ".graphmap")%string in
      ∃ F', ldbc_to_graphmap ldbc_dir out_dir ord files F = Ok F' ∧ (∀ p, p ≠ path → F' !! p = F !! p) ∧
        ∀ o, import (c_graphmap TU32 TU32 c_text c_text o) path F' = Some g.
  Proof using All.
    pose proof (numeric_unambiguous _ _ _ scheme_types Hd Hnum) as Hu.
    destruct (run_ok false TU32 nls els (entities fs) HN HE Hu fs [] [] (gm_new, ∅) (s_init false [] [])) as ([g m] & s & Hr & H).
    { by apply (inv_init false TU32). } { done. } { by apply facts_labelled. } { by rewrite firsts_distinct. }
    rewrite app_nil_l in H. set (seen := firsts [] (entities fs)) in *.
    assert (read_ldbc false TU32 files = Ok g) as Hg by (unfold read_ldbc; by rewrite (from_path_facts false TU32 scheme_init files fs), Hr).
    exists g, seen, (sp_g s). split; [done|]. split.
    { split; [apply H|apply H| |apply H|apply H|apply H]. intros e. unfold seen. rewrite firsts_elem, elem_of_nil. naive_solver. }
    pose proof (i_rel _ _ _ _ _ _ _ _ H) as Hrel. cbn [fst] in Hrel. split.
    { intros o Ho. destruct (lrel_view false g s o Hrel Ho) as (H1 & H2 & H3 & H4 & _). by rewrite <-(i_count _ _ _ _ _ _ _ _ H). }
    assert (length seen = length (remove_dups (entities fs))) as Hlen by (unfold seen; by rewrite firsts_distinct).
    intros ldbc_dir name out_dir ord F Ho Hname. destruct (lrel_view false g s (ord g) Hrel Ho) as (HA & _ & _ & Hec & _).
    assert (a_num_nodes (sp_g s) = length seen) as Hsz.
    { unfold a_num_nodes. apply size_below. intros x. exact (i_nodes _ _ _ _ _ _ _ _ H x). }
    pose proof (rp_node_count _ _ HA) as Hnc. change (gm_node_count g = a_num_nodes (sp_g s)) in Hnc. change (gm_edge_count g = sp_count s) in Hec.
    cbv zeta. unfold ldbc_to_graphmap. rewrite Hg. cbn [rbind]. rewrite Hname. cbn [unwrap rbind]. rewrite Hnc, Hec, Hsz, (i_count _ _ _ _ _ _ _ _ H). eexists. split; [done|].
    split; [intros p Hp; by apply export_other|]. intros o.
    destruct (i_within _ _ _ _ _ _ _ _ H) as (W1 & W2 & W3 & W4).
    destruct (within_vec (sp_nls s) nls) as [V1 V2]; [done..|]. destruct (within_vec (sp_els s) els) as [V3 V4]; [done..|].
    assert (typed_graph TU32 TU32 text_fits text_fits g) as Ht.
    { apply (graph_typed false TU32 TU32 text_fits text_fits g s); try done.
      - intros x Hx. apply (i_nodes _ _ _ _ _ _ _ _ H) in Hx. unfold in_type. lia.
      - rewrite (i_max _ _ _ _ _ _ _ _ H). destruct seen; [done|]. cbn [opt_all]. unfold in_type. cbn [length] in *. lia.
      - rewrite Hsz. unfold in_usize. change (id_card TUsize) with 18446744073709551616%N. change (id_card TU32) with 4294967296%N in Hc. lia.
      - by rewrite (i_count _ _ _ _ _ _ _ _ H). }
    exact (import_export (c_graphmap TU32 TU32 c_text c_text (ord g)) _ _ F g (proj1 (f_graphmap TU32 TU32 c_text c_text text_fits text_fits f_text f_text (ord g))) (conj Ho Ht)).
  Qed.
End ldbc.
