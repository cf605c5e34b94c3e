(** The ids LDBC import gives out. *)
From Coq Require Import Ascii.
From stdpp Require Import gmap strings.
From Verif Require Import Base BaseFacts Api Spec SpecFacts SpecOps Map GraphMap GraphMapFacts GraphMapRefine GraphMapSim GraphMapThms
  ViewFacts GraphOpsFacts GraphOpsProps Csv CsvFacts Ldbc SpecLdbc SpecLdbcMerge SpecLdbcIds LdbcFacts LdbcProps LdbcThms LdbcMerge LdbcFrozen.

Lemma firsts_order es : by_first_mention es (firsts [] es).
Proof.
  induction es as [|e es IH] using rev_ind; [done|]. unfold firsts in *. rewrite foldl_app. cbn [foldl]. set (s := foldl touch [] es) in *.
  assert (∀ x, x ∈ s ↔ x ∈ es) as Hs by (intros x; pose proof (firsts_elem [] es x) as H; unfold firsts in H; rewrite elem_of_nil in H; unfold s; tauto).
  assert (by_first_mention (es ++ [e]) s) as Hold.
  { intros i j x y Hij Hi Hj. destruct (IH i j x y Hij Hi Hj) as (k & Hk & Hlt). pose proof (lookup_lt_Some _ _ _ Hk) as Hkl.
    exists k. split; [by rewrite lookup_app_l|]. intros k' Hk'. apply lookup_app_Some in Hk' as [Hk'|[Hge _]]; [by apply Hlt|lia]. }
  unfold touch. case_decide as Hin; [exact Hold|]. intros i j x y Hij Hi Hj.
  apply lookup_app_Some in Hj as [Hj|[Hge Hj]].
  - apply lookup_lt_Some in Hj as Hjl. rewrite lookup_app_l in Hi by lia. by apply (Hold i j).
  - apply list_lookup_singleton_Some in Hj as [Hj ->]. assert (i < length s) as Hil by lia. rewrite lookup_app_l in Hi by done.
    assert (x ∈ es) as Hx by (apply Hs; by apply elem_of_list_lookup_2 in Hi). apply elem_of_list_lookup in Hx as [k Hk].
    pose proof (lookup_lt_Some _ _ _ Hk) as Hkl. exists k. split; [by rewrite lookup_app_l|]. intros k' Hk'.
    apply lookup_app_Some in Hk' as [Hk'|[Hge' _]]; [|lia]. destruct Hin. apply Hs. by apply elem_of_list_lookup_2 in Hk'.
Qed.
Lemma by_first_mention_unique {X} (es a b : list X) : NoDup a → NoDup b → (∀ x, x ∈ a ↔ x ∈ es) → (∀ x, x ∈ b ↔ x ∈ es) →
  by_first_mention es a → by_first_mention es b → a = b.
Proof.
  intros Na Nb Ha Hb Oa Ob. apply list_eq.
  assert (length a = length b) as Hlen.
  { apply Permutation_length, NoDup_Permutation; [done..|]. intros x. by rewrite Ha, Hb. }
  intros i. induction i as [i IH] using lt_wf_ind. destruct (a !! i) as [x|] eqn:Hx.
  - destruct (b !! i) as [y|] eqn:Hy; [|apply lookup_lt_Some in Hx; apply lookup_ge_None in Hy; lia].
    assert (x ∈ b) as Hxb by (apply Hb, Ha; by apply elem_of_list_lookup_2 in Hx).
    assert (y ∈ a) as Hya by (apply Ha, Hb; by apply elem_of_list_lookup_2 in Hy).
    apply elem_of_list_lookup in Hxb as [j Hj]. apply elem_of_list_lookup in Hya as [k Hk].
    destruct (lt_eq_lt_dec j i) as [[Hlt|E]|Hlt].
    + rewrite <-IH in Hj by done. pose proof (NoDup_lookup a i j x Na Hx Hj). lia.
    + congruence.
    + destruct (lt_eq_lt_dec k i) as [[Hlt'|E]|Hlt'].
      * rewrite IH in Hk by done. pose proof (NoDup_lookup b i k y Nb Hy Hk). lia.
      * congruence.
      * destruct (Ob i j y x Hlt Hy Hj) as (p & Hp & Hp'). destruct (Oa i k x y Hlt' Hx Hk) as (q & Hq & Hq').
        specialize (Hp' q Hq). specialize (Hq' p Hp). lia.
  - symmetry. apply lookup_ge_None in Hx. apply lookup_ge_None. lia.
Qed.
Section ids.
  Context (dir : bool) (it : idty).
  Lemma ids_ok S files fs nls els : directory_facts S files = Some fs →
    (N.of_nat (length (remove_dups (entity_text <$> entities fs))) ≤ id_card it)%N →
    node_labels (merged fs) ⊆ nls → edge_labels fs ⊆ els → labels_fit it nls → labels_fit it els →
    ∃ g seen A, from_path dir it S files = Ok (Some g) ∧ import_of dir (merged fs) seen A ∧ by_first_mention (entities (merged fs)) seen ∧
      (∀ seen', NoDup seen' → (∀ e, e ∈ seen' ↔ e ∈ entities (merged fs)) → by_first_mention (entities (merged fs)) seen' → seen' = seen) ∧
      ∀ o, hash_order g o → represents (gm_view dir o g) A.
  Proof.
    intros Hd Hc Hn He HN HE. rewrite <-merged_texts in Hc. rewrite <-merged_edge_labels in He. pose proof (merged_unambiguous fs) as Hu.
    destruct (run_ok dir it nls els (entities (merged fs)) HN HE Hu (merged fs) [] [] (gm_new, ∅) (s_init dir [] [])) as ([g m] & s & Hr & H).
    { by apply (inv_init dir it). } { done. } { by apply facts_labelled. } { by rewrite firsts_distinct. }
    rewrite app_nil_l in H. exists g, (firsts [] (entities (merged fs))), (sp_g s). split; [by rewrite (from_path_merged dir it S files fs), Hr|].
    assert (import_of dir (merged fs) (firsts [] (entities (merged fs))) (sp_g s)) as Hio.
    { split; [apply H|apply H| |apply H|apply H|apply H]. intros e. rewrite firsts_elem, elem_of_nil. naive_solver. }
    split; [exact Hio|]. split; [apply firsts_order|]. split.
    { intros seen' Hn' Hs' Ho'. apply (by_first_mention_unique (entities (merged fs))); [done|apply Hio|done|apply Hio|done|apply firsts_order]. }
    intros o Ho. apply (lrel_view dir g s o (i_rel _ _ _ _ _ _ _ _ H) Ho).
  Qed.
End ids.
Lemma ids_case : directory_facts scheme_init dir_merge = Some facts_merge ∧
  by_first_mention (entities (merged facts_merge)) [("tag", "class1"); ("tag", "5"); ("tagclass", "2"); ("tagclass", "class1")]%string ∧
  node_labels (merged facts_merge) ⊆ ["tag"; "tagclass"]%string ∧ edge_labels facts_merge ⊆ ["hasType"; "isSubclassOf"]%string ∧
  labels_fit TU8 ["tag"; "tagclass"]%string ∧ labels_fit TU8 ["hasType"; "isSubclassOf"]%string ∧
  (N.of_nat (length (remove_dups (entity_text <$> entities facts_merge))) ≤ id_card TU8)%N.
Proof.
  destruct merge_case as (M1 & _ & _ & M4 & M5 & M6 & M7 & M8 & _). split; [exact M1|]. split.
  { pose proof (firsts_order (entities (merged facts_merge))) as H.
    assert (firsts [] (entities (merged facts_merge)) = [("tag", "class1"); ("tag", "5"); ("tagclass", "2"); ("tagclass", "class1")]%string) as E by (vm_compute; reflexivity).
    by rewrite E in H. }
  split; [exact M4|]. split; [exact M5|]. split; [exact M6|]. split; [exact M7|]. rewrite M8. vm_compute. discriminate.
Qed.
