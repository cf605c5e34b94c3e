(** LDBC directories in which entities share a text. *)
From Coq Require Import Ascii.
From stdpp Require Import gmap strings.
From Verif Require Import Base BaseFacts Api Spec SpecFacts SpecOps Map GraphMap GraphMapFacts GraphMapRefine GraphMapSim GraphMapThms
  ViewFacts GraphOpsFacts GraphOpsProps Csv CsvFacts Ldbc SpecLdbc LdbcFacts LdbcProps LdbcThms SpecLdbcMerge.

Lemma first_with_text es e : entity_text (first_with es e) = entity_text e.
Proof.
  unfold first_with. destruct (head _) as [e'|] eqn:E; [|done]. simpl.
  assert (e' ∈ filter (λ e', entity_text e' = entity_text e) es) as H by (apply head_Some_elem_of; done). by apply elem_of_list_filter in H as [H _].
Qed.
Lemma first_with_in es e : e ∈ es → first_with es e ∈ es.
Proof.
  intros He. unfold first_with. destruct (head _) as [e'|] eqn:E; [|done]. simpl.
  assert (e' ∈ filter (λ e', entity_text e' = entity_text e) es) as H by (apply head_Some_elem_of; done). by apply elem_of_list_filter in H as [_ H].
Qed.
Lemma first_with_same es e e' : e ∈ es → e' ∈ es → entity_text e = entity_text e' → first_with es e = first_with es e'.
Proof.
  intros He He' Ht. unfold first_with. rewrite Ht. destruct (head _) eqn:E; [done|]. exfalso.
  apply head_None in E. assert (e ∈ filter (λ e'', entity_text e'' = entity_text e') es) as H by (by apply elem_of_list_filter). rewrite E in H. by apply elem_of_nil in H.
Qed.
Lemma first_with_new pre e l : (∀ x, x ∈ pre → entity_text x ≠ entity_text e) → first_with (pre ++ e :: l) e = e.
Proof.
  intros Hp. unfold first_with. rewrite filter_app, filter_cons_True by done.
  assert (filter (λ e', entity_text e' = entity_text e) pre = []) as ->; [|done].
  destruct (filter _ pre) as [|x k] eqn:E; [done|]. exfalso.
  assert (x ∈ filter (λ e', entity_text e' = entity_text e) pre) as H by (rewrite E; left). apply elem_of_list_filter in H as [H1 H2]. by apply (Hp x).
Qed.
Lemma merged_entities fs : entities (merged fs) = first_with (entities fs) <$> entities fs.
Proof.
  unfold merged. generalize (first_with (entities fs)) as r. intros r. induction fs as [|f fs IH]; [done|].
  cbn [fmap list_fmap]. rewrite !entities_cons, fmap_app, <-IH. by destruct f.
Qed.
Lemma merged_unambiguous fs : unambiguous (merged fs).
Proof.
  intros e e'. rewrite merged_entities. intros (x & -> & Hx)%elem_of_list_fmap (y & -> & Hy)%elem_of_list_fmap H.
  change (entity_text (first_with (entities fs) x) = entity_text (first_with (entities fs) y)) in H. rewrite !first_with_text in H. by apply first_with_same.
Qed.
Lemma merged_relations fs : relations (merged fs) = prod_map (first_with (entities fs)) (first_with (entities fs)) <$> relations fs.
Proof.
  unfold merged. generalize (first_with (entities fs)) as r. intros r. induction fs as [|f fs IH]; [done|].
  cbn [fmap list_fmap]. unfold relations in *. cbn [omap list_omap]. rewrite IH. by destruct f.
Qed.
Lemma merged_id fs : unambiguous fs → merged fs = fs.
Proof.
  intros Hu. assert (∀ e, e ∈ entities fs → first_with (entities fs) e = e) as H.
  { intros e He. apply Hu; [by apply first_with_in|done|]. exact (first_with_text _ _). }
  unfold merged. revert H. generalize (first_with (entities fs)) as r. intros r. induction fs as [|f fs IH]; intros H; [done|].
  cbn [fmap list_fmap]. rewrite IH.
  - f_equal. destruct f as [e l|s t l]; simpl; f_equal; apply H; rewrite entities_cons; set_solver.
  - intros e e' He He'. apply Hu; rewrite entities_cons; set_solver.
  - intros e He. apply H. rewrite entities_cons. set_solver.
Qed.
Lemma merged_texts fs : length (remove_dups (entities (merged fs))) = length (remove_dups (entity_text <$> entities fs)).
Proof.
  rewrite merged_entities. set (es := entities fs).
  rewrite <-(fmap_length entity_text (remove_dups (first_with es <$> es))).
  apply Permutation_length, NoDup_Permutation.
  - apply NoDup_fmap_2_strong; [|apply NoDup_remove_dups]. intros x y. rewrite !elem_of_remove_dups.
    intros (a & -> & Ha)%elem_of_list_fmap (b & -> & Hb)%elem_of_list_fmap. rewrite !first_with_text. by apply first_with_same.
  - apply NoDup_remove_dups.
  - intros t. rewrite elem_of_remove_dups, !elem_of_list_fmap. split.
    + intros (x & -> & Hx). apply elem_of_remove_dups, elem_of_list_fmap in Hx as (a & -> & Ha). exists a. by rewrite first_with_text.
    + intros (a & -> & Ha). exists (first_with es a). split; [by rewrite first_with_text|]. apply elem_of_remove_dups, elem_of_list_fmap. by exists a.
Qed.

Section merge.
  Context (dir : bool) (it : idty).
  Notation state := (graphmap string string * gmap string N)%type.
  Definition knows (es : list entity) (st : state) : Prop := ∀ k, is_Some (st.2 !! k) ↔ k ∈ entity_text <$> es.
  Lemma knows_snoc es e (st : state) g i : knows es st → knows (es ++ [e]) (g, <[key e := i]> st.2).
  Proof.
    intros H k. cbn [snd]. rewrite fmap_app, elem_of_app, <-(H k). cbn [fmap list_fmap]. rewrite elem_of_list_singleton. change (entity_text e) with (key e).
    destruct (decide (k = key e)) as [->|Hk]; [rewrite lookup_insert; naive_solver|rewrite lookup_insert_ne by done; naive_solver].
  Qed.
  Lemma knows_old es e (st : state) g : knows es st → is_Some (st.2 !! key e) → knows (es ++ [e]) (g, st.2).
  Proof.
    intros H He k. cbn [snd]. rewrite fmap_app, elem_of_app, <-(H k). cbn [fmap list_fmap]. rewrite elem_of_list_singleton. change (entity_text e) with (key e). naive_solver.
  Qed.
  Lemma entry_knows es e l st i st' : knows es st → entry_or_add it (key e) l st = Ok (i, st') → knows (es ++ [e]) st'.
  Proof.
    intros H. destruct st as [g m]. unfold entry_or_add. destruct (m !! key e) as [j|] eqn:Hm.
    - intros [= <- <-]. by apply (knows_old es e (g, m)).
    - intros (j & Hj & He)%rbind_Ok. apply rbind_Ok in He as (g' & Hg & [= <- <-]). by apply (knows_snoc es e (g, m)).
  Qed.
  Lemma entry_same es e rest st : knows es st →
    entry_or_add it (key (first_with (es ++ e :: rest) e)) (first_with (es ++ e :: rest) e).1 st = entry_or_add it (key e) e.1 st.
  Proof.
    intros H. change (key (first_with (es ++ e :: rest) e)) with (entity_text (first_with (es ++ e :: rest) e)). rewrite first_with_text.
    change (entity_text e) with (key e). destruct st as [g m]. unfold entry_or_add. destruct (m !! key e) as [j|] eqn:Hm; [done|].
    rewrite first_with_new; [done|]. intros x Hx Ht. assert (is_Some (m !! key e)) as [? ?]; [|congruence].
    apply (H (key e)). apply elem_of_list_fmap. exists x. by split; [symmetry|].
  Qed.
  Lemma run_merged pre fs : ∀ st, knows (entities pre) st →
    run_facts dir it (rename (first_with (entities (pre ++ fs))) <$> fs) st = run_facts dir it fs st.
  Proof.
    revert pre. induction fs as [|f fs IH]; intros pre st H; [done|].
    unfold run_facts. cbn [fmap list_fmap rfold].
    assert (fact_step dir it (rename (first_with (entities (pre ++ f :: fs))) f) st = fact_step dir it f st ∧
      ∀ st', fact_step dir it f st = Ok st' → knows (entities (pre ++ [f])) st') as [E K].
    { rewrite entities_snoc. assert (entities (pre ++ f :: fs) = entities pre ++ names f ++ entities fs) as -> by (unfold entities; by rewrite bind_app).
      destruct f as [e l|s t l]; cbn [names rename].
      - split.
        + destruct st as [g m]. cbn [fact_step].
          assert (key (first_with (entities pre ++ [e] ++ entities fs) e) = key e) as -> by exact (first_with_text _ _). done.
        + intros [g' m']. destruct st as [g m]. cbn [fact_step]. destruct (m !! key e) as [j|] eqn:Hm; cbn [rbind].
          * intros (g1 & _ & [= <- <-])%rbind_Ok. by apply (knows_old _ e (g, m)).
          * intros (p & (j & _ & [= <-])%rbind_Ok & Hp)%rbind_Ok. apply rbind_Ok in Hp as (g1 & _ & [= <- <-]). by apply (knows_snoc _ e (g, m)).
      - split.
        + cbn [fact_step]. pose proof (entry_same (entities pre) s (t :: entities fs) st H) as E1. cbn [app] in E1. cbn [app]. rewrite E1.
          destruct (entry_or_add it (key s) s.1 st) as [[x st1]| |] eqn:Hs; [|done..]. cbn [rbind].
          pose proof (entry_knows _ _ _ _ _ _ H Hs) as H1.
          pose proof (entry_same (entities pre ++ [s]) t (entities fs) st1 H1) as E2. rewrite <-(assoc_L (++)) in E2. cbn [app] in E2. by rewrite E2.
        + cbn [fact_step]. intros st' ([x st1] & Hs & Hr)%rbind_Ok. apply rbind_Ok in Hr as ([y [g2 m2]] & Ht & Hr).
          apply rbind_Ok in Hr as (g3 & _ & [= <-]). pose proof (entry_knows _ _ _ _ _ _ H Hs) as H1.
          pose proof (entry_knows _ _ _ _ _ _ H1 Ht) as H2. rewrite <-(assoc_L (++)) in H2. exact H2. }
    rewrite E. destruct (fact_step dir it f st) as [st'| |]; [|done..]. cbn [rbind].
    specialize (IH (pre ++ [f]) st' (K st' eq_refl)). rewrite <-(assoc_L (++)) in IH. exact IH.
  Qed.
  Lemma from_path_merged S files fs : directory_facts S files = Some fs →
    from_path dir it S files = rmap (λ st, Some st.1) (run_facts dir it (merged fs) (gm_new, ∅)).
  Proof.
    intros Hd. rewrite (from_path_facts dir it S files fs Hd). unfold merged. rewrite <-(run_merged [] fs); [done|].
    intros k. cbn. rewrite lookup_empty, elem_of_nil. split; [by intros [? ?]|done].
  Qed.
  Lemma merge_ok S files fs nls els : directory_facts S files = Some fs →
    (N.of_nat (length (remove_dups (entity_text <$> entities fs))) ≤ id_card it)%N →
    node_labels (merged fs) ⊆ nls → edge_labels fs ⊆ els → labels_fit it nls → labels_fit it els →
    ∃ g seen A, from_path dir it S files = Ok (Some g) ∧ import_of dir (merged fs) seen A ∧ ag_wf A ∧
      ∀ o, hash_order g o → let V := gm_view dir o g in
        represents V A ∧ answers_missing V A ∧ iterates V ∧ v_edge_count V = length (relations fs) ∧
        (exact_count V A ↔ ¬ repeated dir (relations (merged fs))).
  Proof.
    intros Hd Hc Hn He HN HE. rewrite <-merged_texts in Hc.
    assert (edge_labels (merged fs) = edge_labels fs) as Hel.
    { unfold merged. generalize (first_with (entities fs)) as r. intros r. clear. induction fs as [|f fs IH]; [done|].
      cbn [fmap list_fmap]. unfold edge_labels in *. cbn [omap list_omap]. rewrite IH. by destruct f. }
    rewrite <-Hel in He. pose proof (merged_unambiguous fs) as Hu.
    destruct (run_ok dir it nls els (entities (merged fs)) HN HE Hu (merged fs) [] [] (gm_new, ∅) (s_init dir [] [])) as ([g m] & s & Hr & H).
    { by apply (inv_init dir it). } { done. } { by apply facts_labelled. } { by rewrite firsts_distinct. }
    rewrite app_nil_l in H. exists g, (firsts [] (entities (merged fs))), (sp_g s). split; [by rewrite (from_path_merged S files fs), Hr|].
    assert (import_of dir (merged fs) (firsts [] (entities (merged fs))) (sp_g s)) as Hio.
    { split; [apply H|apply H| |apply H|apply H|apply H]. intros e. rewrite firsts_elem, elem_of_nil. naive_solver. }
    split; [exact Hio|]. assert (ag_wf (sp_g s)) as Hwf by apply H. split; [exact Hwf|]. intros o Ho.
    destruct (lrel_view dir g s o (i_rel _ _ _ _ _ _ _ _ H) Ho) as (H1 & H2 & H3 & H4 & _).
    destruct (import_count dir (merged fs) _ _ Hio Hwf) as [_ Hiff]. rewrite (i_count _ _ _ _ _ _ _ _ H) in H4.
    assert (length (relations (merged fs)) = length (relations fs)) as Hlen by (by rewrite merged_relations, fmap_length).
    cbv zeta. split_and!; [done..|by rewrite H4|]. unfold exact_count. rewrite H4, <-Hiff. done.
  Qed.
  Lemma merge_overflow S files fs nls els : directory_facts S files = Some fs → it ≠ TUnit →
    (id_card it < N.of_nat (length (remove_dups (entity_text <$> entities fs))))%N →
    node_labels (merged fs) ⊆ nls → edge_labels fs ⊆ els → labels_fit it nls → labels_fit it els → from_path dir it S files = Panic.
  Proof.
    intros Hd Hit Hc Hn He HN HE. rewrite <-merged_texts in Hc.
    assert (edge_labels (merged fs) = edge_labels fs) as Hel.
    { unfold merged. generalize (first_with (entities fs)) as r. intros r. clear. induction fs as [|f fs IH]; [done|].
      cbn [fmap list_fmap]. unfold edge_labels in *. cbn [omap list_omap]. rewrite IH. by destruct f. }
    rewrite <-Hel in He. pose proof (merged_unambiguous fs) as Hu. rewrite (from_path_merged S files fs) by done.
    rewrite (run_panic dir it nls els (entities (merged fs)) HN HE Hu (merged fs) [] [] (gm_new, ∅) (s_init dir [] [])); [done|..].
    { by apply (inv_init dir it). } { done. } { by apply facts_labelled. } { done. } { cbn. lia. } { rewrite firsts_distinct. lia. }
  Qed.
End merge.
Lemma merged_facts fs :
  (∀ e e', e ∈ entities fs → e' ∈ entities fs → (first_with (entities fs) e = first_with (entities fs) e' ↔ entity_text e = entity_text e')) ∧
  (∀ e, e ∈ entities fs → first_with (entities fs) e ∈ entities fs) ∧
  (unambiguous fs → merged fs = fs) ∧ unambiguous (merged fs).
Proof.
  split_and!; [|intros e; apply first_with_in|apply merged_id|apply merged_unambiguous].
  intros e e' He He'. split; [|by apply first_with_same]. intros H. rewrite <-(first_with_text (entities fs) e), H. apply first_with_text.
Qed.
(** Tags whose ids begin with "class". *)
Definition dir_merge : list (string * table) :=
  [ ("tag_hasType_tagclass_0_0.csv", [["Tag.id"; "TagClass.id"]; ["class1"; "1"]; ["5"; "1"]; ["class1"; "2"]; ["5"; "class1"]]);
    ("tagclass_isSubclassOf_tagclass_0_0.csv", [["TagClass.id"; "TagClass.id"]; ["1"; "2"]]) ]%string.
Definition facts_merge : list fact :=
  [ FEdge ("tag", "class1") ("tagclass", "1") "hasType"; FEdge ("tag", "5") ("tagclass", "1") "hasType";
    FEdge ("tag", "class1") ("tagclass", "2") "hasType"; FEdge ("tag", "5") ("tagclass", "class1") "hasType";
    FEdge ("tagclass", "1") ("tagclass", "2") "isSubclassOf" ]%string.
Lemma merge_case : directory_facts scheme_init dir_merge = Some facts_merge ∧ ¬ unambiguous facts_merge ∧
  merged facts_merge = [ FEdge ("tag", "class1") ("tag", "class1") "hasType"; FEdge ("tag", "5") ("tag", "class1") "hasType";
    FEdge ("tag", "class1") ("tagclass", "2") "hasType"; FEdge ("tag", "5") ("tagclass", "class1") "hasType";
    FEdge ("tag", "class1") ("tagclass", "2") "isSubclassOf" ]%string ∧
  node_labels (merged facts_merge) ⊆ ["tag"; "tagclass"]%string ∧ edge_labels facts_merge ⊆ ["hasType"; "isSubclassOf"]%string ∧
  labels_fit TU8 ["tag"; "tagclass"]%string ∧ labels_fit TU8 ["hasType"; "isSubclassOf"]%string ∧
  length (remove_dups (entity_text <$> entities facts_merge)) = 4 ∧ length (remove_dups (entities facts_merge)) = 5 ∧
  ¬ repeated true (relations facts_merge) ∧ repeated true (relations (merged facts_merge)).
Proof.
  split; [vm_compute; reflexivity|]. split.
  { intros H. specialize (H ("tag", "class1")%string ("tagclass", "1")%string). 
    assert (("tag", "class1")%string = ("tagclass", "1")%string) as E; [|done].
    apply H; [..|reflexivity]; apply (bool_decide_unpack _); vm_compute; exact I. }
  split; [vm_compute; reflexivity|].
  assert (∀ l l' : list string, forallb (λ x, bool_decide (x ∈ l')) l = true → l ⊆ l') as Hsub.
  { intros l l' H x Hx. rewrite forallb_forall in H. eapply bool_decide_eq_true_1, H. by apply elem_of_list_In. }
  split; [apply Hsub; vm_compute; reflexivity|]. split; [apply Hsub; vm_compute; reflexivity|].
  split; [vm_compute; discriminate|]. split; [vm_compute; discriminate|]. split; [vm_compute; reflexivity|]. split; [vm_compute; reflexivity|]. split.
  - intros (i & j & p & q & Hij & Hi & Hj & Hpq). assert (NoDup (relations facts_merge)) as Hn by (apply (bool_decide_unpack _); vm_compute; exact I).
    destruct Hpq as [->|[? ?]]; [|done]. pose proof (NoDup_lookup _ _ _ _ Hn Hi Hj). lia.
  - exists 2, 4, (("tag", "class1"), ("tagclass", "2"))%string, (("tag", "class1"), ("tagclass", "2"))%string. split_and!; [lia|vm_compute; reflexivity..|by left].
Qed.
