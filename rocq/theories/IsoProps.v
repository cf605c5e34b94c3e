From Verif Require Import Base BaseFacts Api Spec SpecFacts SpecReorder SpecConn ConnComp ConnCompFacts ConnCompProps SpecConnGrow ConnGrowProps SpecTraverse Traverse TraverseProps ViewOps ViewOpsProps ReorderMain SpecIso.

Lemma size_filter_list {K X} `{Countable K} (P : K * X → Prop) `{∀ p, Decision (P p)} (m : gmap K X) : size (filter P m) = length (filter P (map_to_list m)).
Proof.
  change (length (map_to_list (filter P m)) = length (filter P (map_to_list m))). apply Permutation_length. apply NoDup_Permutation.
  - apply NoDup_map_to_list.
  - apply NoDup_filter, NoDup_map_to_list.
  - intros [k x]. rewrite elem_of_map_to_list, map_filter_lookup_Some, elem_of_list_filter, elem_of_map_to_list. tauto.
Qed.
Lemma filter_fmap_length {K X Y} `{EqDecision Y} (g : K * X → K * X) (h : K * X → Y) y l : (∀ p, h (g p) = h p) →
  length (filter (λ p, h p = y) (g <$> l)) = length (filter (λ p, h p = y) l).
Proof.
  intros Hg. induction l as [|p l IH]; [done|]. rewrite fmap_cons, !filter_cons. rewrite Hg. destruct (decide (h p = y)); cbn; by rewrite IH.
Qed.
Section iso.
  Context {NL EL : Type} `{EqDecision NL, EqDecision EL}.
  Implicit Types (A B : agraph NL EL) (V W : gview NL EL).

  Lemma ren_edge f A B x y : renames f A B → a_has_node A x → a_has_node A y → a_has_edge B (f x) (f y) ↔ a_has_edge A x y.
  Proof. intros HR Hx Hy. unfold a_has_edge. by rewrite (rn_edges _ _ _ HR). Qed.
  Lemma ren_pre f A B y : renames f A B → a_has_node B y → ∃ x, a_has_node A x ∧ y = f x.
  Proof. intros HR [l Hl]. apply (rn_nodes _ _ _ HR) in Hl as (x & Hx & <-). exists x. split; [by eexists|done]. Qed.
  Lemma ren_edge_pre f A B y1 y2 : ag_wf A → renames f A B → a_has_edge B y1 y2 → ∃ x1 x2, a_has_edge A x1 x2 ∧ y1 = f x1 ∧ y2 = f x2 ∧ a_has_node A x1 ∧ a_has_node A x2.
  Proof.
    intros Hw HR He. destruct (wf_edge_nodes B y1 y2 (rn_wf _ _ _ HR) He) as [H1 H2].
    destruct (ren_pre f A B y1 HR H1) as (x1 & ? & ->). destruct (ren_pre f A B y2 HR H2) as (x2 & ? & ->). exists x1, x2. split_and!; try done. by eapply ren_edge.
  Qed.
  Lemma ren_nodes_list f A B : renames f A B → map_to_list (ag_nodes B) ≡ₚ (λ p, (f p.1, p.2)) <$> map_to_list (ag_nodes A).
  Proof.
    intros HR. apply NoDup_Permutation.
    - apply NoDup_map_to_list.
    - apply NoDup_fmap_2_strong; [|apply NoDup_map_to_list]. intros [x l] [y k] Hx%elem_of_map_to_list Hy%elem_of_map_to_list [= E ->].
      f_equal. eapply (rn_inj _ _ _ HR); [by eexists|by eexists|done].
    - intros [y l]. rewrite elem_of_map_to_list, (rn_nodes _ _ _ HR), elem_of_list_fmap. split.
      + intros (x & Hx & <-). exists (x, l). by rewrite elem_of_map_to_list.
      + intros ([x k] & [= -> ->] & Hx%elem_of_map_to_list). by exists x.
  Qed.
  Lemma ren_edges_list f A B : ag_wf A → renames f A B →
    map_to_list (ag_edges B) ≡ₚ (λ p, (ekey (ag_dir A) (f p.1.1) (f p.1.2), p.2)) <$> map_to_list (ag_edges A).
  Proof.
    intros Hw HR. assert (∀ s t l, ag_edges A !! (s, t) = Some l → ekey (ag_dir A) s t = (s, t) ∧ a_has_node A s ∧ a_has_node A t) as Hst.
    { intros s t l Hl. apply Hw. by eexists. }
    apply NoDup_Permutation.
    - apply NoDup_map_to_list.
    - apply NoDup_fmap_2_strong; [|apply NoDup_map_to_list]. intros [[x y] l] [[x' y'] k] Hx%elem_of_map_to_list Hy%elem_of_map_to_list E. cbn in E. injection E as E ->.
      destruct (Hst _ _ _ Hx) as (Hk & Hn1 & Hn2). destruct (Hst _ _ _ Hy) as (Hk' & Hn1' & Hn2'). f_equal.
      apply ekey_eq in E as [[E1 E2]|(Hd & E1 & E2)].
      + f_equal; by apply (rn_inj _ _ _ HR).
      + apply (rn_inj _ _ _ HR) in E1 as ->; [|done..]. apply (rn_inj _ _ _ HR) in E2 as ->; [|done..].
        rewrite <-Hk, <-Hk', Hd. apply ekey_sym.
    - intros [[u v] l]. rewrite elem_of_map_to_list, elem_of_list_fmap. split.
      + intros Hl. assert (a_has_edge B u v ∧ ekey (ag_dir A) u v = (u, v)) as [He Hk].
        { destruct (rn_wf _ _ _ HR u v) as (Hk & _); [by eexists|]. rewrite (rn_dir _ _ _ HR) in Hk. split; [|done]. unfold a_has_edge, a_edge_at. rewrite (rn_dir _ _ _ HR), Hk. by eexists. }
        destruct (ren_edge_pre f A B u v Hw HR He) as (x & y & Hxy & -> & -> & Hx & Hy).
        pose proof (rn_edges _ _ _ HR x y Hx Hy) as Heq. unfold a_edge_at in Heq. rewrite (rn_dir _ _ _ HR), Hk, Hl in Heq.
        exists (ekey (ag_dir A) x y, l). cbn. split; [|by rewrite elem_of_map_to_list]. f_equal. rewrite <-Hk.
        destruct (ekey_cases (ag_dir A) x y) as [->|[Hd ->]]; cbn; [done|]. rewrite Hd. apply ekey_sym.
      + intros ([[x y] k] & E & Hx%elem_of_map_to_list). cbn in E. injection E as E ->. destruct (Hst _ _ _ Hx) as (Hk & Hn1 & Hn2).
        pose proof (rn_edges _ _ _ HR x y Hn1 Hn2) as Heq. unfold a_edge_at in Heq. rewrite (rn_dir _ _ _ HR), Hk, Hx, <-E in Heq. done.
  Qed.
  Lemma ren_links f A B a b : ag_wf A → renames f A B → a_has_node A a → a_has_node A b → rtsc (a_has_edge B) (f a) (f b) ↔ rtsc (a_has_edge A) a b.
  Proof.
    intros Hw HR Ha Hb. unfold rtsc. split.
    - intros H. remember (f a) as u eqn:Eu. remember (f b) as v eqn:Ev. revert a Ha Eu. induction H as [u|u w v Huw H IH]; intros a Ha Eu.
      + subst. assert (a = b) as -> by (by apply (rn_inj _ _ _ HR)). reflexivity.
      + subst u. destruct (ren_pre f A B w HR) as (x & Hx & ->).
        { destruct Huw as [E|E]; by apply (wf_edge_nodes B) in E as [? ?]; [|apply (rn_wf _ _ _ HR)]. }
        eapply rtc_l; [|by apply IH]. destruct Huw as [E|E]; [left|right]; by apply (ren_edge f A B).
    - intros H. induction H as [a|a x b Hax H IH]; [reflexivity|].
      assert (a_has_node A x) as Hx. { destruct Hax as [E|E]; by apply wf_edge_nodes in E as [? ?]. }
      eapply rtc_l; [|by apply IH]. destruct Hax as [E|E]; [left|right]; by apply (ren_edge f A B).
  Qed.
  Lemma ren_reaches f A B a b : ag_wf A → renames f A B → a_has_node A a → a_has_node A b → reaches B (f a) (f b) ↔ reaches A a b.
  Proof.
    intros Hw HR Ha Hb. unfold reaches. split.
    - intros H. remember (f a) as u eqn:Eu. remember (f b) as v eqn:Ev. revert a Ha Eu. induction H as [u|u w v Huw H IH]; intros a Ha Eu.
      + subst. assert (a = b) as -> by (by apply (rn_inj _ _ _ HR)). reflexivity.
      + subst u. destruct (ren_pre f A B w HR) as (x & Hx & ->). { by apply (wf_edge_nodes B) in Huw as [? ?]; [|apply (rn_wf _ _ _ HR)]. }
        eapply rtc_l; [|by apply IH]. by apply (ren_edge f A B).
    - intros H. induction H as [a|a x b Hax H IH]; [reflexivity|]. assert (a_has_node A x) as Hx by (by apply wf_edge_nodes in Hax as [? ?]).
      eapply rtc_l; [|by apply IH]. by apply (ren_edge f A B).
  Qed.

  Lemma ren_neighbors f A B n (l l' : list N) : ag_wf A → renames f A B → a_has_node A n →
    increasing l → increasing l' → (∀ t, t ∈ l ↔ a_has_edge A n t) → (∀ t, t ∈ l' ↔ a_has_edge B (f n) t) → l' ≡ₚ f <$> l.
  Proof.
    intros Hw HR Hn Hl Hl' H1 H2. apply NoDup_Permutation.
    - by apply increasing_NoDup.
    - apply NoDup_fmap_2_strong; [|by apply increasing_NoDup]. intros x y Hx%H1 Hy%H1. apply (rn_inj _ _ _ HR); by eapply wf_edge_nodes.
    - intros y. rewrite H2, elem_of_list_fmap. split.
      + intros He. destruct (wf_edge_nodes B (f n) y (rn_wf _ _ _ HR) He) as [_ Hy]. destruct (ren_pre f A B y HR Hy) as (x & Hx & ->).
        exists x. split; [done|]. apply H1. by apply (ren_edge f A B).
      + intros (x & -> & Hx%H1). apply (ren_edge f A B); [done..| |done]. by eapply wf_edge_nodes.
  Qed.
  Lemma ren_in_neighbors f A B n (l l' : list N) : ag_wf A → renames f A B → a_has_node A n →
    increasing l → increasing l' → (∀ t, t ∈ l ↔ a_has_edge A t n) → (∀ t, t ∈ l' ↔ a_has_edge B t (f n)) → l' ≡ₚ f <$> l.
  Proof.
    intros Hw HR Hn Hl Hl' H1 H2. apply NoDup_Permutation.
    - by apply increasing_NoDup.
    - apply NoDup_fmap_2_strong; [|by apply increasing_NoDup]. intros x y Hx%H1 Hy%H1. apply (rn_inj _ _ _ HR); [by destruct (wf_edge_nodes A _ _ Hw Hx)|by destruct (wf_edge_nodes A _ _ Hw Hy)].
    - intros y. rewrite H2, elem_of_list_fmap. split.
      + intros He. destruct (wf_edge_nodes B y (f n) (rn_wf _ _ _ HR) He) as [Hy _]. destruct (ren_pre f A B y HR Hy) as (x & Hx & ->).
        exists x. split; [done|]. apply H1. by apply (ren_edge f A B).
      + intros (x & -> & Hx%H1). apply (ren_edge f A B); [done| |done|done]. by destruct (wf_edge_nodes A _ _ Hw Hx).
  Qed.
  Lemma shape f V W A B : represents V A → represents W B → iterates V → iterates W → renames f A B → same_shape f V W.
  Proof.
    intros HV HW IV IW HR. pose proof (rp_wf _ _ HV) as Hw. pose proof (rp_wf _ _ HW) as Hw'.
    assert (∀ n, v_has_node V n = true ↔ a_has_node A n) as Hn by apply HV.
    constructor.
    - rewrite (rp_node_count _ _ HV), (rp_node_count _ _ HW). unfold a_num_nodes.
      change (length (map_to_list (ag_nodes B)) = length (map_to_list (ag_nodes A))). by rewrite (ren_nodes_list f A B HR), fmap_length.
    - destruct (rp_edge_indices _ _ HV) as (es & Hes & Hle). destruct (rp_edge_indices _ _ HW) as (es' & Hes' & Hle'). exists es, es'. split; [done|]. split; [done|].
      assert (∀ (C : agraph NL EL) (l : list (N * N)), lists_exactly l (λ e, is_Some (ag_edges C !! e)) → length l = length (map_to_list (ag_edges C))) as Hlen.
      { intros C l [H1 H2]. rewrite <-(fmap_length fst (map_to_list _)). apply Permutation_length, NoDup_Permutation; [done|apply NoDup_fst_map_to_list|].
        intros e. rewrite H2, elem_of_list_fmap. split.
        - intros [x Hx]. exists (e, x). by rewrite elem_of_map_to_list.
        - intros ([e' x] & -> & Hx%elem_of_map_to_list). by eexists. }
      rewrite (Hlen _ _ Hle), (Hlen _ _ Hle'). by rewrite (ren_edges_list f A B Hw HR), fmap_length.
    - intros n Hnn%Hn. pose proof (renames_has_node f A B n HR Hnn) as Hfn.
      destruct (rp_neighbors _ _ HV n Hnn) as (l & Hl & Hi & Hm). destruct (rp_neighbors _ _ HW (f n) Hfn) as (l' & Hl' & Hi' & Hm').
      pose proof (ren_neighbors f A B n l l' Hw HR Hnn Hi Hi' Hm Hm') as Hp.
      rewrite (rp_degree _ _ HV n Hnn), (rp_degree _ _ HW (f n) Hfn), Hl, Hl'. cbn. split; [|by exists l, l'].
      by rewrite Hp, fmap_length.
    - rewrite (rp_directed _ _ HV). intros Hd n Hnn%Hn. pose proof (renames_has_node f A B n HR Hnn) as Hfn.
      assert (ag_dir B = true) as Hd' by (by rewrite (rn_dir _ _ _ HR)).
      destruct (rp_in_neighbors _ _ HV Hd n Hnn) as (l & Hl & Hi & Hm). destruct (rp_in_neighbors _ _ HW Hd' (f n) Hfn) as (l' & Hl' & Hi' & Hm').
      pose proof (ren_in_neighbors f A B n l l' Hw HR Hnn Hi Hi' Hm Hm') as Hp.
      rewrite (rp_in_degree _ _ HV Hd n Hnn), (rp_in_degree _ _ HW Hd' (f n) Hfn), Hl, Hl'. cbn. split; [|by exists l, l'].
      by rewrite Hp, fmap_length.
    - destruct (node_counter_thm V A HV) as (c & Hc & Hcg). destruct (node_counter_thm W B HW) as (c' & Hc' & Hcg'). exists c, c'. split; [done|]. split; [done|].
      intros l. rewrite Hcg, Hcg', !size_filter_list, (ren_nodes_list f A B HR). by apply (filter_fmap_length _ snd).
    - destruct (edge_counter_thm V A HV) as (c & Hc & Hcg). destruct (edge_counter_thm W B HW) as (c' & Hc' & Hcg'). exists c, c'. split; [done|]. split; [done|].
      intros l. rewrite Hcg, Hcg', !size_filter_list, (ren_edges_list f A B Hw HR). by apply (filter_fmap_length _ snd).
    - destruct (thm_graph V A HV IV) as (c & Hc & Hcon & Hcnt). destruct (thm_graph W B HW IW) as (c' & Hc' & Hcon' & Hcnt').
      exists c, c'. split; [done|]. split; [done|].
      assert (∀ n, a_has_node A n → has_any_edge B (f n) ↔ has_any_edge A n) as Hany.
      { intros n Hnn. split.
        - intros (m & [E|E]); destruct (wf_edge_nodes B _ _ Hw' E) as [H1 H2].
          + destruct (ren_pre f A B m HR H2) as (x & Hx & ->). exists x. left. by apply (ren_edge f A B).
          + destruct (ren_pre f A B m HR H1) as (x & Hx & ->). exists x. right. by apply (ren_edge f A B).
        - intros (m & [E|E]); destruct (wf_edge_nodes A _ _ Hw E) as [H1 H2]; exists (f m); [left|right]; by apply (ren_edge f A B). }
      assert (∀ n, has_any_edge A n → a_has_node A n) as Hanyn. { intros n (m & [E|E]); by destruct (wf_edge_nodes A _ _ Hw E). }
      split.
      + symmetry. apply Hcnt'. destruct (proj1 (Hcnt _) eq_refl) as (reps & H1 & H2 & H3 & H4 & H5). exists (f <$> reps). split_and!.
        * by rewrite fmap_length.
        * apply NoDup_fmap_2_strong; [|done]. intros x y Hx Hy. apply (rn_inj _ _ _ HR); by apply Hanyn, H3.
        * intros y (x & -> & Hx)%elem_of_list_fmap. apply Hany; [by apply Hanyn, H3|by apply H3].
        * intros y y' (x & -> & Hx)%elem_of_list_fmap (x' & -> & Hx')%elem_of_list_fmap Hr. f_equal. apply H4; [done..|].
          apply (ren_links f A B); [done..| | |done]; by apply Hanyn, H3.
        * intros y Hy. assert (a_has_node B y) as HyB. { destruct Hy as (m & [E|E]); by destruct (wf_edge_nodes B _ _ Hw' E). }
          destruct (ren_pre f A B y HR HyB) as (x & Hx & ->). destruct (H5 x) as (r & Hr & Hxr); [by apply Hany|]. exists (f r).
          split; [by apply elem_of_list_fmap_1|]. apply (ren_links f A B); [done..| |done]. by apply Hanyn, H3.
      + intros a b Ha%Hn Hb%Hn. unfold connected. destruct (Hcon a b) as (v & d & Hv & Hvi). destruct (Hcon' (f a) (f b)) as (v' & d' & Hv' & Hvi').
        rewrite Hv, Hv'. rewrite !Hany in Hvi' by done. rewrite (ren_links f A B) in Hvi' by done.
        assert (v' = v) as ->. { apply eq_true_iff_eq. by rewrite Hvi, Hvi'. }
        split; intros [? [= -> _]]; by eexists.
  Qed.
  (** The first part of a traversal. *)
  Lemma shape_traversal f idt V W A B s : represents V A → represents W B → renames f A B →
    (∀ m, v_max_seen_id V = Ok (Some m) → (m < id_card idt)%N) → (∀ m, v_max_seen_id W = Ok (Some m) → (m < id_card idt)%N) →
    a_has_node A s → ∃ k l l' m m',
      (∀ fuel, v_node_count V < fuel → bfs_run idt V fuel (Some s) = Ok l ∧ bfs_run idt W fuel (Some (f s)) = Ok l' ∧
        dfs_run idt V fuel (Some s) = Ok m ∧ dfs_run idt W fuel (Some (f s)) = Ok m') ∧
      (∀ x, x ∈ take k l ↔ reaches A s x) ∧ same_traversal f k l l' ∧ (∀ x, x ∈ take k m ↔ reaches A s x) ∧ same_traversal f k m m'.
  Proof.
    intros HV HW HR Hi Hi' Hs. pose proof (rp_wf _ _ HV) as Hw. pose proof (renames_has_node f A B s HR Hs) as Hfs.
    assert (v_node_count W = v_node_count V) as Hnc.
    { rewrite (rp_node_count _ _ HV), (rp_node_count _ _ HW). unfold a_num_nodes.
      change (length (map_to_list (ag_nodes B)) = length (map_to_list (ag_nodes A))). by rewrite (ren_nodes_list f A B HR), fmap_length. }
    destruct (bfs_thm idt V A HV Hi (Some s) s (conj eq_refl Hs)) as (l & Hl & [N1 _] & _ & T1 & _).
    destruct (traversal_first A s l T1) as (b1 & b2 & Eb & Mb & _).
    destruct (bfs_thm idt W B HW Hi' (Some (f s)) (f s) (conj eq_refl Hfs)) as (l' & Hl' & [N1' _] & _ & T1' & _).
    destruct (traversal_first B (f s) l' T1') as (b1' & b2' & Eb' & Mb' & _).
    destruct (dfs_once idt V A (Some s) s HV Hi (conj eq_refl Hs)) as (m & Hm & Nd & _ & _ & d1 & d2 & Ed & Md).
    destruct (dfs_once idt W B (Some (f s)) (f s) HW Hi' (conj eq_refl Hfs)) as (m' & Hm' & Nd' & _ & _ & d1' & d2' & Ed' & Md').
    assert (∀ x, reaches A s x → a_has_node A x) as Hrn.
    { intros x Hx. clear -Hx Hs Hw. unfold reaches in Hx. induction Hx as [|s y x Hsy _ IH]; [done|]. apply IH. by destruct (wf_edge_nodes A _ _ Hw Hsy). }
    assert (∀ y, reaches B (f s) y ↔ ∃ x, y = f x ∧ reaches A s x) as Hry.
    { intros y. split.
      - intros Hy. assert (a_has_node B y) as HyB.
        { clear -Hy Hfs HW. unfold reaches in Hy. induction Hy as [|u v y Huv _ IH]; [done|]. apply IH. by destruct (wf_edge_nodes B _ _ (rp_wf _ _ HW) Huv). }
        destruct (ren_pre f A B y HR HyB) as (x & Hx & ->). exists x. split; [done|]. by apply (ren_reaches f A B).
      - intros (x & -> & Hx). apply (ren_reaches f A B); auto. }
    rewrite Eb in N1. rewrite Eb' in N1'. rewrite Ed in Nd. rewrite Ed' in Nd'.
    apply NoDup_app in N1 as (N1 & _ & _). apply NoDup_app in N1' as (N1' & _ & _). apply NoDup_app in Nd as (Nd & _ & _). apply NoDup_app in Nd' as (Nd' & _ & _).
    assert (∀ z z', NoDup z → NoDup z' → (∀ x, x ∈ z ↔ reaches A s x) → (∀ x, x ∈ z' ↔ reaches B (f s) x) → z' ≡ₚ f <$> z) as Hperm.
    { intros z z' Nz Nz' Hz Hz'. apply NoDup_Permutation; [done| |].
      - apply NoDup_fmap_2_strong; [|done]. intros x y Hx%Hz Hy%Hz. apply (rn_inj _ _ _ HR); auto.
      - intros y. rewrite Hz', Hry, elem_of_list_fmap. split; intros (x & -> & Hx); exists x; (split; [done|]); by apply Hz. }
    assert (d1 ≡ₚ b1) as P1. { apply NoDup_Permutation; [done..|]. intros x. by rewrite Mb, Md. }
    pose proof (Hperm b1 b1' N1 N1' Mb Mb') as P2. pose proof (Hperm d1 d1' Nd Nd' Md Md') as P3.
    exists (length b1), l, l', m, m'. split; [intros fuel Hf; split_and!; auto; [apply Hl'|apply Hm']; by rewrite Hnc|].
    unfold same_traversal. rewrite Eb, Eb', Ed, Ed', take_app, (take_app_alt b1'), (take_app_alt d1), (take_app_alt d1'); [done|..].
    - by rewrite P3, fmap_length, P1.
    - by rewrite P1.
    - by rewrite P2, fmap_length.
  Qed.
End iso.
