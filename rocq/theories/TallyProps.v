(** Proofs for C116: degrees, edges and components of one graph add up. *)
From Verif Require Import Base BaseFacts Api Spec SpecFacts ViewFacts SpecConn ConnComp ConnCompFacts ConnCompProps SpecConnGrow ConnGrowProps.

Lemma square_length (k l : list N) : length (k ≫= λ n, (λ t, (n, t)) <$> l) = length k * length l.
Proof. induction k as [|n k IH]; csimpl; [done|]. rewrite app_length, fmap_length. lia. Qed.
Section degrees.
  Context {NL EL : Type}.
  Implicit Types (V : gview NL EL) (A : agraph NL EL).

  (** All pairs (node, neighbour). *)
  Definition nbrs V (n : N) : list N := match v_neighbors V n with Ok l => l | _ => [] end.
  Definition arcs V : list (N * N) := v_node_indices V ≫= λ n, (λ t, (n, t)) <$> nbrs V n.
  Lemma arcs_exact V A : represents V A → lists_exactly (arcs V) (λ e, a_has_edge A e.1 e.2).
  Proof.
    intros H. assert (∀ n, n ∈ v_node_indices V → a_has_node A n) as Hidx by (intros n; apply (rp_node_indices _ _ H)). split.
    - apply NoDup_bind'.
      + intros x1 x2 y _ _ (t1 & -> & _)%elem_of_list_fmap (t2 & ? & _)%elem_of_list_fmap. congruence.
      + intros n Hn%Hidx. apply NoDup_fmap_2; [by intros ?? [= ->]|]. unfold nbrs.
        destruct (rp_neighbors _ _ H n Hn) as (l & -> & Hinc & _). by apply increasing_NoDup.
      + apply (rp_node_indices _ _ H).
    - intros [s t]. unfold arcs. rewrite elem_of_list_bind. cbn [fst snd]. split.
      + intros (n & (t' & Heq & Ht)%elem_of_list_fmap & Hn%Hidx). injection Heq as -> ->.
        unfold nbrs in Ht. destruct (rp_neighbors _ _ H n Hn) as (l & Hl & _ & Hm). rewrite Hl in Ht. by apply Hm.
      + intros He. pose proof (wf_edge_nodes A s t (rp_wf _ _ H) He) as [Hs _].
        exists s. split; [|by apply (rp_node_indices _ _ H)]. apply elem_of_list_fmap. exists t. split; [done|].
        unfold nbrs. destruct (rp_neighbors _ _ H s Hs) as (l & -> & _ & Hm). by apply Hm.
  Qed.
  Lemma degrees V A : represents V A → ∃ ds, rmapl (v_degree V) (v_node_indices V) = Ok ds ∧ sum_list ds = length (arcs V).
  Proof.
    intros H. exists ((λ n, length (nbrs V n)) <$> v_node_indices V). split.
    - rewrite <-rmapl_ok_fmap. apply rmapl_ext. intros n Hn%(rp_node_indices _ _ H). rewrite (rp_degree _ _ H n Hn).
      unfold nbrs. destruct (rp_neighbors _ _ H n Hn) as (l & -> & _). done.
    - unfold arcs. clear. induction (v_node_indices V) as [|n l IH]; csimpl; [done|]. rewrite app_length, fmap_length. lia.
  Qed.

  Lemma directed_sum V A : represents V A → v_directed V = true →
    ∃ ds is es, rmapl (v_degree V) (v_node_indices V) = Ok ds ∧ rmapl (v_in_degree V) (v_node_indices V) = Ok is ∧ v_edge_indices V = Ok es ∧
      sum_list ds = length es ∧ sum_list is = length es ∧ length es ≤ v_node_count V * v_node_count V.
  Proof.
    intros H Hd. rewrite (rp_directed _ _ H) in Hd.
    destruct (degree_sum _ _ H Hd) as (ds & Hds & Hs1). destruct (in_degree_sum _ _ H Hd) as (is & His & Hs2).
    destruct (rp_edge_indices _ _ H) as (es & Hes & Hl). pose proof Hl as Hl'. apply lists_exactly_length in Hl'.
    exists ds, is, es. split_and!; try done; [by rewrite Hs1|by rewrite Hs2|].
    pose proof (rp_node_indices _ _ H) as Hix. pose proof (lists_exactly_length _ _ Hix) as Hnc.
    assert (es ⊆+ (v_node_indices V ≫= λ n, (λ t, (n, t)) <$> v_node_indices V)) as Hsub.
    { apply NoDup_submseteq; [apply Hl|]. intros [s t] He. apply Hl in He. destruct (rp_wf _ _ H s t He) as (_ & Hs & Ht).
      apply elem_of_list_bind. exists s. split; [|by apply Hix]. apply elem_of_list_fmap. exists t. split; [done|]. by apply Hix. }
    apply submseteq_length in Hsub. rewrite (rp_node_count _ _ H). unfold a_num_nodes. rewrite <-Hnc.
    rewrite square_length in Hsub. exact Hsub.
  Qed.
  Definition swap (e : N * N) : N * N := (e.2, e.1).
  Lemma undirected_sum V A : represents V A → v_directed V = false →
    ∃ ds es, rmapl (v_degree V) (v_node_indices V) = Ok ds ∧ v_edge_indices V = Ok es ∧
      sum_list ds + length (filter (λ e, e.1 = e.2) es) = 2 * length es ∧ 2 * length es ≤ v_node_count V * S (v_node_count V).
  Proof.
    intros H Hd. rewrite (rp_directed _ _ H) in Hd. destruct (degrees V A H) as (ds & Hds & Hsum).
    destruct (rp_edge_indices _ _ H) as (es & Hes & Hl). exists ds, es. split; [done|]. split; [done|].
    assert (∀ e, e ∈ es → (e.1 ≤ e.2)%N) as Hle.
    { intros [s t] He. apply Hl in He. destruct (rp_wf _ _ H s t He) as [Hk _]. rewrite Hd in Hk. unfold ekey in Hk. injection Hk as H1 H2. cbn. lia. }
    set (ps := filter (λ e, e.1 ≠ e.2) es).
    assert (arcs V ≡ₚ es ++ (swap <$> ps)) as HP.
    { apply NoDup_Permutation; [apply (arcs_exact V A H)| |].
      - apply NoDup_app. split; [apply Hl|]. split.
        + intros e He ([s t] & -> & Hp)%elem_of_list_fmap. unfold ps in Hp. apply elem_of_list_filter in Hp as [Hne Hp]. apply Hle in Hp. apply Hle in He.
          cbn in *. lia.
        + apply NoDup_fmap_2; [intros [] [] [= -> ->]; done|]. apply NoDup_filter, Hl.
      - intros [s t]. rewrite (proj2 (arcs_exact V A H)), elem_of_app, elem_of_list_fmap. cbn [fst snd].
        unfold a_has_edge, a_edge_at. rewrite Hd. unfold ekey.
        assert (∀ e, e ∈ es ↔ is_Some (ag_edges A !! e)) as Hin by apply Hl. split.
        + intros He. apply Hin in He. destruct (decide (s ≤ t)%N).
          * left. by rewrite N.min_l, N.max_r in He by lia.
          * right. rewrite N.min_r, N.max_l in He by lia. exists (t, s). split; [done|]. unfold ps. apply elem_of_list_filter. split; [cbn; lia|done].
        + intros [He|([t' s'] & Heq & Hp)].
          * pose proof (Hle _ He). cbn in *. rewrite N.min_l, N.max_r by lia. by apply Hin.
          * unfold swap in Heq. cbn in Heq. injection Heq as -> ->. unfold ps in Hp. apply elem_of_list_filter in Hp as [Hne Hp]. pose proof (Hle _ Hp). cbn in *.
            rewrite N.min_r, N.max_l by lia. by apply Hin. }
    assert (length ps + length (filter (λ e, e.1 = e.2) es) = length es) as Hf.
    { unfold ps. clear. induction es as [|e es IH]; [done|]. rewrite !filter_cons. destruct (decide (e.1 = e.2)).
      - rewrite (decide_False (P := e.1 ≠ e.2)) by naive_solver. cbn. lia.
      - rewrite (decide_True (P := e.1 ≠ e.2)) by done. cbn. lia. }
    apply Permutation_length in HP. rewrite app_length, fmap_length in HP. split; [lia|].
    (* es and the swapped pairs are at most n * n pairs, the loops at most n *)
    pose proof (rp_node_indices _ _ H) as Hix. pose proof (lists_exactly_length _ _ Hix) as Hnc.
    rewrite (rp_node_count _ _ H). unfold a_num_nodes. rewrite <-Hnc.
    assert (arcs V ⊆+ (v_node_indices V ≫= λ n, (λ t, (n, t)) <$> v_node_indices V)) as Hsub.
    { apply NoDup_submseteq; [apply (arcs_exact V A H)|]. intros [s t] He. apply (arcs_exact V A H) in He. cbn in He. destruct (wf_edge_nodes A s t (rp_wf _ _ H) He).
      apply elem_of_list_bind. exists s. split; [|by apply Hix]. apply elem_of_list_fmap. exists t. split; [done|]. by apply Hix. }
    apply submseteq_length in Hsub.
    assert (length (filter (λ e, e.1 = e.2) es) ≤ length (v_node_indices V)) as Hloops.
    { rewrite <-(fmap_length fst). apply submseteq_length, NoDup_submseteq.
      - assert (∀ l : list (N * N), NoDup l → NoDup (filter (λ e, e.1 = e.2) l).*1) as Hnd.
        { clear. intros l. induction 1 as [|e l Hn _ IH]; [constructor|]. rewrite filter_cons. destruct (decide (e.1 = e.2)) as [He|]; [|done].
          constructor; [|done]. intros (e' & H1 & [H2 H3]%elem_of_list_filter)%elem_of_list_fmap. apply Hn. destruct e, e'. cbn in *. by subst. }
        apply Hnd, Hl.
      - intros x (e & -> & [_ He]%elem_of_list_filter)%elem_of_list_fmap. apply Hl in He. destruct e as [s t]. destruct (rp_wf _ _ H s t He) as (_ & Hs & _). by apply Hix. }
    rewrite square_length in Hsub. lia.
  Qed.
End degrees.

(** ** Components *)
Lemma feed_count {E} (es : list (N * N * E)) : ∃ c, rfold (λ c e, cc_process e.1.1 e.1.2 c) es cc_empty = Ok c ∧ cinv es.*1 c ∧
  size (dom (cc_parent c) : gset N) ≤ cc_count c + length es ∧ cc_count c ≤ length es.
Proof.
  apply (rfold_ind (λ es c, cinv es.*1 c ∧ size (dom (cc_parent c) : gset N) ≤ cc_count c + length es ∧ cc_count c ≤ length es)).
  { split; [apply cinv_empty|]. cbn. rewrite dom_empty_L. split; [by vm_compute|lia]. }
  intros l1 [[x y] lid] l2 c _ (Hc & Hd & Hm). destruct (process_spec _ c x y Hc) as (c' & Hp & Hc'). exists c'. split; [done|].
  split; [by rewrite fmap_app|]. rewrite app_length. cbn [length].
  assert (∀ n, n ∈ (dom (cc_parent c) : gset N) ↔ known c n) as Hk. { intros n. apply elem_of_dom. }
  assert (dom (cc_parent c') = dom (cc_parent c) ∪ {[x; y]}) as Hdom.
  { apply set_eq. intros n. rewrite elem_of_union, Hk. rewrite elem_of_dom, (ci_dom _ _ Hc'). unfold known, cc_get_parent.
    rewrite (ci_dom _ _ Hc), seen_app, elem_of_union, !elem_of_singleton. done. }
  destruct (process_count _ _ _ _ _ Hc Hp) as (P1 & P2 & P3 & P4 & P5). unfold cc_get_count in *. rewrite Hdom.
  assert (∀ X : gset N, size (X ∪ {[x; y]}) ≤ size X + 2) as H2. { intros X. rewrite size_union_alt. assert (size (({[x; y]} : gset N) ∖ X) ≤ 2); [|lia].
    transitivity (size ({[x; y]} : gset N)); [apply subseteq_size; set_solver|]. rewrite size_union_alt, size_singleton. assert (size (({[y]} : gset N) ∖ {[x]}) ≤ 1); [|lia].
    etransitivity; [apply (subseteq_size _ {[y]}); set_solver|]. by rewrite size_singleton. }
  assert (∀ (X : gset N) z, size (X ∪ {[z]}) ≤ size X + 1) as H1.
  { intros X z. rewrite size_union_alt. assert (size (({[z]} : gset N) ∖ X) ≤ 1); [|lia]. etransitivity; [apply (subseteq_size _ {[z]}); set_solver|]. by rewrite size_singleton. }
  destruct (decide (known c x)) as [Kx|Kx], (decide (known c y)) as [Ky|Ky].
  - assert (dom (cc_parent c) ∪ {[x; y]} = dom (cc_parent c)) as ->. { apply Hk in Kx, Ky. set_solver. }
    destruct (is_connected_spec _ c x y Hc) as (v & d & Hv & _). destruct v.
    + rewrite (P1 Kx Ky) by (by eexists). lia.
    + assert (¬ connected c x y) as Hn. { intros [d' Hd']. congruence. } specialize (P2 Kx Ky Hn). lia.
  - rewrite (P3 Kx Ky). assert (dom (cc_parent c) ∪ {[x; y]} = dom (cc_parent c) ∪ {[y]}) as ->. { apply Hk in Kx. set_solver. }
    specialize (H1 (dom (cc_parent c)) y). lia.
  - rewrite (P4 Kx Ky). assert (dom (cc_parent c) ∪ {[x; y]} = dom (cc_parent c) ∪ {[x]}) as ->. { apply Hk in Ky. set_solver. }
    specialize (H1 (dom (cc_parent c)) x). lia.
  - rewrite (P5 Kx Ky). specialize (H2 (dom (cc_parent c))). lia.
Qed.

Section components.
  Context {NL EL : Type} (V : gview NL EL) (A : agraph NL EL) (Hrep : represents V A) (Hiter : iterates V).
  Lemma component_count : ∃ c es, cc_new V = Ok c ∧ v_edge_indices V = Ok es ∧ cc_get_count c ≤ length es ∧
    (∀ ns, NoDup ns → (∀ n, n ∈ ns → ∃ m, (n, m) ∈ es ∨ (m, n) ∈ es) → length ns ≤ cc_get_count c + length es) ∧
    ((∀ a b, v_has_node V a = true → v_has_node V b = true → connected c a b) → v_node_count V ≤ S (length es)).
  Proof using Hrep Hiter.
    destruct (edges_pairs V A Hrep Hiter) as (es & Hes & Hix & Hel). destruct (feed_count es) as (c & Hc & Hinv & Hd & Hm).
    exists c, es.*1. unfold cc_new, cc_run_detection. rewrite Hes. split; [done|]. split; [done|]. rewrite fmap_length. split; [done|].
    assert (∀ ns, NoDup ns → (∀ n, n ∈ ns → known c n) → length ns ≤ size (dom (cc_parent c) : gset N)) as Hns.
    { intros ns Hnd Hk. rewrite <-(size_list_to_set (C := gset N)) by done. apply subseteq_size. intros n Hn. apply elem_of_list_to_set in Hn. apply elem_of_dom. by apply Hk. }
    split.
    - intros ns Hnd Hk. transitivity (size (dom (cc_parent c) : gset N)); [|done]. apply Hns; [done|]. intros n Hn. apply (known_seen _ c n Hinv).
      destruct (Hk n Hn) as (m & [H|H]); eexists; (split; [exact H|]); [by left|by right].
    - intros Hall. pose proof (rp_node_indices _ _ Hrep) as Hni. rewrite (rp_node_count _ _ Hrep). unfold a_num_nodes. rewrite <-(lists_exactly_length _ _ Hni).
      destruct (v_node_indices V) as [|n0 ns0] eqn:Hl; [cbn; lia|]. rewrite <-Hl in *.
      assert (∀ n, n ∈ v_node_indices V → v_has_node V n = true) as Hn1. { intros n Hn%Hni. by apply (rp_has_node _ _ Hrep). }
      assert (∀ a b, a ∈ v_node_indices V → b ∈ v_node_indices V → joined es.*1 a b) as Hj.
      { intros a b Ha%Hn1 Hb%Hn1. apply (connected_joined _ c a b Hinv). by apply Hall. }
      assert (length (v_node_indices V) ≤ size (dom (cc_parent c) : gset N)) as Hle.
      { apply Hns; [apply Hni|]. intros n Hn. apply (known_seen _ c n Hinv). by destruct (Hj n n Hn Hn). }
      destruct (count_components _ c Hinv) as (reps & Hlen & Hnd & H1 & H2 & _).
      assert (length reps ≤ 1) as Hr.
      { destruct reps as [|r [|r' reps]]; [cbn; lia|cbn; lia|]. exfalso.
        assert (∀ r, seen es.*1 r → r ∈ v_node_indices V) as Hin.
        { intros q ([x y] & He & Hq). apply Hel in He. destruct (rp_wf _ _ Hrep x y He) as (_ & Hx & Hy). apply Hni. destruct Hq as [-> | ->]; done. }
        assert (r = r') as <-. { apply H2; [set_solver..|]. apply Hj; apply Hin, H1; set_solver. }
        apply NoDup_cons in Hnd as [Hx _]. apply Hx. set_solver. }
      unfold cc_get_count in Hlen. lia.
  Qed.
End components.
