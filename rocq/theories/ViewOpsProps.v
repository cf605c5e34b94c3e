(** Comparison, hashing and cloning through the traits. *)
From Verif Require Import Base BaseFacts Api Spec SpecFacts SpecOps ViewFacts ViewOps Map GraphMap GraphMapProps GraphMapQueries GraphOps GraphOpsFacts GraphOpsProps TraverseProps GraphOpsWit.

Lemma rall_spec {X} (f : X → res bool) (P : X → Prop) l : (∀ x, x ∈ l → ∃ b, f x = Ok b ∧ (b = true ↔ P x)) →
  ∃ b, rall f l = Ok b ∧ (b = true ↔ ∀ x, x ∈ l → P x).
Proof.
  induction l as [|x l IH]; intros Hf; cbn [rall].
  - exists true. split; [done|]. split; [|done]. intros _ x Hx. by apply elem_of_nil in Hx.
  - destruct (Hf x) as (b & -> & Hb); [set_solver|]. cbn [rbind]. destruct b.
    + destruct IH as (b & -> & Hb'); [intros; apply Hf; set_solver|]. exists b. split; [done|]. rewrite Hb'. set_solver.
    + exists false. split; [done|]. set_solver.
Qed.
Lemma sub_size_eq `{Countable K} {X} (m m' : gmap K X) : m ⊆ m' → size m' ≤ size m → m = m'.
Proof.
  intros Hs Hle. rewrite <- (map_difference_union m m') in Hle |- * by done.
  rewrite map_size_disj_union in Hle by (apply map_disjoint_difference_r; done).
  assert (size (m' ∖ m) = 0) as Hz by lia. apply map_size_empty_inv in Hz. rewrite Hz. by rewrite map_union_empty.
Qed.
Section cmp.
  Context {NL EL : Type} `{EqDecision NL, EqDecision EL}.
  Context (V V' : gview NL EL) (A A' : agraph NL EL) (HA : represents V A) (HA' : represents V' A').

  Lemma nodes_included : ∃ b, rall (same_node V V') (v_node_indices V) = Ok b ∧ (b = true ↔ ag_nodes A ⊆ ag_nodes A').
  Proof.
    destruct (rall_spec (same_node V V') (λ n, ag_nodes A' !! n = ag_nodes A !! n) (v_node_indices V)) as (b & Hb & Hiff).
    { intros n Hn. apply (rp_node_indices _ _ HA) in Hn. unfold same_node.
      destruct (v_has_node V' n) eqn:Hh; cbn [negb].
      - apply (rp_has_node _ _ HA') in Hh. rewrite (rep_node_label V A), (rep_node_label V' A') by done. cbn [rbind].
        eexists. split; [done|]. rewrite bool_decide_eq_true. destruct Hn as [l ->], Hh as [l' ->]. simpl. naive_solver.
      - exists false. split; [done|]. split; [done|]. intros Heq. rewrite <- Hh. apply (rp_has_node _ _ HA').
        unfold a_has_node in *. by rewrite Heq. }
    exists b. split; [done|]. rewrite Hiff, map_subseteq_spec. split.
    - intros Hall n l Hl. rewrite Hall; [done|]. apply (rp_node_indices _ _ HA). by eexists.
    - intros Hsub n Hn. apply (rp_node_indices _ _ HA) in Hn as [l Hl]. rewrite Hl. by apply Hsub.
  Qed.
  Lemma edges_included es : ag_dir A = ag_dir A' → v_edge_indices V = Ok es → ag_nodes A ⊆ ag_nodes A' →
    ∃ b, rall (same_edge V V') es = Ok b ∧ (b = true ↔ ag_edges A ⊆ ag_edges A').
  Proof.
    intros Hdir Hes Hsub. destruct (rp_edge_indices _ _ HA) as (es' & Hes' & Hl). rewrite Hes in Hes'. injection Hes' as <-.
    assert (∀ e, e ∈ es → ag_edges A !! e = a_edge_at A e.1 e.2 ∧ ag_edges A' !! e = a_edge_at A' e.1 e.2 ∧ a_has_edge A e.1 e.2) as He.
    { intros [x y] He. apply Hl in He. pose proof He as Hk. apply (rp_wf _ _ HA) in Hk as (Hk & _). simpl.
      unfold a_has_edge, a_edge_at. rewrite <- Hdir, Hk. done. }
    destruct (rall_spec (same_edge V V') (λ e, ag_edges A' !! e = ag_edges A !! e) es) as (b & Hb & Hiff).
    { intros e Hin. destruct (He e Hin) as (-> & -> & Hedge). pose proof (wf_edge_nodes A _ _ (rp_wf _ _ HA) Hedge) as [[l Hs] _].
      assert (a_has_node A' e.1) as Hs'. { exists l. by apply (lookup_weaken (ag_nodes A)). }
      unfold same_edge. destruct (rp_has_edge _ _ HA' e.1 e.2 Hs') as (b & -> & Hb). cbn [rbind]. destruct b; cbn [negb].
      - destruct Hb as [Hb _]. specialize (Hb eq_refl). rewrite (rep_edge_label V A), (rep_edge_label V' A') by done. cbn [rbind].
        eexists. split; [done|]. rewrite bool_decide_eq_true. destruct Hedge as [x ->], Hb as [x' ->]. simpl. naive_solver.
      - exists false. split; [done|]. split; [done|]. intros Heq. apply Hb. unfold a_has_edge. by rewrite Heq. }
    exists b. split; [done|]. rewrite Hiff, map_subseteq_spec. split.
    - intros Hall n l Hn. rewrite Hall; [done|]. apply Hl. by eexists.
    - intros Hs n Hn. apply Hl in Hn as [l Hn]. rewrite Hn. by apply Hs.
  Qed.
  Lemma included_spec : ag_dir A = ag_dir A' →
    ∃ b, included V V' = Ok b ∧ (b = true ↔ ag_nodes A ⊆ ag_nodes A' ∧ ag_edges A ⊆ ag_edges A').
  Proof.
    intros Hdir. unfold included. destruct nodes_included as (b & -> & Hb). cbn [rbind]. destruct b; cbn [negb].
    - destruct (rp_edge_indices _ _ HA) as (es & Hes & _). rewrite Hes. cbn [rbind].
      destruct (edges_included es Hdir Hes) as (b & -> & Hb'); [by apply Hb|]. exists b. split; [done|]. rewrite Hb'.
      split; [|tauto]. intros ?. split; [by apply Hb|done].
    - exists false. split; [done|]. split; [done|]. intros [H _]. by apply Hb.
  Qed.

  Lemma eq_thm : ag_dir A = ag_dir A' → ∃ b, graph_eq V V' = Ok b ∧
    (b = true ↔ ag_nodes A ⊆ ag_nodes A' ∧ ag_edges A ⊆ ag_edges A' ∧
       usize_not (v_node_count V) ≠ N.of_nat (v_node_count V') ∧ usize_not (v_edge_count V) ≠ N.of_nat (v_edge_count V')).
  Proof.
    intros Hdir. unfold graph_eq.
    destruct (decide (usize_not (v_node_count V) = N.of_nat (v_node_count V'))); [exists false; naive_solver|].
    destruct (decide (usize_not (v_edge_count V) = N.of_nat (v_edge_count V'))); [exists false; naive_solver|].
    destruct (included_spec Hdir) as (b & -> & Hb). exists b. split; [done|]. rewrite Hb. tauto.
  Qed.

  Lemma equal_thm : exact_count V A → exact_count V' A' → ∃ b, v_equal V V' = Ok b ∧ (b = true ↔ A = A').
  Proof.
    intros Hc Hc'. unfold v_equal, exact_count in *.
    destruct (decide (v_directed V ≠ v_directed V' ∨ v_node_count V ≠ v_node_count V' ∨ v_edge_count V ≠ v_edge_count V')) as [Hd|Hd].
    - exists false. split; [done|]. split; [done|]. intros ->. destruct Hd as [Hd|[Hd|Hd]].
      + by rewrite (rp_directed _ _ HA), (rp_directed _ _ HA') in Hd.
      + by rewrite (rp_node_count _ _ HA), (rp_node_count _ _ HA') in Hd.
      + congruence.
    - assert (ag_dir A = ag_dir A') as Hdir.
      { rewrite <- (rp_directed _ _ HA), <- (rp_directed _ _ HA'). destruct (v_directed V), (v_directed V'); naive_solver. }
      assert (size (ag_nodes A) = size (ag_nodes A')) as Hn.
      { pose proof (rp_node_count _ _ HA) as H1. pose proof (rp_node_count _ _ HA') as H2. unfold a_num_nodes in *.
        destruct (decide (v_node_count V = v_node_count V')); [congruence|naive_solver]. }
      assert (size (ag_edges A) = size (ag_edges A')) as He.
      { unfold a_num_edges in *. destruct (decide (v_edge_count V = v_edge_count V')); [congruence|naive_solver]. }
      destruct (included_spec Hdir) as (b & -> & Hb). exists b. split; [done|]. rewrite Hb. split; [|by intros ->].
      intros [Hsn Hse]. destruct A as [d n e], A' as [d' n' e']. simpl in *. subst d'. f_equal.
      + apply (sub_size_eq n n'); [done|lia].
      + apply (sub_size_eq e e'); [done|lia].
  Qed.
End cmp.

#[export] Instance pair_le_trans : Transitive pair_le.
Proof. intros x y z. unfold pair_le. lia. Qed.
#[export] Instance pair_le_total : Total pair_le.
Proof. intros x y. unfold pair_le. destruct (N.lt_trichotomy x.1 y.1) as [?|[?|?]]; [tauto| |right; lia]. destruct (N.le_ge_cases x.2 y.2); [left|right]; lia. Qed.
#[export] Instance pair_le_antisymm : AntiSymm (=) pair_le.
Proof. intros [x1 x2] [y1 y2]. unfold pair_le. simpl. intros. f_equal; lia. Qed.
Lemma sorted_ids_perm l l' : l ≡ₚ l' → sorted_ids l = sorted_ids l'.
Proof.
  intros Hp. apply (StronglySorted_unique N.le); [apply (StronglySorted_merge_sort _)..|]. unfold sorted_ids. by rewrite !merge_sort_Permutation.
Qed.
Lemma sorted_pairs_perm l l' : l ≡ₚ l' → sorted_pairs l = sorted_pairs l'.
Proof.
  intros Hp. apply (StronglySorted_unique pair_le); [apply (StronglySorted_merge_sort _)..|]. unfold sorted_pairs. by rewrite !merge_sort_Permutation.
Qed.

Section hash.
  Context {NL EL : Type}.
  Implicit Types (V : gview NL EL) (A : agraph NL EL).
  Definition h_stream (ns : list N) (es : list (N * N)) A : list (@htok NL EL) :=
    h_vec (λ n, [HId n]) ns ++ h_vec (h_opt HNodeLabel) ((λ n, label_of (ag_nodes A !! n)) <$> ns) ++
    h_vec (λ e, [HId e.1; HId e.2]) es ++ h_vec (h_opt HEdgeLabel) ((λ e, label_of (a_edge_at A e.1 e.2)) <$> es).
  Lemma hash_run V A es : represents V A → v_edge_indices V = Ok es →
    graph_hash V = Ok (h_stream (sorted_ids (v_node_indices V)) (sorted_pairs es) A).
  Proof.
    intros H Hes. destruct (rp_edge_indices _ _ H) as (es' & Hes' & Hl). rewrite Hes in Hes'. injection Hes' as <-.
    unfold graph_hash.
    rewrite (rmapl_ext _ (λ n, Ok (label_of (ag_nodes A !! n)))), rmapl_ok_fmap.
    2:{ intros n Hn. apply (rep_node_label V A); [done|]. apply (rp_node_indices _ _ H). unfold sorted_ids in Hn. by rewrite merge_sort_Permutation in Hn. }
    cbn [rbind]. rewrite Hes. cbn [rbind].
    rewrite (rmapl_ext _ (λ e, Ok (label_of (a_edge_at A e.1 e.2)))), rmapl_ok_fmap; [done|].
    intros e Hn. apply (rep_edge_label V A); [done|]. unfold sorted_pairs in Hn. rewrite merge_sort_Permutation in Hn.
    apply Hl in Hn. destruct e as [x y]. pose proof Hn as Hk. apply (rp_wf _ _ H) in Hk as (Hk & _). simpl in *.
    unfold a_has_edge, a_edge_at. by rewrite Hk.
  Qed.
  Lemma graph_hash_thm V V' A : represents V A → represents V' A → ∃ h, graph_hash V = Ok h ∧ graph_hash V' = Ok h.
  Proof.
    intros H H'. destruct (rp_edge_indices _ _ H) as (es & Hes & Hl). destruct (rp_edge_indices _ _ H') as (es' & Hes' & Hl').
    rewrite (hash_run V A es), (hash_run V' A es') by done. eexists. split; [done|].
    rewrite (sorted_ids_perm (v_node_indices V) (v_node_indices V')), (sorted_pairs_perm es es'); [done|..].
    - by eapply lists_exactly_perm.
    - eapply lists_exactly_perm; [apply (rp_node_indices _ _ H)|apply (rp_node_indices _ _ H')].
  Qed.
  Lemma box_hash_thm V V' A : represents V A → represents V' A → ∃ h, box_hash V = Ok h ∧ box_hash V' = Ok h.
  Proof.
    intros H H'. destruct (graph_hash_thm V V' A H H') as (h & Hh & Hh'). unfold box_hash. rewrite Hh, Hh'. cbn [rbind].
    rewrite (rp_is_di _ _ H), (rp_is_di _ _ H'). eauto.
  Qed.
End hash.

Section clone.
  Context {NL EL : Type} `{EqDecision NL, EqDecision EL} (lt : idty).
  Implicit Types (V : gview NL EL) (A : agraph NL EL).
  Lemma empty_represents dir : represents (gm_view dir [] (gm_new (NL:=NL) (EL:=EL))) (a_empty dir).
  Proof.
    destruct (refinement (NL:=NL) (EL:=EL) dir TUsize [] [] [] [] (s_init dir [] [])) as (g & Hg & Hv); [constructor|constructor|done| | |].
    1,2: unfold labels_fit; simpl; lia.
    injection Hg as <-. destruct (Hv []) as (H & _); [|exact H]. unfold hash_order. by vm_compute.
  Qed.
  Lemma clone_thm V A nls els : represents V A → uses_labels A nls els → labels_fit lt nls → labels_fit lt els →
    ∃ g, box_clone lt V = Ok g ∧ ∀ it, hash_order g it → shows (gm_view (ag_dir A) it g) A.
  Proof.
    intros H Hu HN HE. unfold box_clone. rewrite (rp_is_di _ _ H).
    destruct (union_thm lt V A (gm_view (ag_dir A) [] gm_new) (a_empty (ag_dir A)) nls els) as (g & Hg & HV); [done|apply empty_represents| |done| |done|done|].
    - simpl. by destruct (ag_dir A); [left|right].
    - split; simpl; intros ? ?; by rewrite lookup_empty.
    - exists g. split; [done|]. intros it Hit. destruct (HV it Hit) as (H1 & H2 & H3 & H4).
      assert (a_union A (a_empty (ag_dir A)) = A) as Hu'. { destruct A as [d n e]. unfold a_union. simpl. by rewrite !(left_id_L ∅ (∪)). }
      rewrite Hu' in H1, H2. split_and!; [done..|]. unfold exact_count. rewrite H4. unfold a_num_edges. simpl. rewrite map_size_empty. lia.
  Qed.
  Lemma clone_equal_thm V A nls els : represents V A → uses_labels A nls els → labels_fit lt nls → labels_fit lt els →
    ∃ g, box_clone lt V = Ok g ∧ ∀ it, hash_order g it →
      ∃ b, v_equal V (gm_view (ag_dir A) it g) = Ok b ∧ (b = true ↔ exact_count V A).
  Proof.
    intros H Hu HN HE. destruct (clone_thm V A nls els) as (g & Hg & HV); [done..|]. exists g. split; [done|].
    intros it Hit. destruct (HV it Hit) as (H1 & H2 & H3 & H4).
    destruct (decide (v_edge_count V = a_num_edges A)) as [Hc|Hc].
    - destruct (equal_thm V _ A A H H1 Hc H4) as (b & Hb & Hiff). exists b. split; [done|]. unfold exact_count. tauto.
    - exists false. split; [|split; [done|]; intros ?; by destruct Hc].
      unfold v_equal. rewrite decide_True; [done|]. right. right. unfold exact_count in H4. congruence.
  Qed.
End clone.

Section counter.
  Context {NL EL : Type} `{EqDecision NL, EqDecision EL}.
  Implicit Types (V : gview NL EL) (A : agraph NL EL).
  Lemma counter_size `{Countable K} {X} `{EqDecision X} (m : gmap K (option X)) (ks : list K) (x : X) :
    lists_exactly ks (λ k, is_Some (m !! k)) →
    counter_get x (omap id ((λ k, label_of (m !! k)) <$> ks)) = size (filter (λ p : K * option X, p.2 = Some x) m).
  Proof.
    intros [Hnd Hl]. rewrite <- (lists_exactly_length (filter (λ k, m !! k = Some (Some x)) ks)).
    - unfold counter_get. clear Hnd Hl. induction ks as [|k ks IH]; [done|]. csimpl. rewrite filter_cons.
      destruct (decide (m !! k = Some (Some x))) as [Hk|Hk].
      + rewrite Hk. cbn [label_of id]. rewrite filter_cons. destruct (decide (x = x)); [|done]. cbn [length]. by rewrite IH.
      + destruct (m !! k) as [[y|]|] eqn:Hy; cbn [label_of id]; [|done..]. rewrite filter_cons.
        destruct (decide (y = x)); [congruence|done].
    - split; [by apply NoDup_filter|]. intros k. rewrite elem_of_list_filter, Hl. split.
      + intros [Hk _]. exists (Some x). by apply map_filter_lookup_Some.
      + intros [o Ho]. apply map_filter_lookup_Some in Ho as [Ho ?]. simpl in *. subst. eauto.
  Qed.
  Lemma node_counter_thm V A : represents V A → ∃ c, v_node_label_counter V = Ok c ∧
    ∀ l, counter_get l c = size (filter (λ p : N * option NL, p.2 = Some l) (ag_nodes A)).
  Proof.
    intros H. unfold v_node_label_counter.
    rewrite (rmapl_ext _ (λ n, Ok (label_of (ag_nodes A !! n)))), rmapl_ok_fmap.
    2:{ intros n Hn. apply (rep_node_label V A); [done|]. by apply (rp_node_indices _ _ H). }
    cbn [rbind]. eexists. split; [done|]. intros l. apply counter_size, (rp_node_indices _ _ H).
  Qed.
  Lemma edge_counter_thm V A : represents V A → ∃ c, v_edge_label_counter V = Ok c ∧
    ∀ l, counter_get l c = size (filter (λ p : (N * N) * option EL, p.2 = Some l) (ag_edges A)).
  Proof.
    intros H. unfold v_edge_label_counter. destruct (rp_edge_indices _ _ H) as (es & -> & Hl). cbn [rbind].
    assert (∀ e, e ∈ es → ag_edges A !! e = a_edge_at A e.1 e.2 ∧ a_has_edge A e.1 e.2) as He.
    { intros [x y] He. apply Hl in He. pose proof He as Hk. apply (rp_wf _ _ H) in Hk as (Hk & _). simpl.
      unfold a_has_edge, a_edge_at. by rewrite Hk. }
    rewrite (rmapl_ext _ (λ e, Ok (label_of (ag_edges A !! e)))), rmapl_ok_fmap.
    2:{ intros e Hin. destruct (He e Hin) as [-> ?]. by apply (rep_edge_label V A). }
    cbn [rbind]. eexists. split; [done|]. intros l. by apply counter_size.
  Qed.
End counter.
