(** Union and difference of graphs. *)
From Verif Require Import Base BaseFacts Api Spec SpecFacts SpecOps Map GraphMap GraphMapProps GraphMapThms ViewFacts GraphOps GraphOpsFacts TraverseProps.

Lemma ag_eq {NL EL} (A B : agraph NL EL) : ag_dir A = ag_dir B → (∀ k, ag_nodes A !! k = ag_nodes B !! k) →
  (∀ k, ag_edges A !! k = ag_edges B !! k) → A = B.
Proof. destruct A, B. simpl. intros -> ?%map_eq ?%map_eq. by subst. Qed.

Section ops.
  Context {NL EL : Type} `{EqDecision NL, EqDecision EL} (lt : idty).
  Implicit Types (V : gview NL EL) (A : agraph NL EL).

  (** A whole construction: if the history is fine in the specification, so is the graph. *)
  Lemma built dir h rs s nls els :
    spec_run h (s_init dir [] []) = SOk (rs, s) → within s nls els → labels_fit lt nls → labels_fit lt els →
    ∃ g, rmap snd (gm_run dir lt h (gm_new : graphmap NL EL)) = Ok g ∧ ∀ it, hash_order g it →
      let V := gm_view dir it g in
      represents V (sp_g s) ∧ answers_missing V (sp_g s) ∧ iterates V ∧ v_edge_count V = sp_count s.
  Proof.
    intros Hs Hw HN HE. destruct (within_fit lt s nls els Hw HN HE) as [Hn He].
    destruct (refinement dir lt [] [] h rs s) as (g & Hg & Hv); [constructor|constructor|done..|].
    exists g. change (gm_new : graphmap NL EL) with (gm_with_label_map [] [] : graphmap NL EL). rewrite Hg.
    split; [done|]. intros it Hit. destruct (Hv it Hit) as (?&?&?&?&_). done.
  Qed.
  (** The nodes and edges of one graph. *)
  Lemma build_copy V A es nls els : represents V A → v_edge_indices V = Ok es → uses_labels A nls els →
    ∃ rs s, spec_run (node_ops (nlab A) (v_node_indices V) ++ edge_ops (elab A) es) (s_init (ag_dir A) [] []) = SOk (rs, s) ∧
      within s nls els ∧ sp_g s = A ∧ sp_count s = a_num_edges A.
  Proof.
    intros Hrep Hes Hu. destruct (rp_edge_indices _ _ Hrep) as (es' & Hes' & Hl). rewrite Hes in Hes'. injection Hes' as <-.
    destruct (build_nodes (nlab A) nls els (v_node_indices V) (s_init (ag_dir A) [] [])) as (rs1 & s1 & Hr1 & Hw1 & Hd1 & He1 & Hc1 & Hn1).
    { unfold within. simpl. split_and!; [constructor|constructor|set_solver|set_solver]. }
    { intros n l. apply (nlab_uses V A Hrep nls els n l Hu). }
    assert (∀ k, ag_nodes (sp_g s1) !! k = ag_nodes A !! k) as Hnodes.
    { intros k. rewrite Hn1. destruct (decide (k ∈ v_node_indices V)) as [Hk|Hk].
      - apply (rp_node_indices _ _ Hrep) in Hk. by rewrite (nlab_some A).
      - simpl. rewrite lookup_empty. symmetry. apply eq_None_not_Some. intros Hk'. apply Hk. by apply (rp_node_indices _ _ Hrep). }
    destruct (build_edges_distinct (elab A) nls els es s1 (ag_dir A)) as (rs2 & s2 & Hr2 & Hw2 & Hd2 & Hn2 & Hc2 & He2).
    { done. } { done. } { intros e l. apply (elab_uses V A Hrep nls els es e l Hes Hu). }
    { intros e He. apply Hl in He. destruct e as [x y]. apply (rp_wf _ _ Hrep) in He as (? & Hx & Hy). simpl.
      split; [done|]. unfold a_has_node in *. by rewrite !Hnodes. }
    eexists _, s2. rewrite (spec_run_app _ _ _ _ _ Hr1), Hr2. split; [done|]. split; [done|]. split.
    - apply ag_eq; [done|by rewrite Hn2|]. intros k. rewrite He2, He1. simpl.
      destruct (decide (k ∈ es)) as [Hk|Hk]; [by rewrite (elab_some V A Hrep) by (by apply Hl)|].
      rewrite lookup_empty. symmetry. apply eq_None_not_Some. intros Hk'. apply Hk. by apply Hl.
    - rewrite Hc2, Hc1. simpl. by rewrite (lists_exactly_length _ _ Hl).
  Qed.

  Lemma uses_labels_exist A : ∃ nls els, uses_labels A nls els.
  Proof.
    exists (omap snd (map_to_list (ag_nodes A))), (omap snd (map_to_list (ag_edges A))).
    split; intros k l Hl; apply elem_of_list_omap; exists (k, Some l); (split; [by apply elem_of_map_to_list|done]).
  Qed.
  Lemma spec_run_panic_app h1 h2 (s : sstate NL EL) : spec_run h1 s = SPanic → spec_run (h1 ++ h2) s = SPanic.
  Proof.
    revert s. induction h1 as [|o h1 IH]; intros s; [done|]. cbn [app spec_run].
    destruct (spec_step o s) as [[r s']| |]; [|done..]. specialize (IH s').
    destruct (spec_run h1 s') as [[rs' s'']| |]; [done| |done]. intros _. by rewrite IH.
  Qed.

  Lemma run_app2 {h1 h2 : list (gop NL EL)} {s rs1 s1 rs2 s2} : spec_run h1 s = SOk (rs1, s1) →
    spec_run h2 s1 = SOk (rs2, s2) → spec_run (h1 ++ h2) s = SOk (rs1 ++ rs2, s2).
  Proof. intros H1 H2. by rewrite (spec_run_app _ _ _ _ _ H1), H2. Qed.

  (** ** Union *)
  Lemma union_thm V0 A0 V1 A1 nls els :
    represents V0 A0 → represents V1 A1 → (ag_dir A0 = true ∨ ag_dir A1 = false) →
    uses_labels A0 nls els → uses_labels A1 nls els → labels_fit lt nls → labels_fit lt els →
    ∃ g, graph_union lt V0 V1 = Ok g ∧ ∀ it, hash_order g it →
      let V := gm_view (ag_dir A0) it g in
      represents V (a_union A0 A1) ∧ answers_missing V (a_union A0 A1) ∧ iterates V ∧
      v_edge_count V = a_num_edges A0 + a_num_edges A1.
  Proof.
    intros H0 H1 Hdir Hu0 Hu1 HN HE.
    destruct (rp_edge_indices _ _ H0) as (es0 & Hes0 & Hl0). destruct (rp_edge_indices _ _ H1) as (es1 & Hes1 & Hl1).
    set (dir := ag_dir A0).
    assert (graph_union lt V0 V1 = rmap snd (gm_run dir lt
      (((node_ops (nlab A0) (v_node_indices V0) ++ node_ops (nlab A1) (v_node_indices V1)) ++ edge_ops (elab A0) es0) ++ edge_ops (elab A1) es1) gm_new)) as ->.
    { rewrite !gm_run_app. unfold graph_union. rewrite (rp_directed _ _ H0). fold dir.
      rewrite (add_nodes_of_run lt V0 A0 H0 dir).
      destruct (rmap snd (gm_run dir lt (node_ops (nlab A0) (v_node_indices V0)) gm_new)) as [g1| |]; [|done..]. cbn [rbind].
      rewrite (add_nodes_of_run lt V1 A1 H1 dir).
      destruct (rmap snd (gm_run dir lt (node_ops (nlab A1) (v_node_indices V1)) g1)) as [g2| |]; [|done..]. cbn [rbind].
      rewrite (add_edges_of_run lt V0 A0 H0 dir es0) by done.
      destruct (rmap snd (gm_run dir lt (edge_ops (elab A0) es0) g2)) as [g3| |]; [|done..]. cbn [rbind].
      by rewrite (add_edges_of_run lt V1 A1 H1 dir es1). }
    destruct (build_nodes (nlab A0) nls els (v_node_indices V0) (s_init dir [] [])) as (rs1 & s1 & Hr1 & Hw1 & Hd1 & He1 & Hc1 & Hn1).
    { unfold within. simpl. split_and!; [constructor|constructor|set_solver|set_solver]. }
    { intros n l. apply (nlab_uses V0 A0 H0 nls els n l Hu0). }
    destruct (build_nodes (nlab A1) nls els (v_node_indices V1) s1 Hw1) as (rs2 & s2 & Hr2 & Hw2 & Hd2 & He2 & Hc2 & Hn2).
    { intros n l. apply (nlab_uses V1 A1 H1 nls els n l Hu1). }
    assert (∀ k, ag_nodes (sp_g s2) !! k = (ag_nodes A1 ∪ ag_nodes A0) !! k) as Hnodes.
    { intros k. rewrite Hn2, Hn1. destruct (decide (k ∈ v_node_indices V1)) as [Hk|Hk].
      - apply (rp_node_indices _ _ H1) in Hk. symmetry. apply lookup_union_Some_l. by apply nlab_some.
      - assert (ag_nodes A1 !! k = None) as Hk1.
        { apply eq_None_not_Some. intros Hk'. apply Hk. by apply (rp_node_indices _ _ H1). }
        rewrite lookup_union_r by done. destruct (decide (k ∈ v_node_indices V0)) as [Hk0|Hk0].
        + apply (rp_node_indices _ _ H0) in Hk0. by rewrite (nlab_some A0).
        + simpl. rewrite lookup_empty. symmetry. apply eq_None_not_Some. intros Hk'. apply Hk0. by apply (rp_node_indices _ _ H0). }
    destruct (build_edges_distinct (elab A0) nls els es0 s2 dir) as (rs3 & s3 & Hr3 & Hw3 & Hd3 & Hn3 & Hc3 & He3).
    { by rewrite Hd2, Hd1. } { done. } { intros e l. apply (elab_uses V0 A0 H0 nls els es0 e l Hes0 Hu0). }
    { intros [x y] He. apply Hl0 in He. apply (rp_wf _ _ H0) in He as (? & Hx & Hy). simpl. split; [done|].
      unfold a_has_node. rewrite !Hnodes. by split; apply lookup_union_is_Some; right. }
    destruct (build_edges_distinct (elab A1) nls els es1 s3 dir) as (rs4 & s4 & Hr4 & Hw4 & Hd4 & Hn4 & Hc4 & He4).
    { done. } { done. } { intros e l. apply (elab_uses V1 A1 H1 nls els es1 e l Hes1 Hu1). }
    { intros [x y] He. apply Hl1 in He. apply (rp_wf _ _ H1) in He as (Hk & Hx & Hy). simpl. split.
      - unfold dir. destruct Hdir as [->|Hf]; [done|]. rewrite Hf in Hk. destruct (ag_dir A0); [done|exact Hk].
      - unfold a_has_node. rewrite Hn3, !Hnodes. by split; apply lookup_union_is_Some; left. }
    pose proof (run_app2 (run_app2 (run_app2 Hr1 Hr2) Hr3) Hr4) as Hr.
    destruct (built dir _ _ s4 nls els Hr Hw4 HN HE) as (g & Hg & Hv). clear Hr.
    exists g. split; [exact Hg|]. intros it Hit V.
    assert (sp_g s4 = a_union A0 A1) as Heq.
    { apply ag_eq; [done|by rewrite Hn4, Hn3|]. intros k. rewrite He4, He3, He2, He1. simpl.
      destruct (decide (k ∈ es1)) as [Hk|Hk].
      - symmetry. apply lookup_union_Some_l. apply (elab_some V1 A1 H1). by apply Hl1.
      - assert (ag_edges A1 !! k = None) as Hk1. { apply eq_None_not_Some. intros Hk'. apply Hk. by apply Hl1. }
        rewrite lookup_union_r by done. destruct (decide (k ∈ es0)) as [Hk0|Hk0].
        + by rewrite (elab_some V0 A0 H0) by (by apply Hl0).
        + rewrite lookup_empty. symmetry. apply eq_None_not_Some. intros Hk'. apply Hk0. by apply Hl0. }
    destruct (Hv it Hit) as (Hr & Ha & Hi & Hc). rewrite Heq in Hr, Ha. split; [done|]. split; [done|]. split; [done|].
    unfold V. fold dir. rewrite Hc, Hc4, Hc3, Hc2, Hc1. simpl. by rewrite (lists_exactly_length _ _ Hl0), (lists_exactly_length _ _ Hl1).
  Qed.

  (** ** Difference *)
  Lemma minus_run V0 A0 V1 A1 es0 es1 : represents V0 A0 → represents V1 A1 →
    v_edge_indices V0 = Ok es0 → v_edge_indices V1 = Ok es1 →
    graph_minus lt V0 V1 = rmap snd (gm_run (ag_dir A0) lt
      (((node_ops (nlab A0) (v_node_indices V0) ++ edge_ops (elab A0) es0) ++ remove_ops (v_node_indices V1)) ++
         ((λ e, ORemoveEdge e.1 e.2) <$> es1)) gm_new).
  Proof.
    intros H0 H1 Hes0 Hes1. rewrite !gm_run_app. unfold graph_minus. rewrite (rp_directed _ _ H0). set (dir := ag_dir A0).
    rewrite (add_nodes_of_run lt V0 A0 H0 dir).
    destruct (rmap snd (gm_run dir lt (node_ops (nlab A0) (v_node_indices V0)) gm_new)) as [g1| |]; [|done..]. cbn [rbind].
    rewrite (add_edges_of_run lt V0 A0 H0 dir es0) by done.
    destruct (rmap snd (gm_run dir lt (edge_ops (elab A0) es0) g1)) as [g3| |]; [|done..]. cbn [rbind].
    rewrite (remove_nodes_of_run lt V1 dir).
    destruct (rmap snd (gm_run dir lt (remove_ops (v_node_indices V1)) g3)) as [g2| |]; [|done..]. cbn [rbind].
    by rewrite (remove_edges_of_run lt V1 dir es1).
  Qed.
  Lemma minus_panic V0 A0 V1 A1 n : represents V0 A0 → represents V1 A1 →
    a_has_edge A0 n n → a_has_node A1 n → graph_minus lt V0 V1 = Panic.
  Proof.
    intros H0 H1 Hloop Hn.
    destruct (rp_edge_indices _ _ H0) as (es0 & Hes0 & Hl0). destruct (rp_edge_indices _ _ H1) as (es1 & Hes1 & Hl1).
    rewrite (minus_run V0 A0 V1 A1 es0 es1) by done.
    set (h := ((node_ops (nlab A0) (v_node_indices V0) ++ edge_ops (elab A0) es0) ++ remove_ops (v_node_indices V1)) ++
         ((λ e, ORemoveEdge e.1 e.2) <$> es1)).
    assert (strip h = h) as Hstrip.
    { unfold h, strip, node_ops, edge_ops, remove_ops. rewrite !filter_app.
      assert (∀ {X} (f : X → gop NL EL) (l : list X), (∀ x, is_raw (f x) = false) → filter (λ o, is_raw o = false) (f <$> l) = f <$> l) as Hf.
      { clear. intros X f l Hf. induction l as [|x l IH]; [done|]. csimpl. rewrite filter_cons_True by done. by rewrite IH. }
      rewrite !Hf by done. done. }
    pose proof (structure (ag_dir A0) lt [] [] h ltac:(constructor) ltac:(constructor)) as Hst. rewrite Hstrip in Hst.
    destruct (uses_labels_exist A0) as (nls & els & Hu).
    destruct (build_copy V0 A0 es0 nls els H0 Hes0 Hu) as (rs & s & Hr & Hw & Hg & Hc).
    assert (spec_run h (s_init (ag_dir A0) [] []) = SPanic) as Hp.
    { unfold h. rewrite <- (assoc_L (++)). rewrite (spec_run_app _ _ _ _ _ Hr).
      rewrite spec_run_panic_app; [done|]. eapply run_remove_loop; [by apply (rp_node_indices _ _ H1)|..]; rewrite Hg; [|done].
      by apply (wf_edge_nodes A0 n n (rp_wf _ _ H0)) in Hloop as [? _]. }
    rewrite Hp in Hst. unfold gm_new. unfold gm_with_label_map in Hst. by rewrite Hst.
  Qed.
  Lemma minus_thm V0 A0 V1 A1 nls els : represents V0 A0 → represents V1 A1 →
    (∀ n, a_has_node A1 n → ¬ a_has_edge A0 n n) → uses_labels A0 nls els → labels_fit lt nls → labels_fit lt els →
    ∃ g A, graph_minus lt V0 V1 = Ok g ∧ is_induced (λ n, ¬ a_has_node A1 n) A0 A ∧
      ∀ it, hash_order g it → shows (gm_view (ag_dir A0) it g) A.
  Proof.
    intros H0 H1 Hloop Hu HN HE.
    destruct (rp_edge_indices _ _ H0) as (es0 & Hes0 & Hl0). destruct (rp_edge_indices _ _ H1) as (es1 & Hes1 & Hl1).
    rewrite (minus_run V0 A0 V1 A1 es0 es1) by done.
    destruct (build_copy V0 A0 es0 nls els H0 Hes0 Hu) as (rs & s & Hr & Hw & Hg & Hc).
    assert (∀ n, n ∈ v_node_indices V1 ↔ a_has_node A1 n) as Hidx by apply (rp_node_indices _ _ H1).
    destruct (run_remove nls els (v_node_indices V1) s Hw) as (rs1 & s1 & Hr1 & Hw1 & Hd1 & Hwf1 & Hc1 & Hn1 & He1).
    { rewrite Hg. intros n Hn _. by apply Hloop, Hidx. } { by rewrite Hg. }
    rewrite Hg in Hd1, Hwf1, Hn1, He1. specialize (Hwf1 (rp_wf _ _ H0)). specialize (He1 (rp_wf _ _ H0)).
    destruct (run_remove_missing es1 s1) as (rs2 & Hr2).
    { intros e He. apply Hl1 in He. destruct e as [x y]. apply (rp_wf _ _ H1) in He as (_ & Hx & _). simpl.
      apply eq_None_not_Some. intros [l Hl]. apply He1 in Hl as (_ & Hx' & _). by apply Hx', Hidx. }
    pose proof (run_app2 (run_app2 Hr Hr1) Hr2) as Hrr.
    destruct (built (ag_dir A0) _ _ s1 nls els Hrr Hw1 HN HE) as (g & Hgg & Hv). clear Hrr.
    exists g, (sp_g s1). split; [exact Hgg|]. split.
    - split; [done|..|done].
      + intros n l. by rewrite Hn1, Hidx.
      + intros x y l. by rewrite He1, !Hidx.
    - intros it Hit. destruct (Hv it Hit) as (?&?&?&Hcnt). unfold shows, exact_count. by rewrite Hcnt.
  Qed.
End ops.
