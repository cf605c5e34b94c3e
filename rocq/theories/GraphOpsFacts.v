(** Building graphs from lists of nodes and edges: the specification side. *)
From Verif Require Import Base BaseFacts Api Spec SpecFacts SpecOps Map GraphMap GraphMapProps ViewFacts GraphOps.

(** Loops over the API are histories. *)
Section histories.
  Context {NL EL : Type} `{EqDecision NL, EqDecision EL} (dir : bool) (lt : idty).
  Lemma gm_run_app h1 h2 (g : graphmap NL EL) : rmap snd (gm_run dir lt (h1 ++ h2) g) =
    let* g' := rmap snd (gm_run dir lt h1 g) in rmap snd (gm_run dir lt h2 g').
  Proof.
    revert g. induction h1 as [|o h1 IH]; intros g; [done|]. cbn [app gm_run].
    destruct (gm_step dir lt o g) as [[r g']| |]; [|done..]. cbn [rbind].
    specialize (IH g'). destruct (gm_run dir lt (h1 ++ h2) g') as [[rs1 g1]| |];
      destruct (gm_run dir lt h1 g') as [[rs2 g2]| |]; cbn in *; try done;
      by destruct (gm_run dir lt h2 g2) as [[rs3 g3]| |].
  Qed.
  Lemma rfold_history {X} (f : graphmap NL EL → X → res (graphmap NL EL)) (op : X → gop NL EL) l g :
    (∀ x g, x ∈ l → f g x = rmap snd (gm_step dir lt (op x) g)) →
    rfold f l g = rmap snd (gm_run dir lt (op <$> l) g).
  Proof.
    revert g. induction l as [|x l IH]; intros g Hf; [done|]. cbn [rfold fmap list_fmap gm_run].
    rewrite Hf by left. destruct (gm_step dir lt (op x) g) as [[r g']| |]; [|done..]. cbn [rbind rmap].
    change (snd (r, g')) with g'. rewrite IH; [|intros; apply Hf; by right].
    by destruct (gm_run dir lt (op <$> l) g') as [[rs g1]| |].
  Qed.
  Lemma spec_run_app h1 h2 (s : sstate NL EL) rs1 s1 : spec_run h1 s = SOk (rs1, s1) →
    spec_run (h1 ++ h2) s = match spec_run h2 s1 with SOk (rs2, s2) => SOk (rs1 ++ rs2, s2) | SPanic => SPanic | SUnspec => SUnspec end.
  Proof.
    revert s rs1. induction h1 as [|o h1 IH]; intros s rs1; cbn [app spec_run].
    - intros [= <- <-]. by destruct (spec_run h2 s) as [[]| |].
    - destruct (spec_step o s) as [[r s']| |]; [|done..].
      destruct (spec_run h1 s') as [[rs' s'']| |] eqn:Hr; [|done..]. intros [= <- <-].
      rewrite (IH _ _ Hr). by destruct (spec_run h2 s'') as [[]| |].
  Qed.
End histories.

(** The labels registered so far: distinct and within given sets. *)
Definition within {NL EL} (s : sstate NL EL) (nls : list NL) (els : list EL) : Prop :=
  NoDup (sp_nls s) ∧ NoDup (sp_els s) ∧ sp_nls s ⊆ nls ∧ sp_els s ⊆ els.
Lemma register_within {L} `{EqDecision L} (l : option L) ls U : NoDup ls → ls ⊆ U →
  (∀ x, l = Some x → x ∈ U) → NoDup (register l ls) ∧ register l ls ⊆ U.
Proof.
  intros Hnd Hsub Hl. unfold register. destruct l as [x|]; [|done]. destruct (decide (x ∈ ls)); [done|].
  split; [apply NoDup_app; split_and!; [done|set_solver|apply NoDup_singleton]|].
  intros y [Hy| ->%elem_of_list_singleton]%elem_of_app; [by apply Hsub|by apply Hl].
Qed.
Lemma within_fit {NL EL} lt (s : sstate NL EL) nls els : within s nls els → labels_fit lt nls → labels_fit lt els →
  labels_fit lt (sp_nls s) ∧ labels_fit lt (sp_els s).
Proof.
  intros (H1 & H2 & H3 & H4) Hn He. unfold labels_fit in *.
  assert (length (sp_nls s) ≤ length nls) by (by apply submseteq_length, NoDup_submseteq).
  assert (length (sp_els s) ≤ length els) by (by apply submseteq_length, NoDup_submseteq). split; lia.
Qed.

Section build.
  Context {NL EL : Type} `{EqDecision NL, EqDecision EL}.
  Implicit Types (s : sstate NL EL) (A : agraph NL EL).
  Definition node_ops (f : N → option NL) (ns : list N) : list (gop NL EL) := (λ n, OAddNode n (f n)) <$> ns.
  Definition edge_ops (f : N * N → option EL) (es : list (N * N)) : list (gop NL EL) := (λ e, OAddEdge e.1 e.2 (f e)) <$> es.

  Lemma build_nodes f nls els ns : ∀ s, within s nls els → (∀ n l, n ∈ ns → f n = Some l → l ∈ nls) →
    ∃ rs s', spec_run (node_ops f ns) s = SOk (rs, s') ∧ within s' nls els ∧
      ag_dir (sp_g s') = ag_dir (sp_g s) ∧ ag_edges (sp_g s') = ag_edges (sp_g s) ∧ sp_count s' = sp_count s ∧
      ∀ k, ag_nodes (sp_g s') !! k = if decide (k ∈ ns) then Some (f k) else ag_nodes (sp_g s) !! k.
  Proof.
    induction ns as [|n ns IH]; intros s (Hw1 & Hw2 & Hw3 & Hw4) Hf.
    - exists [], s. by split_and!.
    - destruct (IH (s_add_node n (f n) s)) as (rs & s' & Hr & Hw & Hd & He & Hc & Hn).
      { destruct (register_within (f n) (sp_nls s) nls Hw1 Hw3) as [? ?]; [intros; apply (Hf n); set_solver|]. done. }
      { intros k l Hk. apply Hf. set_solver. }
      eexists _, s'. cbn [node_ops fmap list_fmap spec_run spec_step]. unfold node_ops in Hr. rewrite Hr. split; [done|].
      split; [done|]. split; [by rewrite Hd|]. split; [by rewrite He|]. split; [by rewrite Hc|]. intros k. rewrite Hn.
      destruct (decide (k ∈ ns)); [by rewrite decide_True by set_solver|]. simpl. destruct (decide (k = n)) as [->|Hne].
      + rewrite decide_True by set_solver. by rewrite lookup_insert.
      + rewrite decide_False by set_solver. by rewrite lookup_insert_ne.
  Qed.
  Lemma build_edges f nls els es : ∀ s, within s nls els → (∀ e l, e ∈ es → f e = Some l → l ∈ els) →
    (∀ e, e ∈ es → a_has_node (sp_g s) e.1 ∧ a_has_node (sp_g s) e.2) →
    ∃ rs s', spec_run (edge_ops f es) s = SOk (rs, s') ∧ within s' nls els ∧
      ag_dir (sp_g s') = ag_dir (sp_g s) ∧ ag_nodes (sp_g s') = ag_nodes (sp_g s) ∧ sp_count s' = sp_count s + length es ∧
      (∀ k, k ∉ (λ e, ekey (ag_dir (sp_g s)) e.1 e.2) <$> es → ag_edges (sp_g s') !! k = ag_edges (sp_g s) !! k) ∧
      (∀ k, k ∈ (λ e, ekey (ag_dir (sp_g s)) e.1 e.2) <$> es →
         ∃ e, e ∈ es ∧ k = ekey (ag_dir (sp_g s)) e.1 e.2 ∧ ag_edges (sp_g s') !! k = Some (f e)).
  Proof.
    induction es as [|e es IH]; intros s (Hw1 & Hw2 & Hw3 & Hw4) Hf Hends.
    - exists [], s. split_and!; try done; try (simpl; lia); intros k Hk; by apply elem_of_nil in Hk.
    - destruct (Hends e) as [H1 H2]; [set_solver|].
      assert (a_add_edge e.1 e.2 (f e) (sp_g s) = AG (ag_dir (sp_g s)) (ag_nodes (sp_g s))
        (<[ekey (ag_dir (sp_g s)) e.1 e.2 := f e]> (ag_edges (sp_g s)))) as Hadd.
      { unfold a_add_edge. rewrite (touch_present e.1), (touch_present e.2) by done. done. }
      destruct (IH (s_add_edge e.1 e.2 (f e) s)) as (rs & s' & Hr & Hw & Hd & Hn & Hc & Ho & Hi).
      { destruct (register_within (f e) (sp_els s) els Hw2 Hw4) as [? ?]; [intros; apply (Hf e); set_solver|]. done. }
      { intros k l Hk. apply Hf. set_solver. }
      { intros e' He'. unfold s_add_edge. cbn [sp_g]. rewrite Hadd. apply Hends. set_solver. }
      unfold s_add_edge in Hd, Hn, Ho, Hi, Hc. cbn [sp_g sp_count] in *. rewrite Hadd in Hd, Hn, Ho, Hi. cbn [ag_dir ag_nodes ag_edges] in *.
      eexists _, s'. cbn [edge_ops fmap list_fmap spec_run spec_step]. unfold edge_ops in Hr. rewrite Hr. split; [done|].
      split; [done|]. split; [done|]. split; [done|]. split; [simpl; lia|]. split.
      + intros k Hk. apply not_elem_of_cons in Hk as [Hk1 Hk2]. rewrite Ho by done. by rewrite lookup_insert_ne.
      + intros k Hk. destruct (decide (k ∈ (λ e, ekey (ag_dir (sp_g s)) e.1 e.2) <$> es)) as [Hin|Hin].
        * destruct (Hi k Hin) as (e' & He' & Hk' & Hl). exists e'. split_and!; [set_solver|done..].
        * apply elem_of_cons in Hk as [->|Hk]; [|done]. exists e. split_and!; [set_solver|done|].
          rewrite Ho by done. by rewrite lookup_insert.
  Qed.
  (** When no two edges share a key. *)
  Lemma build_edges_distinct f nls els es s dir : ag_dir (sp_g s) = dir → within s nls els →
    (∀ e l, e ∈ es → f e = Some l → l ∈ els) →
    (∀ e, e ∈ es → ekey dir e.1 e.2 = e ∧ a_has_node (sp_g s) e.1 ∧ a_has_node (sp_g s) e.2) →
    ∃ rs s', spec_run (edge_ops f es) s = SOk (rs, s') ∧ within s' nls els ∧
      ag_dir (sp_g s') = dir ∧ ag_nodes (sp_g s') = ag_nodes (sp_g s) ∧ sp_count s' = sp_count s + length es ∧
      (∀ k, ag_edges (sp_g s') !! k = if decide (k ∈ es) then Some (f k) else ag_edges (sp_g s) !! k).
  Proof.
    intros <- Hw Hf Hends.
    assert ((λ e, ekey (ag_dir (sp_g s)) e.1 e.2) <$> es = es) as Heq.
    { clear -Hends. induction es as [|e es IH]; [done|]. csimpl. destruct (Hends e) as [-> _]; [set_solver|].
      rewrite IH; [done|]. intros; apply Hends; set_solver. }
    destruct (build_edges f nls els es s Hw Hf) as (rs & s' & Hr & Hw' & Hd & Hn & Hc & Ho & Hi).
    { intros e He. apply (Hends e He). }
    exists rs, s'. split_and!; try done. intros k. rewrite Heq in Ho, Hi. destruct (decide (k ∈ es)) as [Hk|Hk].
    - destruct (Hi k Hk) as (e & He & -> & Hl). destruct (Hends e He) as [Hke _]. rewrite Hke in *. done.
    - by apply Ho.
  Qed.
  (** Removing nodes. *)
  Definition remove_ops (ns : list N) : list (gop NL EL) := ORemoveNode <$> ns.
  Lemma run_remove_loop ns s n : n ∈ ns → a_has_node (sp_g s) n → a_has_edge (sp_g s) n n →
    spec_run (remove_ops ns) s = SPanic.
  Proof.
    revert s. induction ns as [|m ns IH]; intros s Hn Hnode Hloop; [by apply elem_of_nil in Hn|].
    cbn [remove_ops fmap list_fmap spec_run spec_step]. destruct (ag_nodes (sp_g s) !! m) as [l|] eqn:Hm.
    - destruct (decide (a_has_edge (sp_g s) m m)) as [|Hne]; [done|].
      assert (n ≠ m) by congruence. unfold remove_ops in IH.
      rewrite IH; [done|set_solver| |]; cbn [sp_g].
      + by apply remove_node_has_node.
      + unfold a_has_edge. rewrite remove_node_edge_at, decide_False by naive_solver. done.
    - assert (n ≠ m). { intros ->. destruct Hnode. congruence. }
      unfold remove_ops in IH. rewrite IH; [done|set_solver|done..].
  Qed.
  Lemma run_remove nls els ns : ∀ s, within s nls els → (∀ n, n ∈ ns → a_has_node (sp_g s) n → ¬ a_has_edge (sp_g s) n n) →
    sp_count s = a_num_edges (sp_g s) →
    ∃ rs s', spec_run (remove_ops ns) s = SOk (rs, s') ∧ within s' nls els ∧
      ag_dir (sp_g s') = ag_dir (sp_g s) ∧ (ag_wf (sp_g s) → ag_wf (sp_g s')) ∧ sp_count s' = a_num_edges (sp_g s') ∧
      (∀ k l, ag_nodes (sp_g s') !! k = Some l ↔ ag_nodes (sp_g s) !! k = Some l ∧ k ∉ ns) ∧
      (ag_wf (sp_g s) → ∀ x y l, a_edge_at (sp_g s') x y = Some l ↔ a_edge_at (sp_g s) x y = Some l ∧ x ∉ ns ∧ y ∉ ns).
  Proof.
    induction ns as [|m ns IH]; intros s Hw Hl Hc.
    - exists [], s. split_and!; try done; set_solver.
    - cbn [remove_ops fmap list_fmap spec_run spec_step]. destruct (ag_nodes (sp_g s) !! m) as [lm|] eqn:Hm.
      + destruct (decide (a_has_edge (sp_g s) m m)) as [Hbad|Hne].
        { exfalso. apply (Hl m); [set_solver| |done]. by eexists. }
        edestruct (IH (SState (a_remove_node m (sp_g s)) (sp_count s - size (a_incident m (sp_g s))) (sp_max s) (sp_nls s) (sp_els s)))
          as (rs & s' & Hr & Hw' & Hd & Hwf & Hc' & Hn & He).
        { done. }
        { cbn [sp_g]. intros n Hn Hn1 Hn2. apply remove_node_has_node in Hn1 as [? ?].
          apply (Hl n); [set_solver|done|]. unfold a_has_edge in *. rewrite remove_node_edge_at, decide_False in Hn2 by naive_solver. done. }
        { cbn [sp_g sp_count]. pose proof (remove_node_num_edges m (sp_g s)). lia. }
        cbn [sp_g] in *. unfold remove_ops in Hr. rewrite Hr. eexists _, s'. split; [done|]. split; [done|]. split; [done|].
        split; [intros; apply Hwf; by apply wf_remove_node|]. split; [done|]. split.
        * intros k l. rewrite Hn. simpl. rewrite lookup_delete_Some. set_solver.
        * intros Hwfs x y l. rewrite (He (wf_remove_node m _ Hwfs)). rewrite remove_node_edge_at.
          destruct (decide (x = m ∨ y = m)); set_solver.
      + destruct (IH s) as (rs & s' & Hr & Hw' & Hd & Hwf & Hc' & Hn & He); [done| |done|].
        { intros n Hn. apply Hl. set_solver. }
        unfold remove_ops in Hr. rewrite Hr. eexists _, s'. split; [done|]. split; [done|]. split; [done|]. split; [done|]. split; [done|]. split.
        * intros k l. rewrite Hn. assert (k = m → ag_nodes (sp_g s) !! k ≠ Some l) by (intros ->; by rewrite Hm). set_solver.
        * intros Hwfs x y l. rewrite (He Hwfs). rewrite !not_elem_of_cons. split; [|naive_solver].
          intros (Hxy & Hx & Hy). destruct (wf_edge_nodes (sp_g s) x y Hwfs) as [[? Hx'] [? Hy']]; [by eexists|].
          split_and!; [done| |done| |done]; intros ->; congruence.
  Qed.
  (** Removing missing edges. *)
  Lemma run_remove_missing (es : list (N * N)) s : (∀ e, e ∈ es → a_edge_at (sp_g s) e.1 e.2 = None) →
    ∃ rs, spec_run ((λ e, ORemoveEdge e.1 e.2) <$> es) s = SOk (rs, s).
  Proof.
    induction es as [|e es IH]; intros He; [by eexists|]. cbn [fmap list_fmap spec_run spec_step].
    rewrite He by set_solver. destruct IH as [rs ->]; [intros; apply He; set_solver|]. by eexists.
  Qed.
End build.

(** The loops as histories, for graphs that represent [A]. *)
Section loops.
  Context {NL EL : Type} `{EqDecision NL, EqDecision EL} (lt : idty) (V : gview NL EL) (A : agraph NL EL) (Hrep : represents V A).
  Implicit Types g : graphmap NL EL.
  Definition nlab (n : N) : option NL := label_of (ag_nodes A !! n).
  Definition elab (e : N * N) : option EL := label_of (a_edge_at A e.1 e.2).
  Lemma add_nodes_of_run dir g : add_nodes_of lt V g = rmap snd (gm_run dir lt (node_ops nlab (v_node_indices V)) g).
  Proof.
    unfold add_nodes_of, node_ops. apply rfold_history. intros n g' Hn.
    rewrite (rep_node_label V A n Hrep) by (by apply (rp_node_indices _ _ Hrep)). cbn [rbind gm_step].
    unfold nlab. by destruct (gm_add_node lt n _ g') as [[]| |].
  Qed.
  Lemma add_edges_of_run dir es g : v_edge_indices V = Ok es →
    add_edges_of lt dir V g = rmap snd (gm_run dir lt (edge_ops elab es) g).
  Proof.
    intros Hes. unfold add_edges_of, edge_ops. rewrite Hes. cbn [rbind]. apply rfold_history. intros e g' He.
    destruct (rp_edge_indices _ _ Hrep) as (es' & Hes' & Hl). rewrite Hes in Hes'. injection Hes' as <-.
    apply Hl in He. apply wf_stored in He as [He _]; [|apply Hrep].
    rewrite (rep_edge_label V A _ _ Hrep He). cbn [rbind gm_step]. unfold elab.
    by destruct (gm_add_edge dir lt e.1 e.2 _ g') as [[]| |].
  Qed.
  Lemma remove_nodes_of_run dir g : remove_nodes_of dir V g = rmap snd (gm_run dir lt (remove_ops (v_node_indices V)) g).
  Proof.
    unfold remove_nodes_of, remove_ops. apply rfold_history. intros n g' Hn. cbn [gm_step].
    by destruct (gm_remove_node dir n g') as [[]| |].
  Qed.
  Lemma remove_edges_of_run dir es g : v_edge_indices V = Ok es →
    remove_edges_of dir V g = rmap snd (gm_run dir lt ((λ e, ORemoveEdge e.1 e.2) <$> es) g).
  Proof.
    intros Hes. unfold remove_edges_of. rewrite Hes. cbn [rbind]. apply (rfold_history dir lt _ (λ e, ORemoveEdge e.1 e.2)).
    intros e g' He. cbn [gm_step]. by destruct (gm_remove_edge dir e.1 e.2 g') as [[]| |].
  Qed.
  Lemma nlab_some n : a_has_node A n → ag_nodes A !! n = Some (nlab n).
  Proof. intros [l Hl]. unfold nlab. by rewrite Hl. Qed.
  Lemma elab_some e : is_Some (ag_edges A !! e) → ag_edges A !! e = Some (elab e).
  Proof.
    intros He. unfold elab. destruct e as [x y]. rewrite (wf_edge_key A) by (done || apply Hrep). simpl.
    destruct He as [l Hl]. by rewrite Hl.
  Qed.
  Lemma nlab_uses nls els n l : uses_labels A nls els → n ∈ v_node_indices V → nlab n = Some l → l ∈ nls.
  Proof.
    intros [Hu _] Hn Hl. apply (Hu n). rewrite nlab_some; [by rewrite Hl|]. by apply (rp_node_indices _ _ Hrep).
  Qed.
  Lemma elab_uses nls els es e l : v_edge_indices V = Ok es → uses_labels A nls els → e ∈ es → elab e = Some l → l ∈ els.
  Proof.
    intros Hes [_ Hu] He Hl. destruct (rp_edge_indices _ _ Hrep) as (es' & Hes' & Hx). rewrite Hes in Hes'. injection Hes' as <-.
    apply Hx in He. apply (Hu e). rewrite elab_some by done. by rewrite Hl.
  Qed.
End loops.
