(** Histories of calls on the GraphMap model against the specification. *)
From Verif Require Import Base Api Spec BaseFacts SpecFacts Map MapFacts GraphMap GraphMapFacts
  GraphMapRefine GraphMapQueries.

Section prefix.
  Context {NL EL : Type} `{EqDecision NL, EqDecision EL}.
  Implicit Types s : sstate NL EL.
  Lemma spec_step_prefix o s r s' : spec_step o s = SOk (r, s') →
    sp_nls s `prefix_of` sp_nls s' ∧ sp_els s `prefix_of` sp_els s'.
  Proof.
    intros Ho. destruct o as [n l|x y l|n|x y|n l|x y l|l|l| |n lid|x y lid]; simpl in Ho; repeat case_match; simplify_eq;
      cbn [sp_nls sp_els s_add_node s_add_edge]; split; first [done|apply register_prefix].
  Qed.
  Lemma spec_run_prefix h s rs s' : spec_run h s = SOk (rs, s') →
    sp_nls s `prefix_of` sp_nls s' ∧ sp_els s `prefix_of` sp_els s'.
  Proof.
    revert s rs. induction h as [|o h IH]; intros s rs Hh; simpl in Hh; [by simplify_eq|].
    destruct (spec_step o s) as [[r s2]| |] eqn:Ho; [|done..].
    destruct (spec_run h s2) as [[rs2 s3]| |] eqn:Hh2; [|done..]. simplify_eq.
    apply IH in Hh2 as [? ?]. apply spec_step_prefix in Ho as [? ?]. split; by etrans.
  Qed.
End prefix.

Section sim.
  Context {NL EL : Type} `{EqDecision NL, EqDecision EL} (dir : bool) (lt : idty).
  Context (PN : list NL → option N → option NL → Prop) (PE : list EL → option N → option EL → Prop).
  Context (gN : list NL → Prop) (gE : list EL → Prop).
  Context (PN_None : ∀ ls, PN ls None None) (PE_None : ∀ ls, PE ls None None).
  Context (PN_new : ∀ ls i x, gN ls → ls !! i = Some x → PN ls (Some (id_new lt i)) (Some x)).
  Context (PE_new : ∀ ls i x, gE ls → ls !! i = Some x → PE ls (Some (id_new lt i)) (Some x)).
  Context (PN_mono : ∀ ls ls' i x, ls `prefix_of` ls' → PN ls i x → PN ls' i x).
  Context (PE_mono : ∀ ls ls' i x, ls `prefix_of` ls' → PE ls i x → PE ls' i x).
  Context (PN_raw : ∀ ls i x, ls !! N.to_nat i = Some x → PN ls (Some i) (Some x)).
  Context (PE_raw : ∀ ls i x, ls !! N.to_nat i = Some x → PE ls (Some i) (Some x)).
  Context (gN_anti : ∀ ls ls', ls `prefix_of` ls' → gN ls' → gN ls).
  Context (gE_anti : ∀ ls ls', ls `prefix_of` ls' → gE ls' → gE ls).
  Notation rel := (rel dir PN PE).
  Implicit Types (g : graphmap NL EL) (s : sstate NL EL).

  Definition out_ok (nls : list NL) (els : list EL) (r r' : gout NL EL) : Prop :=
    match r, r' with
    | RBool b, RBool b' => b = b'
    | RNode None, RNode None => True
    | RNode (Some (n, l)), RNode (Some (n', l')) =>
        n = n' ∧ ∃ lid, l' = lookup_label nls lid ∧ PN nls lid l
    | REdge None, REdge None => True
    | REdge (Some (x, y, l)), REdge (Some (x', y', l')) =>
        x = x' ∧ y = y' ∧ ∃ lid, l' = lookup_label els lid ∧ PE els lid l
    | RLabelId o, RLabelId o' => o' = (λ i, id_new lt (N.to_nat i)) <$> o
    | RUnit, RUnit => True
    | _, _ => False
    end.

  Lemma rel_refine g s it : rel g s → hash_order g it →
    rel (gm_refine_edge_count dir it g)
        (SState (sp_g s) (a_num_edges (sp_g s)) (sp_max s) (sp_nls s) (sp_els s)).
  Proof.
    intros H Hit. pose proof (edge_indices_exact _ _ _ g _ it (r_abs _ _ _ _ _ H) Hit) as Hl.
    apply lists_exactly_length in Hl. destruct H. by split.
  Qed.

  Lemma rel_set_node g s n lid l : rel g s → a_has_node (sp_g s) n → PN (g_nlm g) lid l →
    ∃ g', gm_set_node_label_id n lid g = (true, g') ∧
      rel g' (SState (a_add_node n l (sp_g s)) (sp_count s) (sp_max s) (sp_nls s) (sp_els s)).
  Proof.
    intros H [l0 Hn] HP. unfold gm_set_node_label_id. pose proof (r_abs _ _ _ _ _ H) as Ha.
    destruct (abs_node_Some_r _ _ _ _ _ _ _ Ha Hn) as (nm & Hnm & Hid & HPl).
    rewrite Hnm. eexists. split; [done|].
    destruct H as [_ Hc Hm Hnl Hel Hdn Hde Hge Hb]. split; try done; simpl.
    - by apply abs_set_label.
    - intros k Hk%add_node_has_node. apply Hb. destruct Hk as [->|?]; [by exists l0|done].
  Qed.
  Lemma rel_set_edge g s x y lid l : rel g s → a_has_edge (sp_g s) x y → PE (g_elm g) lid l →
    dir = true ∨ x = y →
    ∃ g', gm_set_edge_label_id x y lid g = Ok (true, g') ∧
      rel g' (SState (AG (ag_dir (sp_g s)) (ag_nodes (sp_g s)) (<[ekey (ag_dir (sp_g s)) x y := l]> (ag_edges (sp_g s))))
                (sp_count s) (sp_max s) (sp_nls s) (sp_els s)).
  Proof.
    intros H He HP Hd. unfold gm_set_edge_label_id. pose proof (r_abs _ _ _ _ _ H) as Ha.
    rewrite (rel_has_edge dir PN PE g s x y H). rewrite bool_decide_true by done.
    pose proof (proj2 (abs_adj _ _ _ _ _ x y Ha) He) as Hadj. unfold adj in Hadj.
    destruct (g_nodes g !! x) as [n|] eqn:Hn; [|by destruct Hadj].
    cbn [unwrap rbind]. unfold nm_set_neighbor_label. destruct Hadj as [l0 Hl0]. rewrite Hl0.
    eexists. split; [done|].
    destruct H as [_ Hc Hm Hnl Hel Hdn Hde Hge Hb]. split; try done; simpl.
    - apply abs_set_edge; try done; by eexists.
    - unfold a_num_edges in *. simpl. rewrite map_size_insert.
      unfold a_has_edge, a_edge_at in He. destruct He as [? ->]. done.
  Qed.

  Local Ltac fin := do 2 eexists; split; [done|]; split; [done|done].
  Lemma sim_step_plain o g s :
    is_raw o = false → rel g s →
    match spec_step o s with
    | SOk (r, s') => gN (sp_nls s') → gE (sp_els s') →
        ∃ r' g', gm_step dir lt o g = Ok (r', g') ∧ rel g' s' ∧ out_ok (sp_nls s') (sp_els s') r r'
    | SPanic => gm_step dir lt o g = Panic
    | SUnspec => True
    end.
  Proof.
    intros Hraw H. pose proof (r_nls _ _ _ _ _ H) as Hnls. pose proof (r_els _ _ _ _ _ H) as Hels.
    assert (ag_dir (sp_g s) = dir) as Hdir by apply (r_abs _ _ _ _ _ H).
    assert (∀ l, gE (register l (sp_els s)) → gE (sp_els s)) as HgE.
    { intros l. apply gE_anti, register_prefix. }
    destruct o as [n l|x y l|n|x y|n l|x y l|l|l| |n lid|x y lid]; simpl.
    - intros HN HE.
      destruct (rel_add_node dir lt PN PE gN PN_None PN_new PN_mono g s n l H HN) as (g' & -> & H').
      fin.
    - intros HN HE.
      destruct (rel_add_edge dir lt PN PE gN gE PN_None PE_None PN_new PE_new PN_mono PE_mono g s x y l H HN HE) as (g' & -> & H').
      fin.
    - destruct (ag_nodes (sp_g s) !! n) as [l|] eqn:Hn.
      + destruct (decide (a_has_edge (sp_g s) n n)) as [He|He].
        * by rewrite (rel_remove_node_panic dir PN PE g s n).
        * intros HN HE.
          destruct (rel_remove_node_ok dir PN PE g s n l H Hn He) as (node & g' & -> & _ & Hid & HP & Hgn & _ & _ & H').
          do 2 eexists. split; [done|]. split; [done|]. simpl. split; [done|].
          exists (nm_label node). rewrite Hgn, <-Hnls. done.
      + intros HN HE.
        rewrite (rel_remove_node_none dir PN PE g s n) by done. fin.
    - destruct (a_edge_at (sp_g s) x y) as [l|] eqn:He.
      + intros HN HE.
        destruct (rel_remove_edge_ok dir PN PE g s x y l H He) as (lid & g' & -> & HP & Hge & H').
        do 2 eexists. split; [done|]. split; [done|]. simpl. split; [done|]. split; [done|].
        exists lid. rewrite Hge, <-Hels. done.
      + intros HN HE.
        rewrite (rel_remove_edge_none dir PN PE g s x y) by done. fin.
    - unfold gm_update_node_label. rewrite (rel_has_node dir PN PE g s n) by done.
      destruct (ag_nodes (sp_g s) !! n) as [l0|] eqn:Hn.
      + intros HN HE.
        rewrite bool_decide_true by (by eexists).
        destruct (rel_add_node dir lt PN PE gN PN_None PN_new PN_mono g s n l H HN) as (g' & -> & H').
        fin.
      + intros HN HE. rewrite bool_decide_false by (by intros [? ?]). fin.
    - unfold gm_update_edge_label. rewrite (rel_has_edge dir PN PE g s x y) by done.
      destruct (a_edge_at (sp_g s) x y) as [l0|] eqn:Hn.
      + intros HN HE.
        rewrite bool_decide_true by (by eexists).
        destruct (rel_add_edge dir lt PN PE gN gE PN_None PE_None PN_new PE_new PN_mono PE_mono g s x y l H HN HE) as (g' & -> & H').
        fin.
      + intros HN HE. rewrite bool_decide_false by (by intros [? ?]). fin.
    - intros HN HE.
      destruct (rel_add_node_label dir lt PN PE gN PN_None PN_new PN_mono g s l H HN) as (lid & g' & -> & _ & Hlid & _ & _ & H').
      do 2 eexists. split; [done|]. split; [done|]. simpl. rewrite Hlid. destruct l as [x|]; [|done].
      simpl. by destruct (index_of _ _); simpl; rewrite ?Nat2N.id.
    - intros HN HE.
      destruct (rel_add_edge_label dir lt PN PE gE PE_None PE_new PE_mono g s l H HE) as (lid & g' & -> & _ & Hlid & _ & _ & H').
      do 2 eexists. split; [done|]. split; [done|]. simpl. rewrite Hlid. destruct l as [x|]; [|done].
      simpl. by destruct (index_of _ _); simpl; rewrite ?Nat2N.id.
    - intros HN HE. do 2 eexists. split; [done|]. split; [|done].
      apply rel_refine; [done|]. apply hash_order_exists.
    - done.
    - done.
  Qed.

  Lemma sim_step o g s :
    rel g s →
    match spec_step o s with
    | SOk (r, s') => gN (sp_nls s') → gE (sp_els s') →
        ∃ r' g', gm_step dir lt o g = Ok (r', g') ∧ rel g' s' ∧ out_ok (sp_nls s') (sp_els s') r r'
    | SPanic => gm_step dir lt o g = Panic
    | SUnspec => True
    end.
  Proof.
    intros H. destruct (is_raw o) eqn:Hraw; [|by apply sim_step_plain]. pose proof (r_nls _ _ _ _ _ H) as Hnls. pose proof (r_els _ _ _ _ _ H) as Hels.
    assert (ag_dir (sp_g s) = dir) as Hdir by apply (r_abs _ _ _ _ _ H).
    assert (∀ l, gE (register l (sp_els s)) → gE (sp_els s)) as HgE.
    { intros l. apply gE_anti, register_prefix. }
    destruct o as [n l|x y l|n|x y|n l|x y l|l|l| |n lid|x y lid]; try done; simpl.
    - destruct (ag_nodes (sp_g s) !! n) as [l0|] eqn:Hn.
      + destruct lid as [i|].
        * destruct (sp_nls s !! N.to_nat i) as [l|] eqn:Hl; [|done]. intros HN HE.
          destruct (rel_set_node g s n (Some i) (Some l) H) as (g' & -> & H'); [by exists l0|apply PN_raw; by rewrite Hnls|].
          fin.
        * intros HN HE.
          destruct (rel_set_node g s n None None H) as (g' & -> & H'); [by exists l0|done|]. fin.
      + intros HN HE. unfold gm_set_node_label_id.
        rewrite (proj2 (abs_node_None _ _ _ _ _ n (r_abs _ _ _ _ _ H)) Hn). fin.
    - destruct (a_edge_at (sp_g s) x y) as [l0|] eqn:Hn.
      + destruct (negb _ && _) eqn:Hb; [done|].
        assert (dir = true ∨ x = y) as Hd.
        { rewrite Hdir in Hb. apply andb_false_iff in Hb as [Hb|Hb].
          - left. by destruct dir.
          - right. apply bool_decide_eq_false in Hb. destruct (decide (x = y)); done. }
        destruct lid as [i|].
        * destruct (sp_els s !! N.to_nat i) as [l|] eqn:Hl; [|done]. intros HN HE.
          destruct (rel_set_edge g s x y (Some i) (Some l) H) as (g' & -> & H');
            [by exists l0|apply PE_raw; by rewrite Hels|done|].
          fin.
        * intros HN HE.
          destruct (rel_set_edge g s x y None None H) as (g' & -> & H'); [by exists l0|done|done|]. fin.
      + intros HN HE. unfold gm_set_edge_label_id.
        rewrite (rel_has_edge dir PN PE g s x y) by done. rewrite Hn.
        rewrite bool_decide_false by (by intros [? ?]). fin.
  Qed.

  Lemma sim_run h g s :
    rel g s →
    match spec_run h s with
    | SOk (rs, s') => gN (sp_nls s') → gE (sp_els s') →
        ∃ rs' g', gm_run dir lt h g = Ok (rs', g') ∧ rel g' s' ∧
          Forall2 (λ r r', ∃ nls els, gN nls ∧ gE els ∧ out_ok nls els r r') rs rs'
    | _ => True
    end.
  Proof.
    revert g s. induction h as [|o h IH]; intros g s H; simpl.
    { intros _ _. do 2 eexists. split; [done|]. split; [done|constructor]. }
    pose proof (sim_step o g s H) as Hs.
    destruct (spec_step o s) as [[r s1]| |] eqn:Ho; [|done..].
    destruct (spec_run h s1) as [[rs s']| |] eqn:Hh; [|done..]. intros HN HE.
    assert (sp_nls s1 `prefix_of` sp_nls s' ∧ sp_els s1 `prefix_of` sp_els s') as [Hq1 Hq2].
    { by eapply spec_run_prefix. }
    destruct Hs as (r' & g1 & -> & H1 & Hout); [by eapply gN_anti|by eapply gE_anti|].
    cbn [rbind]. specialize (IH g1 s1 H1). rewrite Hh in IH. destruct IH as (rs' & g' & -> & H' & Hrs); [done..|].
    do 2 eexists. split; [done|]. split; [done|]. constructor; [|done].
    exists (sp_nls s1), (sp_els s1). split; [by eapply gN_anti|]. split; [by eapply gE_anti|done].
  Qed.
End sim.
