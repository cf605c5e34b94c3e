From stdpp Require Import gmap strings.
From Verif Require Import Base BaseFacts Api Map Spec GraphMap GraphMapFacts GraphMapRefine GraphMapQueries GraphMapSim GraphMapThms GraphMapFrame GraphMapMore Static SpecStatic SpecSGraph Handles.

Section gm.
  Context {NL EL : Type} `{EqDecision NL, EqDecision EL}.
  Context (dir : bool) (lt : idty).
  Implicit Types g : graphmap NL EL.

  Lemma reach_ids g k n : gm_reachable dir lt g → g_nodes g !! k = Some n → nm_id n = k.
  Proof.
    intros [s H]%reach_skrel Hk. pose proof (ar_node _ _ _ _ _ (r_abs _ _ _ _ _ H) k) as Hn. rewrite Hk in Hn.
    inversion Hn as [? ? [? _]|]. done.
  Qed.
  Lemma node_handle g ord n : gm_reachable dir lt g →
    let V := gm_view dir ord g in let h := gmh_get_node g n in let m := gmh_get_node_mut g n in
    nt_is_some h = v_has_node V n ∧ mn_is_some m = v_has_node V n ∧
    (v_has_node V n = true →
      (∃ l, v_get_node V n = Ok (Some (n, l)) ∧ nt_get_id h = Ok n ∧ nt_get_label_id h = Ok l ∧ mn_get_id m = Ok n ∧ mn_get_label_id m = Ok l) ∧
      (∃ x, nt_unwrap_nodemap h = Ok x ∧ mn_unwrap_nodemap_ref m = Ok x ∧ v_neighbors V n = Ok (nm_neighbors x) ∧
         v_degree V n = Ok (nm_degree x) ∧ v_in_neighbors V n = Ok (nm_in_neighbors x) ∧ v_in_degree V n = Ok (nm_in_degree x)) ∧
      nt_unwrap_staticnode h = Panic) ∧
    (v_has_node V n = false →
      nt_get_id h = Panic ∧ nt_get_label_id h = Ok None ∧ nt_unwrap_nodemap h = Panic ∧ nt_unwrap_staticnode h = Panic ∧
      mn_get_id m = Panic ∧ mn_get_label_id m = Panic ∧ (∀ l, mn_set_label_id l m = Panic) ∧ mn_unwrap_nodemap_ref m = Panic).
  Proof.
    intros Hg V h m. unfold V, h, m, gmh_get_node, gmh_get_node_mut.
    cbn [gm_view v_has_node v_get_node v_neighbors v_degree v_in_neighbors v_in_degree].
    unfold gm_has_node, gm_get_node, gm_neighbors, gm_degree, gm_in_neighbors, gm_in_degree.
    destruct (g_nodes g !! n) as [x|] eqn:E.
    - pose proof (reach_ids g n x Hg E) as Hid. rewrite bool_decide_eq_true_2 by done. split_and!; [done|done| |done].
      intros _. cbn. rewrite Hid. split_and!; [|by exists x|done]. by exists (nm_label x).
    - rewrite bool_decide_eq_false_2 by (by intros [? ?]). split_and!; [done|done|done|]. intros _. by split_and!.
  Qed.
  Lemma set_label_handle g n l ord : gm_reachable dir lt g → gm_has_node g n = true →
    ∃ m' x g', mn_set_label_id l (gmh_get_node_mut g n) = Ok m' ∧ gm_set_node_label_id n l g = (true, g') ∧
      mn_get_id m' = Ok n ∧ mn_get_label_id m' = Ok l ∧ mn_unwrap_nodemap_ref m' = Ok x ∧
      gm_neighbors g n = Ok (nm_neighbors x) ∧ gm_in_neighbors g n = Ok (nm_in_neighbors x) ∧
      gmh_get_node_mut g' n = m' ∧ v_get_node (gm_view dir ord g') n = Ok (Some (n, l)) ∧
      ∀ k, k ≠ n → gmh_get_node_mut g' k = gmh_get_node_mut g k.
  Proof.
    intros Hg. unfold gm_has_node, gmh_get_node_mut, gm_set_node_label_id, gm_neighbors, gm_in_neighbors.
    destruct (g_nodes g !! n) as [y|] eqn:E; [|rewrite bool_decide_eq_false_2 by (by intros [? ?]); done]. intros _.
    pose proof (reach_ids g n y Hg E) as Hid. exists (MNNodeMap (nm_set_label_id l y)), (nm_set_label_id l y). eexists. split; [done|]. split; [done|].
    split; [cbn; by rewrite Hid|]. split; [done|]. split; [done|]. split; [done|]. split; [done|].
    cbn [set_nodes g_nodes gm_view v_get_node]. rewrite lookup_insert. split; [done|]. split.
    - unfold gm_get_node. cbn [set_nodes g_nodes]. rewrite lookup_insert. cbn. by rewrite Hid.
    - intros k Hk. by rewrite lookup_insert_ne by done.
  Qed.
  Lemma nodes_handles g ord : gm_reachable dir lt g → hash_order g ord →
    gmh_nodes g ord = gmh_get_node g <$> v_node_indices (gm_view dir ord g) ∧
    Forall (λ h, nt_is_some h = true) (gmh_nodes g ord).
  Proof.
    intros Hg Ho. unfold gmh_nodes, gm_values. cbn [gm_view v_node_indices]. unfold gm_node_indices. split.
    - assert (∀ k, k ∈ ord → is_Some (g_nodes g !! k)) as Hk.
      { intros k Hk. unfold hash_order in Ho. rewrite Ho in Hk. apply elem_of_list_fmap in Hk as ([k' n] & -> & Hk).
        apply elem_of_map_to_list in Hk. by exists n. }
      clear Ho. induction ord as [|k ord IH]; [done|]. cbn [omap list_omap fmap list_fmap].
      destruct (Hk k ltac:(left)) as [n Hn]. unfold gmh_get_node at 1. rewrite Hn. cbn [fmap list_fmap]. f_equal.
      apply IH. intros k' Hk'. apply Hk. by right.
    - apply Forall_fmap, Forall_true. done.
  Qed.
  Lemma removed_handle g n : gm_reachable dir lt g →
    match gmh_remove_node dir n g with
    | Ok (h, g') => gm_has_edge g n n = false ∧ h = gmh_get_node_mut g n ∧ gmh_get_node_mut g' n = MNNone
    | r => r = Panic ∧ gm_has_edge g n n = true
    end.
  Proof.
    intros [s H]%reach_skrel. unfold gmh_remove_node, gmh_get_node_mut.
    rewrite (rel_has_edge dir (λ _ _ _, True) (λ _ _ _, True) g s n n H).
    destruct (ag_nodes (sp_g s) !! n) as [l|] eqn:En; [destruct (decide (a_has_edge (sp_g s) n n)) as [He|He]|].
    - rewrite (rel_remove_node_panic dir _ _ g s n H He). cbn [rbind]. split; [done|]. by apply bool_decide_eq_true_2.
    - destruct (rel_remove_node_ok dir _ _ g s n l H En He) as (node & g' & E & Hn & _ & _ & _ & _ & Hm & _).
      rewrite E, Hn. cbn [rbind]. rewrite Hm, lookup_remove_node_map, decide_True by done.
      split_and!; [by apply bool_decide_eq_false_2|done|done].
    - rewrite (rel_remove_node_none dir _ _ g s n H En). cbn [rbind].
      pose proof (proj2 (abs_node_None _ _ _ _ _ n (r_abs _ _ _ _ _ H)) En) as Hn. rewrite Hn. split_and!; [|done|done].
      apply bool_decide_eq_false_2. intros He. pose proof (proj2 (abs_adj dir _ _ _ _ n n (r_abs _ _ _ _ _ H)) He) as Hadj.
      unfold adj in Hadj. rewrite Hn in Hadj. by destruct Hadj.
  Qed.
  Lemma edge_handle g ord x y : gm_reachable dir lt g →
    let V := gm_view dir ord g in
    ∃ b h m, v_has_edge V x y = Ok b ∧ gmh_get_edge g x y = Ok h ∧ gmh_get_edge_mut g x y = Ok m ∧
      et_is_some h = b ∧ me_is_some m = b ∧
      me_unwrap_edge m = Panic ∧
      (b = true → ∃ l, v_get_edge V x y = Ok (Some (x, y, l)) ∧
         et_get_start h = Ok x ∧ et_get_target h = Ok y ∧ et_get_label_id h = Ok l ∧ et_unwrap h = Ok (x, y, l) ∧
         me_get_start m = Ok x ∧ me_get_target m = Ok y ∧ me_get_label_id m = Ok l ∧ me_unwrap_edge_ref m = Ok (x, y, l)) ∧
      (b = false → et_get_start h = Panic ∧ et_get_target h = Panic ∧ et_get_label_id h = Ok None ∧ et_unwrap h = Panic ∧
         me_get_start m = Panic ∧ me_get_target m = Panic ∧ me_get_label_id m = Panic ∧ me_unwrap_edge_ref m = Panic).
  Proof.
    intros Hg V. cbn [V gm_view v_has_edge v_get_edge]. unfold gmh_get_edge, gmh_get_edge_mut, gm_get_edge. exists (gm_has_edge g x y).
    destruct (gm_has_edge g x y) eqn:E.
    - unfold gm_has_edge in E. destruct (g_nodes g !! x) as [n|] eqn:En; [|done]. cbn [unwrap rbind].
      unfold nm_has_neighbor in E. apply bool_decide_eq_true in E as [l El]. unfold nm_get_neighbor. rewrite El. cbn [unwrap rbind].
      rewrite (reach_ids g x n Hg En). do 2 eexists. split_and!; [done..| |done]. intros _. exists l. by split_and!.
    - cbn [rbind]. do 2 eexists. split_and!; [done..|]. intros _. by split_and!.
  Qed.
  Lemma removed_edge g x y : gm_reachable dir lt g → ∃ h g', gmh_remove_edge dir x y g = Ok (h, g') ∧
    gmh_get_edge g x y = Ok h ∧ gmh_get_edge g' x y = Ok ETNone ∧ (et_is_none h = true → oe_get_label_id h = Panic).
  Proof.
    intros Hg. unfold gmh_remove_edge. pose proof Hg as [s H]%reach_skrel.
    destruct (skrel_step dir lt g s (ORemoveEdge x y) H) as [(r & g' & s' & Hs & H' & [[Hc _]|(_ & r0 & Hr & _)])|(Hp & n & Hn & _)]; [done| |done].
    cbn [gm_step] in Hs. destruct (gm_remove_edge dir x y g) as [[o g'']| |] eqn:E; cbn [rmap rbind] in Hs; [|done|done].
    injection Hs as _ ->. cbn [rbind].
    assert (gm_has_edge g' x y = false) as Hno.
    { rewrite (rel_has_edge dir (λ _ _ _, True) (λ _ _ _, True) g' s' x y H'). apply bool_decide_eq_false_2.
      cbn [spec_step] in Hr. unfold a_has_edge, a_edge_at in Hr |- *. destruct (ag_edges (sp_g s) !! _) as [l|] eqn:El; simplify_eq.
      - cbn [sp_g a_remove_edge ag_edges ag_dir]. rewrite lookup_delete. by intros [? ?].
      - rewrite El. by intros [? ?]. }
    assert (gmh_get_edge g' x y = Ok ETNone) as Hn. { unfold gmh_get_edge, gm_get_edge. by rewrite Hno. }
    eexists _, g'. split; [done|]. rewrite Hn.
    unfold gmh_get_edge. unfold gm_remove_edge in E. unfold gm_get_edge. destruct (gm_has_edge g x y) eqn:Eh.
    - unfold gm_has_edge in Eh. destruct (g_nodes g !! x) as [n|] eqn:En; [|done]. cbn [unwrap rbind] in E |- *.
      unfold nm_has_neighbor in Eh. apply bool_decide_eq_true in Eh as [l El]. unfold nm_get_neighbor. rewrite El. cbn [unwrap rbind].
      unfold nm_remove_edge in E. rewrite El in E. rewrite (reach_ids g x n Hg En) in E.
      assert (o = Some (x, y, l)) as ->; [|by split_and!].
      destruct dir; cbn [rbind] in E; (destruct (upd_node _ _ _); cbn [rbind] in E; [|done|done]); (destruct (usub _ _); cbn [rbind] in E; [|done|done]); by simplify_eq.
    - simplify_eq. by split_and!.
  Qed.
End gm.

Lemma static_handle {NL EL} (it lt : idty) (dir : bool) (g : sgraph NL EL) A n : arrays_of lt g A →
  let V := sg_view it lt dir g in
  ∃ h, sgh_get_node lt g n = Ok h ∧ nt_is_some h = v_has_node V n ∧ nt_unwrap_nodemap h = Panic ∧
    (v_has_node V n = true → ∃ l, v_get_node V n = Ok (Some (n, l)) ∧ nt_get_id h = Ok n ∧ nt_get_label_id h = Ok l ∧ nt_unwrap_staticnode h = Ok (n, l)) ∧
    (v_has_node V n = false → nt_get_id h = Panic ∧ nt_get_label_id h = Ok None ∧ nt_unwrap_staticnode h = Panic).
Proof.
  intros HA V. cbn [V sg_view v_has_node v_get_node]. unfold sgh_get_node, sg_get_node.
  destruct (sg_has_node g n) eqn:E; cbn [negb].
  - assert (a_has_node A n) as Hn.
    { apply (so_nodes _ _ _ HA). rewrite <-(so_count _ _ _ HA). unfold sg_has_node, id_id in E. apply bool_decide_eq_true in E. lia. }
    pose proof (so_node_labels _ _ _ HA n Hn) as Hl. destruct (sg_labels g) as [ls|].
    + destruct Hl as (i & Hi & _). change (id_id n) with (N.to_nat n). rewrite Hi. cbn [unwrap rbind]. eexists. split_and!; [done..| |done].
      intros _. eexists. by split_and!.
    + cbn [rbind]. eexists. split_and!; [done..| |done]. intros _. exists None. by split_and!.
  - cbn [rbind]. eexists. split_and!; [done..|]. intros _. by split_and!.
Qed.
