(** Final lemmas behind Properties_GraphMap.v. *)
From Verif Require Import Base Api Spec BaseFacts SpecFacts Map MapFacts GraphMap GraphMapFacts
  GraphMapRefine GraphMapQueries GraphMapSim GraphMapThms GraphMapMore ViewFacts GraphMapFrame.

Section props.
  Context {NL EL : Type} `{EqDecision NL, EqDecision EL} (dir : bool) (lt : idty).
  Notation lrel := (rel dir (@lab_rel NL) (@lab_rel EL)).
  Implicit Types (g : graphmap NL EL) (A : agraph NL EL).

  Lemma refinement nls els h rs s :
    NoDup nls → NoDup els → spec_run h (s_init dir nls els) = SOk (rs, s) →
    labels_fit lt (sp_nls s) → labels_fit lt (sp_els s) →
    ∃ g, gm_run dir lt h (gm_with_label_map nls els) = Ok (rs, g) ∧
      ∀ it, hash_order g it →
        let V := gm_view dir it g in
        represents V (sp_g s) ∧ answers_missing V (sp_g s) ∧ iterates V ∧
        v_edge_count V = sp_count s ∧ v_max_seen_id V = Ok (sp_max s) ∧
        v_node_label_map V = sp_nls s ∧ v_edge_label_map V = sp_els s.
  Proof.
    intros Hn He Hs HN HE.
    destruct (label_sim dir lt h (gm_with_label_map nls els) (s_init dir nls els) rs s) as (g & Hg & H); [|done..|].
    { by apply rel_init. }
    exists g. split; [done|]. intros it Hit. by apply lrel_view.
  Qed.

  Lemma structure nls els h : NoDup nls → NoDup els →
    match spec_run (strip h) (s_init dir nls els) with
    | SOk (rs, s) => ∃ rs' g, gm_run dir lt h (gm_with_label_map nls els) = Ok (rs', g) ∧
        out_unlabelled <$> kept_outs h rs' = out_unlabelled <$> rs ∧
        ∀ it, hash_order g it →
          let V := gm_view dir it g in
          represents (v_unlabelled V) (a_unlabelled (sp_g s)) ∧ answers_missing V (sp_g s) ∧ iterates V ∧
          v_edge_count V = sp_count s ∧ v_max_seen_id V = Ok (sp_max s) ∧
          v_node_label_map V = sp_nls s ∧ v_edge_label_map V = sp_els s
    | SPanic => gm_run dir lt h (gm_with_label_map nls els) = Panic
    | SUnspec => False
    end.
  Proof.
    intros Hn He. pose proof (skel_run dir lt h _ _ (skrel_init dir nls els Hn He)) as Hr.
    destruct (spec_run _ _) as [[rs s]| |]; [|done..]. destruct Hr as (rs' & g & Hg & H & Ho).
    exists rs', g. split; [done|]. split; [done|]. intros it Hit. by apply skrel_view.
  Qed.

  Lemma undirected_symmetry g it A : dir = false → hash_order g it → represents (gm_view dir it g) A →
    answers_missing (gm_view dir it g) A → ag_dir A = false → ∀ x y,
    v_has_edge (gm_view dir it g) x y = v_has_edge (gm_view dir it g) y x ∧
    v_edge_label (gm_view dir it g) x y = v_edge_label (gm_view dir it g) y x.
  Proof.
    intros -> Hit Hrep Hmiss Hd x y. set (V := gm_view false it g) in *.
    assert (∀ x y, v_has_edge V x y = Ok (bool_decide (a_has_edge A x y))) as Hhe.
    { intros a b. destruct (decide (a_has_node A a)) as [Ha|Ha].
      - destruct (rp_has_edge _ _ Hrep a b Ha) as (r & -> & Hr). f_equal.
        case_bool_decide as Hb; [by apply Hr|]. destruct r; [|done]. destruct Hb. by apply Hr.
      - rewrite (am_has_edge _ _ Hmiss) by done. f_equal. symmetry. apply bool_decide_eq_false. intros He.
        by apply (wf_edge_nodes A) in He as [? _]; [|apply Hrep]. }
    split.
    - rewrite !Hhe. f_equal. apply bool_decide_ext. by apply has_edge_sym.
    - destruct (decide (a_has_edge A x y)) as [He|He].
      + rewrite (rep_edge_label V A x y), (rep_edge_label V A y x); [|done| |done..]; [by rewrite edge_at_sym|by apply has_edge_sym].
      + rewrite (rep_missing_edge_label V A x y), (rep_missing_edge_label V A y x); [done|done| |done..].
        by rewrite has_edge_sym.
  Qed.

  (** C11 *)
  Lemma refine_restores g it it' r g' : gm_reachable dir lt g → hash_order g it →
    gm_step dir lt ORefineEdgeCount g = Ok (r, g') → hash_order g' it' →
    (∃ l, v_edge_indices (gm_view dir it' g') = Ok l ∧ v_edge_count (gm_view dir it' g') = length l) ∧
    g' = gm_refine_edge_count dir it g ∧
    (∃ k, gm_view dir it g' = 
       let V := gm_view dir it g in
       GView (v_directed V) (v_is_di V) (v_node_count V) k (v_has_node V) (v_has_edge V)
         (v_get_node V) (v_get_edge V) (v_node_indices V) (v_edge_indices V) (v_nodes V) (v_edges V)
         (v_degree V) (v_neighbors V) (v_in_degree V) (v_in_neighbors V) (v_max_seen_id V)
         (v_node_label_map V) (v_edge_label_map V)).
  Proof.
    intros Hr Hit Hs Hit'. destruct (refine_spec dir lt g it it' Hr Hit) as [Hs' Hg'].
    { simpl in Hs. injection Hs as _ <-. exact Hit'. }
    rewrite Hs in Hs'. simplify_eq. split; [|split; [done|]].
    - eexists. split; [done|]. rewrite Hg'. done.
    - eexists. reflexivity.
  Qed.

  (** C14 *)
  Lemma in_neighbors_inverse g it : dir = true → gm_reachable dir lt g → hash_order g it →
    let V := gm_view dir it g in
    (∀ n, v_has_node V n = true ↔ ∃ l l', v_neighbors V n = Ok l ∧ v_in_neighbors V n = Ok l') ∧
    (∀ x y lx ly, v_neighbors V x = Ok lx → v_in_neighbors V y = Ok ly →
       (y ∈ lx ↔ x ∈ ly) ∧ (y ∈ lx ↔ v_has_edge V x y = Ok true) ∧ increasing lx ∧ increasing ly ∧
       v_degree V x = Ok (length lx) ∧ v_in_degree V y = Ok (length ly)) ∧
    (∃ ds is es, rmapl (v_degree V) (v_node_indices V) = Ok ds ∧
       rmapl (v_in_degree V) (v_node_indices V) = Ok is ∧ v_edge_indices V = Ok es ∧
       sum_list ds = length es ∧ sum_list is = length es).
  Proof.
    intros Hd [s H]%(reach_skrel dir lt) Hit V. destruct (skrel_view dir g s it H Hit) as (Hrep & Hmiss & _).
    fold V in Hrep, Hmiss. set (A := a_unlabelled (sp_g s)) in *.
    assert (ag_dir A = true) as HdA.
    { unfold A. simpl. rewrite (ar_dir _ _ _ _ _ (r_abs _ _ _ _ _ H)). done. }
    assert (∀ n, a_has_node (sp_g s) n ↔ a_has_node A n) as HA.
    { intros n. unfold A, a_has_node. simpl. rewrite lookup_fmap. by rewrite fmap_is_Some. }
    assert (∀ n, v_neighbors V n = Panic ∨ a_has_node A n) as Hn1.
    { intros n. destruct (decide (a_has_node A n)) as [?|Hn]; [by right|]. left.
      rewrite <-HA in Hn. by apply (am_degree _ _ Hmiss). }
    assert (∀ n, v_in_neighbors V n = Panic ∨ a_has_node A n) as Hn2.
    { intros n. destruct (decide (a_has_node A n)) as [?|Hn]; [by right|]. left.
      rewrite <-HA in Hn. by apply (am_in_degree _ _ Hmiss). }
    split_and!.
    - intros n. rewrite (rp_has_node _ _ Hrep n : v_has_node V n = true ↔ _). split.
      + intros Hn. destruct (rp_neighbors _ _ Hrep n Hn) as (l & Hl & _).
        destruct (rp_in_neighbors _ _ Hrep HdA n Hn) as (l' & Hl' & _). eauto.
      + intros (l & l' & Hl & _). destruct (Hn1 n) as [Hp|]; [congruence|done].
    - intros x y lx ly Hlx Hly.
      destruct (Hn1 x) as [Hp|Hx]; [congruence|]. destruct (Hn2 y) as [Hp|Hy]; [congruence|].
      destruct (rp_neighbors _ _ Hrep x Hx) as (l1 & Hl1 & Hi1 & Hm1).
      destruct (rp_in_neighbors _ _ Hrep HdA y Hy) as (l2 & Hl2 & Hi2 & Hm2).
      pose proof (rp_degree _ _ Hrep x Hx) as Hdeg. pose proof (rp_in_degree _ _ Hrep HdA y Hy) as Hideg.
      pose proof (rep_has_edge_true _ _ x y Hrep Hx) as Hhe.
      change (v_neighbors V x = Ok l1) in Hl1. change (v_in_neighbors V y = Ok l2) in Hl2.
      change (v_degree V x = rmap length (v_neighbors V x)) in Hdeg.
      change (v_in_degree V y = rmap length (v_in_neighbors V y)) in Hideg.
      change (v_has_edge V x y = Ok true ↔ a_has_edge A x y) in Hhe.
      rewrite Hdeg, Hideg. rewrite Hlx in Hl1 |- *. rewrite Hly in Hl2 |- *. simplify_eq.
      split_and!; try done; [by rewrite Hm1, Hm2|by rewrite Hm1, Hhe].
    - destruct (degree_sum _ _ Hrep HdA) as (ds & Hds & Hs1). destruct (in_degree_sum _ _ Hrep HdA) as (is & His & Hs2).
      destruct (rp_edge_indices _ _ Hrep) as (es & Hes & Hl). apply lists_exactly_length in Hl.
      exists ds, is, es. split_and!; try done; [by rewrite Hs1|by rewrite Hs2].
  Qed.

  (** C25 *)
  Definition fe_inv (es : list (N * N)) (s : sstate NL EL) : Prop :=
    ag_dir (sp_g s) = dir ∧ sp_nls s = [] ∧ sp_els s = [] ∧ sp_count s = length es ∧
    (∀ n, ag_nodes (sp_g s) !! n = if decide (n ∈ es.*1 ++ es.*2) then Some None else None) ∧
    (∀ k, ag_edges (sp_g s) !! k = if decide (k ∈ (λ e, ekey dir e.1 e.2) <$> es) then Some None else None).

  Lemma from_edges_lemma es :
    ∃ g, gm_from_edges dir lt es = Ok g ∧ ∀ it, hash_order g it →
      let V := gm_view dir it g in
      ∃ A, represents V A ∧ answers_missing V A ∧ iterates V ∧ ag_dir A = dir ∧
        (∀ n, a_has_node A n ↔ ∃ e, e ∈ es ∧ (n = e.1 ∨ n = e.2)) ∧
        (∀ x y, a_has_edge A x y ↔ (x, y) ∈ es ∨ (dir = false ∧ (y, x) ∈ es)) ∧
        (∀ n l, ag_nodes A !! n = Some l → l = None) ∧ (∀ e l, ag_edges A !! e = Some l → l = None) ∧
        v_edge_count V = length es ∧
        (NoDup ((λ e, ekey dir e.1 e.2) <$> es) → exact_count V A).
  Proof.
    unfold gm_from_edges.
    destruct (rfold_ind (λ es (g : graphmap NL EL), ∃ s, lrel g s ∧ fe_inv es s)
      (λ g e, let* '(_, g) := gm_add_node lt e.1 None g in
              let* '(_, g) := gm_add_node lt e.2 None g in
              rmap snd (gm_add_edge dir lt e.1 e.2 None g)) es gm_new) as (g & Hg & s & H & Hinv).
    - exists (s_init dir [] []). split; [apply rel_init; constructor|].
      unfold fe_inv. simpl. split_and!; try done.
      all: intros k; rewrite lookup_empty; rewrite decide_False; [done|]; intros Hx; by apply elem_of_nil in Hx.
    - intros l1 [x y] l2 g _ (s & H & Hd & Hnls & Hels & Hc & Hno & Hed).
      destruct (label_sim dir lt [OAddNode x None; OAddNode y None; OAddEdge x y None] g s _ _ H eq_refl)
        as (g' & Hg & H').
      { simpl. rewrite Hnls. unfold labels_fit. simpl. lia. }
      { simpl. rewrite Hels. unfold labels_fit. simpl. lia. }
      exists g'. split.
      { simpl in Hg. simpl. destruct (gm_add_node lt x None g) as [[b1 g1]| |]; simpl in *; [|done..].
        destruct (gm_add_node lt y None g1) as [[b2 g2]| |]; simpl in *; [|done..].
        destruct (gm_add_edge dir lt x y None g2) as [[b3 g3]| |]; simpl in *; [|done..]. congruence. }
      eexists. split; [exact H'|]. unfold fe_inv. cbn [sp_g sp_count sp_nls sp_els s_add_edge s_add_node register].
      split_and!.
      + by rewrite add_edge_dir.
      + done.
      + done.
      + rewrite app_length. simpl. lia.
      + intros n. rewrite add_edge_nodes. rewrite !touch_present.
        2:{ apply add_node_has_node. right. apply add_node_has_node. by left. }
        2:{ rewrite touch_present; [apply add_node_has_node; by left|]. apply add_node_has_node. right.
            apply add_node_has_node. by left. }
        simpl. rewrite !fmap_app. simpl.
        destruct (decide (n = y)) as [->|Hny].
        { rewrite lookup_insert. rewrite decide_True; [done|]. set_solver. }
        rewrite lookup_insert_ne by done. destruct (decide (n = x)) as [->|Hnx].
        { rewrite lookup_insert. rewrite decide_True; [done|]. set_solver. }
        rewrite lookup_insert_ne by done. rewrite Hno. apply decide_ext. set_solver.
      + intros k. rewrite add_edge_edges. cbn [ag_dir ag_edges a_add_node]. rewrite Hd, fmap_app. simpl.
        destruct (decide (k = ekey dir x y)) as [->|Hne].
        { rewrite lookup_insert, decide_True; [done|]. set_solver. }
        rewrite lookup_insert_ne by done. rewrite Hed. apply decide_ext. set_solver.
    - exists g. split; [done|]. intros it Hit. destruct (lrel_view dir g s it H Hit) as (Hrep & Hmiss & Hiter & Hec & _).
      destruct Hinv as (Hd & _ & _ & Hc & Hno & Hed). exists (sp_g s).
      split_and!; try done.
      + intros n. unfold a_has_node. rewrite Hno. split.
        * intros Hn. case_decide as Hdec; [|by destruct Hn].
          rewrite elem_of_app, !elem_of_list_fmap in Hdec. destruct Hdec as [(e & -> & ?)|(e & -> & ?)]; eauto.
        * intros (e & He & Hn). rewrite decide_True; [by eexists|]. rewrite elem_of_app, !elem_of_list_fmap.
          destruct Hn as [->| ->]; eauto.
      + intros x y. unfold a_has_edge, a_edge_at. rewrite Hed, Hd. split.
        * intros Hn. case_decide as Hdec; [|by destruct Hn]. apply elem_of_list_fmap in Hdec as ([a b] & Heq & He).
          apply ekey_eq in Heq as [[-> ->]|(? & -> & ->)]; auto.
        * intros Hn. rewrite decide_True; [by eexists|]. apply elem_of_list_fmap.
          destruct Hn as [He|[Hf He]]; [by exists (x, y)|]. exists (y, x). split; [|done]. rewrite Hf. apply ekey_sym.
      + intros n l. rewrite Hno. case_decide; [|done]. by intros [= <-].
      + intros n l. rewrite Hed. case_decide; [|done]. by intros [= <-].
      + by rewrite Hec.
      + intros Hnd. unfold exact_count. rewrite Hec, Hc. unfold a_num_edges.
        rewrite <-(lists_exactly_length ((λ e, ekey dir e.1 e.2) <$> es)); [by rewrite fmap_length|].
        split; [done|]. intros k. rewrite Hed. split.
        * intros Hk. rewrite decide_True by done. by eexists.
        * intros Hk. case_decide; [done|by destruct Hk].
  Qed.
End props.
