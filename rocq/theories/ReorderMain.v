(** Final lemmas behind Properties_Reorder.v. *)
From Verif Require Import Base Api Spec BaseFacts SpecFacts Map MapFacts GraphMap GraphMapFacts
  GraphMapRefine GraphMapQueries GraphMapSim GraphMapThms GraphMapMore GraphMapFrame GraphMapProps ViewFacts SpecReorder Reorder ReorderFacts ReorderProps ReorderThms.

(** The same answers along a renaming. *)
Section same.
  Context {NL EL : Type}.
  Implicit Types (V : gview NL EL) (A B : agraph NL EL).
  Lemma renames_has_node f A B x : renames f A B → a_has_node A x → a_has_node B (f x).
  Proof. intros HR [l Hl]. exists l. apply (rn_nodes _ _ _ HR). by exists x. Qed.
  Lemma renames_same f V V' A B : represents V A → represents V' B → answers_missing V A → answers_missing V' B → renames f A B →
    ∀ x y, a_has_node A x → a_has_node A y →
      v_has_node V' (f x) = v_has_node V x ∧
      v_has_edge V' (f x) (f y) = v_has_edge V x y ∧
      v_node_label V' (f x) = v_node_label V x ∧
      v_edge_label V' (f x) (f y) = v_edge_label V x y.
  Proof.
    intros H H' Hm Hm' HR x y Hx Hy.
    pose proof (renames_has_node f A B x HR Hx) as Hx'.
    pose proof (renames_has_node f A B y HR Hy) as Hy'.
    assert (a_has_edge B (f x) (f y) ↔ a_has_edge A x y) as He by (unfold a_has_edge; by rewrite (rn_edges _ _ _ HR)).
    split_and!.
    - apply (rp_has_node _ _ H) in Hx. apply (rp_has_node _ _ H') in Hx'. congruence.
    - destruct (rp_has_edge _ _ H x y Hx) as (b & -> & Hb). destruct (rp_has_edge _ _ H' (f x) (f y) Hx') as (b' & -> & Hb').
      f_equal. rewrite He, <-Hb in Hb'. destruct b, b'; naive_solver.
    - rewrite (rep_node_label V A x H Hx), (rep_node_label V' B (f x) H' Hx'). do 2 f_equal.
      destruct Hx as [l Hl]. rewrite Hl. apply (rn_nodes _ _ _ HR). by exists x.
    - destruct (decide (a_has_edge A x y)) as [Hxy|Hxy].
      + rewrite (rep_edge_label V A x y H Hxy), (rep_edge_label V' B (f x) (f y) H') by (by apply He).
        by rewrite (rn_edges _ _ _ HR).
      + unfold v_edge_label. rewrite (am_get_edge _ _ Hm x y Hxy), (am_get_edge _ _ Hm') by (by rewrite He). done.
  Qed.
End same.

Section main.
  Context {NL EL : Type} `{EqDecision NL, EqDecision EL} (dir : bool) (idt lt : idty).
  Notation lrel := (rel dir (@lab_rel NL) (@lab_rel EL)).

  Lemma reorder_main nls els h rs s :
    NoDup nls → NoDup els → spec_run h (s_init dir nls els) = SOk (rs, s) →
    labels_fit lt (sp_nls s) → labels_fit lt (sp_els s) →
    (∀ x, a_has_node (sp_g s) x → (x < id_card idt)%N) →
    ∃ g : graphmap NL EL, gm_run dir lt h (gm_with_label_map nls els) = Ok (rs, g) ∧
    ∀ it no eo fn fnl fel, hash_order g it →
      counter_order (node_label_ids g it) no → counter_order (edge_label_ids dir g it) eo →
      ∃ R g' f B, gm_reorder_id dir idt lt it no eo fn fnl fel g = Ok R ∧ rr_graph R = Some g' ∧
        (∀ x, a_has_node (sp_g s) x → rr_find_new_node_id idt R x = Ok (f x)) ∧
        renames f (sp_g s) B ∧
        (if fn : bool then
           onto_prefix f (sp_g s) ∧
           ∀ x y, a_has_node (sp_g s) x → a_has_node (sp_g s) y →
             a_total_degree (sp_g s) x < a_total_degree (sp_g s) y → (f x < f y)%N
         else B = sp_g s ∧ ∀ x, f x = x) ∧
        ∀ it', hash_order g' it' →
          let V := gm_view dir it g in
          let V' := gm_view dir it' g' in
          represents V' B ∧ answers_missing V' B ∧ iterates V' ∧ v_edge_count V' = v_edge_count V ∧
          (if fnl : bool then by_frequency (a_node_label_count (sp_g s)) (v_node_label_map V') else v_node_label_map V' = sp_nls s) ∧
          (if fel : bool then by_frequency (a_edge_label_count (sp_g s)) (v_edge_label_map V') else v_edge_label_map V' = sp_els s) ∧
          ∀ x y, a_has_node (sp_g s) x → a_has_node (sp_g s) y →
            v_has_node V' (f x) = v_has_node V x ∧
            v_has_edge V' (f x) (f y) = v_has_edge V x y ∧
            v_node_label V' (f x) = v_node_label V x ∧
            v_edge_label V' (f x) (f y) = v_edge_label V x y.
  Proof.
    intros Hn He Hs HN HE Hid.
    destruct (label_sim dir lt h (gm_with_label_map nls els) (s_init dir nls els) rs s) as (g & Hg & H); [by apply rel_init|done..|].
    exists g. split; [done|]. intros it no eo fn fnl fel Hit Hno Heo.
    pose proof (reorder_ok dir idt lt g s H it Hit no eo fn fnl fel Hid) as Hr.
    rewrite (r_nls _ _ _ _ _ H), (r_els _ _ _ _ _ H) in Hr. specialize (Hr HN HE Hno Heo).
    cbv zeta in Hr. destruct Hr as (Hc & g' & mx & Hg' & HR & Hrel').
    set (im := if fn then Some (node_order g it) else None) in *.
    exists (ReorderResult im (Some g')), g', (vf idt im), (a_rename (vf idt im) (sp_g s)).
    split; [done|]. split; [done|]. split.
    { intros x Hx. unfold rr_find_new_node_id. cbn [rr_map]. by apply (via_ok idt im (a_has_node (sp_g s))). }
    split; [done|]. split.
    { subst im. destruct fn.
      - by apply (node_order_onto dir idt _ _ g s H it Hit).
      - split; [|done]. pose proof (with_wf dir _ _ g s H) as Hwf. destruct (sp_g s) as [d ns es]. unfold a_rename. cbn [ag_dir ag_nodes ag_edges]. f_equal.
        + replace ((λ p : N * option NL, (vf idt None p.1, p.2)) <$> map_to_list ns) with (map_to_list ns); [apply list_to_map_to_list|].
          rewrite <-(list_fmap_id (map_to_list ns)) at 1. apply list_fmap_ext. by intros ? [].
        + replace ((λ p : N * N * option EL, (ekey d (vf idt None p.1.1) (vf idt None p.1.2), p.2)) <$> map_to_list es)
            with (map_to_list es); [apply list_to_map_to_list|].
          rewrite <-(list_fmap_id (map_to_list es)) at 1. apply list_fmap_ext. intros i [[x y] l] Hin.
          apply elem_of_list_lookup_2, elem_of_map_to_list in Hin. cbn [fst snd id].
          destruct (Hwf x y) as (Hk & _); [by eexists|]. cbn [ag_dir] in Hk. unfold vf. cbn [via]. by rewrite Hk. }
    intros it' Hit'. cbv zeta.
    destruct (lrel_view dir g s it H Hit) as (H1 & H2 & H3 & H4 & H5 & H6 & H7).
    destruct (lrel_view dir g' _ it' Hrel' Hit') as (H1' & H2' & H3' & H4' & H5' & H6' & H7').
    cbn [sp_g sp_count sp_max sp_nls sp_els] in *.
    split; [done|]. split; [done|]. split; [done|]. split; [by rewrite H4, H4'|]. rewrite H6', H7'.
    rewrite <-(r_nls _ _ _ _ _ H), <-(r_els _ _ _ _ _ H).
    split; [|split].
    - destruct fnl; [|done]. by apply (node_labels_by_frequency dir).
    - destruct fel; [|done]. by apply edge_labels_by_frequency.
    - by apply (renames_same _ _ _ (sp_g s) (a_rename (vf idt im) (sp_g s))).
  Qed.

  (** Any reachable graph, labels not renumbered. *)
  Lemma reorder_any (g : graphmap NL EL) it no eo fn :
    gm_reachable dir lt g → hash_order g it →
    let V := gm_view dir it g in
    (∀ x, v_has_node V x = true → (x < id_card idt)%N) →
    ∃ R g' f, gm_reorder_id dir idt lt it no eo fn false false g = Ok R ∧ rr_graph R = Some g' ∧
      (∀ x, v_has_node V x = true → rr_find_new_node_id idt R x = Ok (f x)) ∧
      ∀ it', hash_order g' it' →
        let V' := gm_view dir it' g' in
        (∀ y, v_has_node V' y = true ↔ ∃ x, v_has_node V x = true ∧ f x = y) ∧
        (∀ x y, v_has_node V x = true → v_has_node V y = true →
          (f x = f y → x = y) ∧
          v_has_edge V' (f x) (f y) = v_has_edge V x y ∧
          v_node_label V' (f x) = v_node_label V x ∧
          v_edge_label V' (f x) (f y) = v_edge_label V x y) ∧
        v_node_count V' = v_node_count V ∧ v_edge_count V' = v_edge_count V.
  Proof.
    intros [s H]%(reach_skrel dir lt) Hit V Hid.
    assert (∀ x, v_has_node V x = true ↔ a_has_node (sp_g s) x) as Hnode.
    { intros x. cbn. unfold gm_has_node. rewrite bool_decide_eq_true. eapply abs_has_node. apply (r_abs _ _ _ _ _ H). }
    set (im := if fn then Some (node_order g it) else None).
    assert (covers idt im (a_has_node (sp_g s))) as Hc.
    { subst im. destruct fn; [|done]. eapply node_order_covers; [exact H|done|]. intros x Hx. apply Hid. by apply Hnode. }
    assert (∀ l, vfo lt None l = l) as Hv by (by intros [?|]).
    destruct (reorder_with_ok dir idt lt _ _ g s H it Hit im None None) as (g' & mx & Hg' & Htab & HR & Hr); try done.
    { split; [done|]. cbn [new_labels]. rewrite (r_nls _ _ _ _ _ H). apply H. }
    { split; [done|]. cbn [new_labels]. rewrite (r_els _ _ _ _ _ H). apply H. }
    exists (ReorderResult im (Some g')), g', (vf idt im). split; [|split; [done|split]].
    - unfold gm_reorder_id.
      assert ((if fn then rmap Some (sm_from_iter (node_order g it)) else Ok None) = Ok im) as ->.
      { subst im. destruct fn; [|done]. rewrite from_iter_from_vec. by rewrite from_vec_id by (by eapply node_order_NoDup). }
      cbn [rbind]. by rewrite Hg'.
    - intros x Hx. unfold rr_find_new_node_id. cbn [rr_map]. apply (via_ok idt im (a_has_node (sp_g s))); [done|by apply Hnode].
    - intros it' Hit'. cbv zeta. set (V' := gm_view dir it' g').
      assert (∀ x, v_has_node V' x = true ↔ a_has_node (a_rename (vf idt im) (sp_g s)) x) as Hnode'.
      { intros x. cbn. unfold gm_has_node. rewrite bool_decide_eq_true. eapply abs_has_node. apply (r_abs _ _ _ _ _ Hr). }
      assert (∀ x n, g_nodes g !! x = Some n → g_nodes g' !! vf idt im x = Some (new_node idt lt im None None n)) as Hlk.
      { intros x n Hx. rewrite Htab. apply (new_table_lookup dir idt lt _ _ g s H it Hit im None None Hc). by exists x, n. }
      assert (∀ x n, g_nodes g !! x = Some n → nm_label (new_node idt lt im None None n) = nm_label n) as Hlab.
      { intros x n _. cbn [new_node nm_label]. apply Hv. }
      assert (∀ x n y, g_nodes g !! x = Some n → a_has_node (sp_g s) y →
        nm_nbrs (new_node idt lt im None None n) !! vf idt im y = nm_nbrs n !! y) as Hnb.
      { intros x n y Hn Hy. apply option_eq. intros l.
        rewrite (new_nbrs dir idt lt _ _ g s H im None None Hc I x) by exact Hn. split.
        - intros (t & l0 & Ht & Hf & <-). rewrite Hv. apply (vf_inj idt im _ _ _ Hc) in Hf; [by subst| |done].
          by destruct (with_nbr dir _ _ g s H x n t l0 Hn Ht) as (_ & ? & _).
        - intros Hl. exists y, l. by rewrite Hv. }
      assert (g_nlm g' = g_nlm g ∧ g_elm g' = g_elm g ∧ g_nedges g' = g_nedges g) as (Hn1 & He1 & Hc1).
      { split_and!.
        - rewrite (r_nls _ _ _ _ _ Hr). symmetry. apply (r_nls _ _ _ _ _ H).
        - rewrite (r_els _ _ _ _ _ Hr). symmetry. apply (r_els _ _ _ _ _ H).
        - rewrite (r_count _ _ _ _ _ Hr). symmetry. apply (r_count _ _ _ _ _ H). }
      split; [|split; [|split]].
      + intros y. rewrite Hnode'. setoid_rewrite Hnode. split.
        * intros [l Hl]. apply (rn_nodes _ _ _ HR) in Hl as (x & Hx & <-). exists x. split; [by eexists|done].
        * intros (x & [l Hl] & <-). exists l. apply (rn_nodes _ _ _ HR). by exists x.
      + intros x y Hx%Hnode Hy%Hnode. split; [by apply HR|].
        assert (∃ n, g_nodes g !! x = Some n) as [n Hn].
        { destruct (abs_has_node _ _ _ _ _ x (r_abs _ _ _ _ _ H)) as [_ Hh]. by destruct (Hh Hx) as [n ?]; exists n. }
        assert (v_get_edge V' (vf idt im x) (vf idt im y) =
          rmap (option_map (λ e, (vf idt im x, vf idt im y, e.2))) (v_get_edge V x y)) as Hge.
        { subst V V'. cbn. unfold gm_get_edge, gm_has_edge, nm_has_neighbor. rewrite (Hlk x n Hn), Hn.
          rewrite (Hnb x n y Hn Hy). destruct (nm_nbrs n !! y) as [l|] eqn:Hl; [|done].
          rewrite !bool_decide_true by (by eexists). cbn [unwrap rbind]. unfold nm_get_neighbor.
          rewrite (Hnb x n y Hn Hy), Hl. done. }
        split; [|split].
        * subst V V'. cbn. f_equal. unfold gm_has_edge, nm_has_neighbor. rewrite (Hlk x n Hn), Hn. by rewrite (Hnb x n y Hn Hy).
        * unfold v_node_label. subst V V'. cbn. unfold gm_get_node. rewrite (Hlk x n Hn), Hn. cbn [fmap option_fmap option_map rbind].
          rewrite (Hlab x n Hn), Hn1. done.
        * unfold v_edge_label. rewrite Hge. destruct (v_get_edge V x y) as [[[[a b] c]|]| |]; cbn [rmap option_map rbind snd]; try done.
          subst V V'. cbn. by rewrite He1.
      + subst V V'. cbn. unfold gm_node_count.
        assert (size (g_nodes g) = size (ag_nodes (sp_g s))) as ->.
        { rewrite <-(lists_exactly_length it (ag_nodes (sp_g s))); [|split; [by eapply hash_order_NoDup|by apply (has_node_it dir _ _ g s H it Hit)]].
          symmetry. apply lists_exactly_length. split; [by eapply hash_order_NoDup|]. intros x. by apply hash_order_elem. }
        rewrite <-(rename_num_nodes (vf idt im) (sp_g s)); [|apply (f_inj idt s im Hc)].
        rewrite <-(lists_exactly_length it' (ag_nodes (a_rename (vf idt im) (sp_g s)))); [|split; [by eapply hash_order_NoDup|by apply (has_node_it dir _ _ g' _ Hr it' Hit')]].
        symmetry. apply lists_exactly_length. split; [by eapply hash_order_NoDup|]. intros x. by apply hash_order_elem.
      + done.
  Qed.

  Lemma inverse_main (g : graphmap NL EL) it no eo fn fnl fel R :
    gm_reachable dir lt g → hash_order g it →
    let V := gm_view dir it g in
    (∀ x, v_has_node V x = true → (x < id_card idt)%N) →
    gm_reorder_id dir idt lt it no eo fn fnl fel g = Ok R →
    if fn : bool then
      (∀ x, if v_has_node V x
            then ∃ y, rr_find_new_node_id idt R x = Ok y ∧ (y < N.of_nat (v_node_count V))%N ∧ rr_get_original_node_id R y = Ok x
            else rr_find_new_node_id idt R x = Panic) ∧
      (∀ y, if decide (y < N.of_nat (v_node_count V))%N
            then ∃ x, rr_get_original_node_id R y = Ok x ∧ v_has_node V x = true ∧ rr_find_new_node_id idt R x = Ok y
            else rr_get_original_node_id R y = Panic)
    else ∀ x, rr_find_new_node_id idt R x = Ok x ∧ rr_get_original_node_id R x = Ok x.
  Proof.
    intros [s H]%(reach_skrel dir lt) Hit V Hid HR.
    assert (∀ x, v_has_node V x = true ↔ a_has_node (sp_g s) x) as Hnode.
    { intros x. cbn. unfold gm_has_node. rewrite bool_decide_eq_true. eapply abs_has_node. apply (r_abs _ _ _ _ _ H). }
    assert (v_node_count V = length (node_order g it)) as Hlen.
    { rewrite (node_order_length dir _ _ g s H it Hit). cbn. unfold gm_node_count.
      rewrite <-(lists_exactly_length it (g_nodes g)); [|split; [by eapply hash_order_NoDup|intros x; by apply hash_order_elem]].
      apply lists_exactly_length. split; [by eapply hash_order_NoDup|by apply (has_node_it dir _ _ g s H it Hit)]. }
    pose proof (node_order_NoDup dir _ _ g s H it Hit) as Hnd.
    assert (rr_map R = if fn then Some (node_order g it) else None) as Him.
    { unfold gm_reorder_id in HR. rewrite (from_iter_from_vec (node_order g it)), (from_vec_id (node_order g it)) in HR by done.
      replace (if fn then rmap Some (Ok (node_order g it)) else Ok None)
        with (Ok (if fn then Some (node_order g it) else None)) in HR by (by destruct fn).
      cbn [rbind] in HR. apply rbind_Ok in HR as (nlm & _ & HR). apply rbind_Ok in HR as (elm & _ & HR).
      apply rbind_Ok in HR as (g' & _ & HR). by injection HR as <-. }
    unfold rr_find_new_node_id, rr_get_original_node_id. rewrite Him. destruct fn; [|done].
    assert (covers idt (Some (node_order g it)) (a_has_node (sp_g s))) as Hc.
    { eapply node_order_covers; [exact H|done|]. intros x Hx. apply Hid. by apply Hnode. }
    assert (∀ x, x ∈ node_order g it ↔ a_has_node (sp_g s) x) as Hel by apply (node_order_elem dir _ _ g s H it Hit).
    split.
    - intros x. destruct (v_has_node V x) eqn:Hx.
      + apply Hnode in Hx. destruct (vf_index idt _ _ x Hc Hx) as (i & Hi & Hl & Hvf & Hlt).
        exists (N.of_nat i). rewrite (via_ok idt _ _ x Hc Hx), Hvf. split; [done|]. split; [lia|].
        unfold sm_get_item, id_id. by rewrite Nat2N.id, Hl.
      + cbn [via]. unfold sm_find_index. destruct (is_get_full (node_order g it) x) as [i|] eqn:Hi; [|done].
        apply get_full_Some, elem_of_list_lookup_2, Hel, Hnode in Hi. congruence.
    - intros y. destruct (decide _) as [Hy|Hy].
      + destruct (lookup_lt_is_Some_2 (node_order g it) (N.to_nat y)) as [x Hx]; [lia|].
        assert (a_has_node (sp_g s) x) as HxA by (apply Hel; by eapply elem_of_list_lookup_2).
        exists x. unfold sm_get_item, id_id. rewrite Hx. split; [done|]. split; [by apply Hnode|].
        rewrite (via_ok idt _ _ x Hc HxA). destruct (vf_index idt _ _ x Hc HxA) as (i & _ & Hi & -> & _).
        pose proof (NoDup_lookup _ _ _ _ Hnd Hx Hi). f_equal. lia.
      + unfold sm_get_item, id_id. rewrite lookup_ge_None_2 by lia. done.
  Qed.
End main.
Lemma take_graph_main {NL EL} `{EqDecision NL, EqDecision EL} (dir : bool) (idt lt : idty)
  (g : graphmap NL EL) it no eo fn fnl fel R :
  gm_reorder_id dir idt lt it no eo fn fnl fel g = Ok R →
  ∃ g' R', rr_take_graph R = (Some g', R') ∧ rr_graph R = Some g' ∧ rr_take_graph R' = (None, R') ∧
    ∀ x, rr_find_new_node_id idt R' x = rr_find_new_node_id idt R x ∧ rr_get_original_node_id R' x = rr_get_original_node_id R x.
Proof.
  unfold gm_reorder_id. intros HR.
  repeat match type of HR with rbind _ ?x = _ => destruct x; [|done..]; cbn [rbind] in HR end.
  injection HR as <-. eexists _, _. split; [reflexivity|]. split; [reflexivity|]. split; [reflexivity|]. done.
Qed.
