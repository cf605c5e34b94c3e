(** The graph left by remove_node when it panics. *)
From Verif Require Import Base BaseFacts Api Spec SpecFacts SpecPanic Map MapFacts GraphMap GraphMapFacts GraphMapRefine GraphMapQueries GraphMapThms GraphMapMore GraphMapPanic.

Section left.
  Context {NL EL : Type} `{EqDecision NL, EqDecision EL} (dir : bool) (lt : idty).
  Implicit Types g : graphmap NL EL.
  Lemma loop_left_rfold f l g : match rfold f l g with
    | Ok g' => loop_left f l g = (g', true)
    | _ => ∃ g', loop_left f l g = (g', false)
    end.
  Proof. revert g. induction l as [|x l IH]; intros g; [done|]. cbn [rfold loop_left]. destruct (f g x) as [g'| |]; [apply IH|by eexists..]. Qed.
  (** The model of the call and the model of what it leaves agree. *)
  Lemma left_agrees id g : match gm_remove_node dir id g with
    | Ok (_, g') => gm_remove_node_left dir id g = (g', true)
    | _ => ∃ g', gm_remove_node_left dir id g = (g', false)
    end.
  Proof.
    unfold gm_remove_node, gm_remove_node_left. destruct (g_nodes g !! id) as [node|]; [|done]. cbn zeta.
    set (g0 := set_nodes _ g). destruct dir.
    - pose proof (loop_left_rfold (λ g nb, upd_node nb (nm_remove_in_edge id) g) (nm_neighbors node) g0) as H1.
      destruct (rfold _ (nm_neighbors node) g0) as [g1| |]; [|destruct H1 as [g' ->]; by eexists..]. rewrite H1. cbn [rbind].
      pose proof (loop_left_rfold (λ g nb, upd_node nb (λ n, (nm_remove_edge id n).2) g) (nm_in_neighbors node) g1) as H2.
      destruct (rfold _ (nm_in_neighbors node) g1) as [g2| |]; [|destruct H2 as [g' ->]; by eexists..]. rewrite H2. cbn [rbind].
      destruct (usub _ _); [done|by eexists..].
    - pose proof (loop_left_rfold (λ g nb, upd_node nb (λ n, (nm_remove_edge id n).2) g) (nm_neighbors node) g0) as H1.
      destruct (rfold _ (nm_neighbors node) g0) as [g1| |]; [|destruct H1 as [g' ->]; by eexists..]. rewrite H1. cbn [rbind].
      destruct (usub _ _); [done|by eexists..].
  Qed.
  Lemma loop_left_stop f l1 k l2 g : NoDup l1 → (∀ k, k ∈ l1 → is_Some (g_nodes g !! k)) → g_nodes g !! k = None →
    loop_left (λ g k, upd_node k f g) (l1 ++ k :: l2) g = (set_nodes (upd_all f l1 (g_nodes g)) g, false).
  Proof.
    intros Hd Hl Hk. pose proof (rfold_upd_ok f l1 g Hd Hl) as Hr. pose proof (loop_left_rfold (λ g k, upd_node k f g) l1 g) as H1. rewrite Hr in H1.
    assert (∀ (F : graphmap NL EL → N → res (graphmap NL EL)) l1 l2 g g', loop_left F l1 g = (g', true) → loop_left F (l1 ++ l2) g = loop_left F l2 g') as Happ.
    { intros F l. induction l as [|x l IH]; intros l' g1 g2; cbn [loop_left app]; [by intros [= ->]|]. destruct (F g1 x); [apply IH|done..]. }
    rewrite (Happ _ _ _ _ _ H1). cbn [loop_left]. unfold upd_node at 1. cbn [g_nodes set_nodes]. rewrite lookup_upd_all, Hk. done.
  Qed.
  Lemma keys_below (l : list N) k : increasing l → k ∈ l → ∃ l1 l2, l = l1 ++ k :: l2 ∧ ∀ x, x ∈ l1 ↔ x ∈ l ∧ (x < k)%N.
  Proof.
    intros Hi Hk. apply elem_of_list_split in Hk as (l1 & l2 & ->). exists l1, l2. split; [done|]. intros x.
    unfold increasing in Hi. apply StronglySorted_app_iff in Hi as (_ & H2 & H3).
    rewrite elem_of_app, elem_of_cons. split.
    - intros Hx. split; [by left|]. apply H3; [done|left].
    - intros [[?|[->|Hx]] Hlt]; [done|lia|]. apply StronglySorted_inv in H2 as [_ H2]. rewrite Forall_forall in H2. apply H2 in Hx. lia.
  Qed.
  Notation PNt := (λ (_ : list NL) (_ : option N) (_ : option NL), True).
  Notation PEt := (λ (_ : list EL) (_ : option N) (_ : option EL), True).
  Notation skrel := (rel dir PNt PEt).
  Definition nm_half (id : N) (n : nodemap) : nodemap := if dir then nm_remove_in_edge id n else (nm_remove_edge id n).2.
  Lemma left_state id g s : skrel g s → gm_has_edge g id id = true → ∃ g', gm_remove_node_left dir id g = (g', false) ∧ gm_remove_node dir id g = Panic ∧
    g_nedges g' = g_nedges g ∧ g_nlm g' = g_nlm g ∧ g_elm g' = g_elm g ∧ g_max g' = g_max g ∧
    ∀ k, g_nodes g' !! k = if decide (k = id) then None else
      (λ n, if decide ((k < id)%N ∧ gm_has_edge g id k = true) then nm_half id n else n) <$> g_nodes g !! k.
  Proof.
    intros H Hloop. pose proof (r_abs _ _ _ _ _ H) as Ha.
    assert (a_has_edge (sp_g s) id id) as Hae. { rewrite (rel_has_edge _ _ _ _ _ _ _ H) in Hloop. by apply bool_decide_eq_true in Hloop. }
    pose proof (rel_remove_node_panic dir PNt PEt g s id H Hae) as Hp.
    assert (∃ node, g_nodes g !! id = Some node ∧ is_Some (nm_nbrs node !! id)) as (node & Hnode & Hself).
    { unfold gm_has_edge in Hloop. destruct (g_nodes g !! id) as [node|]; [|done]. exists node. split; [done|]. by apply bool_decide_eq_true in Hloop. }
    assert (∀ k, k ∈ nm_neighbors node ↔ gm_has_edge g id k = true) as Hnb.
    { intros k. unfold nm_neighbors. rewrite elem_of_bt_keys. unfold gm_has_edge. rewrite Hnode. unfold nm_has_neighbor. by rewrite bool_decide_eq_true. }
    destruct (keys_below (nm_neighbors node) id) as (l1 & l2 & Hl & Hl1); [apply bt_keys_increasing|by apply Hnb|].
    assert (NoDup l1) as Hnd. { pose proof (bt_keys_NoDup (nm_nbrs node)) as Hd. unfold nm_neighbors in Hl. rewrite Hl in Hd. by apply NoDup_app in Hd as [Hd _]. }
    set (g0 := set_nodes (delete id (g_nodes g)) g).
    assert (∀ k, k ∈ l1 → is_Some (g_nodes g0 !! k)) as Hdom.
    { intros k Hk. apply Hl1 in Hk as [Hk Hlt]. cbn. rewrite lookup_delete_ne by lia. apply Hnb in Hk. rewrite (rel_has_edge _ _ _ _ _ _ _ H) in Hk.
      apply bool_decide_eq_true in Hk. apply (wf_edge_nodes (sp_g s)) in Hk as [_ Hk]; [|apply Ha]. by apply (abs_has_node _ _ _ _ _ k Ha). }
    assert (g_nodes g0 !! id = None) as Hid by apply lookup_delete.
    exists (set_nodes (upd_all (nm_half id) l1 (g_nodes g0)) g0). split.
    { unfold gm_remove_node_left. rewrite Hnode. cbn zeta. fold g0. rewrite Hl. unfold nm_half. destruct dir.
      - rewrite (loop_left_stop _ l1 id l2 g0) by done. done.
      - rewrite (loop_left_stop _ l1 id l2 g0) by done. done. }
    split; [exact Hp|]. do 4 (split; [done|]). intros k. cbn [g_nodes set_nodes]. rewrite lookup_upd_all. unfold g0. cbn [g_nodes set_nodes].
    destruct (decide (k = id)) as [->|Hne]; [by rewrite lookup_delete|]. rewrite lookup_delete_ne by done. destruct (g_nodes g !! k) as [n|]; [|done]. cbn. f_equal.
    destruct (decide (k ∈ l1)) as [Hk|Hk]; rewrite Hl1, Hnb in Hk; [rewrite decide_True by tauto; done|rewrite decide_False by tauto; done].
  Qed.
  Lemma left_view id g s it : skrel g s → hash_order g it → gm_has_edge g id id = true → ∃ g', gm_remove_node_left dir id g = (g', false) ∧
    ∀ it', hash_order g' it' → half_removed dir id (gm_view dir it g) (gm_view dir it' g').
  Proof.
    intros H Hit Hloop. destruct (left_state id g s H Hloop) as (g' & Hg' & _ & Hc & Hnl & Hel & Hm & Hk). exists g'. split; [done|]. intros it' Hit'.
    pose proof (r_abs _ _ _ _ _ H) as Ha.
    assert (∀ n, nm_id (nm_half id n) = nm_id n ∧ nm_label (nm_half id n) = nm_label n) as Hh1.
    { intros n. unfold nm_half. destruct dir; [done|]. by rewrite nm_remove_edge_id, nm_remove_edge_label. }
    assert (∀ n x, nm_nbrs (nm_half id n) !! x = if decide (dir = false ∧ x = id) then None else nm_nbrs n !! x) as Hh2.
    { intros n x. unfold nm_half. destruct dir; [by rewrite decide_False by naive_solver|]. rewrite nm_remove_edge_nbrs.
      destruct (decide (x = id)) as [->|Hx]; [by rewrite decide_True|by rewrite decide_False by naive_solver]. }
    assert (∀ n x, dir = true → x ∈ nm_in (nm_half id n) ↔ x ∈ nm_in n ∧ x ≠ id) as Hh3 by (intros n x Hd; unfold nm_half; rewrite Hd; cbn; by rewrite elem_of_difference, elem_of_singleton).
    assert (∀ k n', g_nodes g' !! k = Some n' → ∃ n, g_nodes g !! k = Some n ∧ k ≠ id ∧ n' = if decide ((k < id)%N ∧ gm_has_edge g id k = true) then nm_half id n else n) as Hinv.
    { intros k n' Hn'. rewrite Hk in Hn'. destruct (decide (k = id)) as [|Hne]; [done|]. destruct (g_nodes g !! k) as [n|]; [|done]. injection Hn' as <-. by exists n. }
    assert (∀ x y, dir = false → gm_has_edge g x y = gm_has_edge g y x) as Hsym.
    { intros x y Hd. rewrite !(rel_has_edge _ _ _ _ _ _ _ H). apply bool_decide_ext. unfold a_edge_at. pose proof (ar_dir _ _ _ _ _ Ha) as ->. rewrite Hd.
      by rewrite ekey_sym. }
    assert (∀ k n, g_nodes g !! k = Some n → k ≠ id → ∀ x, nm_nbrs (if decide ((k < id)%N ∧ gm_has_edge g id k = true) then nm_half id n else n) !! x =
      if decide (dir = false ∧ x = id ∧ (k < id)%N) then None else nm_nbrs n !! x) as Hnbr.
    { intros k n Hn Hne x. destruct (decide ((k < id)%N ∧ gm_has_edge g id k = true)) as [[H1 H2]|Hno].
      - rewrite Hh2. destruct (decide (dir = false ∧ x = id)) as [[Hd ->]|Hd]; [by rewrite decide_True|by rewrite decide_False by tauto].
      - destruct (decide (dir = false ∧ x = id ∧ (k < id)%N)) as [(Hd & -> & Hlt)|]; [|done]. destruct (nm_nbrs n !! id) as [l|] eqn:El; [|done]. exfalso. apply Hno.
        split; [done|]. rewrite (Hsym id k Hd). unfold gm_has_edge. rewrite Hn. unfold nm_has_neighbor. apply bool_decide_eq_true. by rewrite El. }
    assert (∀ k n, g_nodes g !! k = Some n → k ≠ id → dir = true → ∀ x, x ∈ nm_in (if decide ((k < id)%N ∧ gm_has_edge g id k = true) then nm_half id n else n) ↔
      x ∈ nm_in n ∧ (x = id → (id < k)%N)) as Hin.
    { intros k n Hn Hne Hd x. pose proof (ar_in _ _ _ _ _ Ha k n Hn) as Hi. rewrite Hd in Hi.
      destruct (decide ((k < id)%N ∧ gm_has_edge g id k = true)) as [[H1 H2]|Hno].
      - rewrite Hh3 by done. split; [intros [? ?]; split; [done|intros ->; done]|]. intros [Hx Hy]. split; [done|]. intros ->. specialize (Hy eq_refl). lia.
      - split; [|by intros []]. intros Hx. split; [done|]. intros ->. apply Hi in Hx. destruct (decide (id < k)%N); [done|]. exfalso. apply Hno. split; [lia|].
        rewrite (rel_has_edge _ _ _ _ _ _ _ H). by apply bool_decide_eq_true. }
    split.
    - intros n. cbn. unfold gm_has_node. rewrite !bool_decide_eq_true, Hk. destruct (decide (n = id)) as [->|Hne]; [split; [by intros []|tauto]|].
      rewrite fmap_is_Some. tauto.
    - intros n Hne. cbn. f_equal. unfold gm_get_node. rewrite Hk. rewrite decide_False by done. destruct (g_nodes g !! n) as [nd|]; [|done]. cbn.
      destruct (decide _); [|done]. destruct (Hh1 nd) as [-> ->]. done.
    - intros x y. cbn. split.
      + intros [= He]. unfold gm_has_edge in He. destruct (g_nodes g' !! x) as [n'|] eqn:En; [|done]. destruct (Hinv x n' En) as (n & Hn & Hne & ->).
        unfold nm_has_neighbor in He. apply bool_decide_eq_true in He. rewrite (Hnbr x n Hn Hne) in He.
        destruct (decide (dir = false ∧ y = id ∧ (x < id)%N)) as [|Hno]; [by destruct He|]. split; [|split; [done|]].
        * f_equal. unfold gm_has_edge. rewrite Hn. by apply bool_decide_eq_true.
        * intros ->. unfold edge_kept. destruct dir; [by left|right]. destruct (decide (id < x)%N); [done|]. exfalso. apply Hno. split; [done|]. split; [done|lia].
      + intros ([= He] & Hne & Hkept). f_equal. unfold gm_has_edge in *. destruct (g_nodes g !! x) as [n|] eqn:Hn; [|done]. rewrite Hk, Hn. rewrite decide_False by done. cbn.
        unfold nm_has_neighbor in *. apply bool_decide_eq_true in He. apply bool_decide_eq_true. fold (gm_has_edge g id x) in *. rewrite (Hnbr x n Hn Hne).
        rewrite decide_False; [done|]. intros (Hd & -> & Hlt). destruct (Hkept eq_refl) as [?|?]; [congruence|lia].
    - intros x y. cbn. intros [= He]. unfold gm_get_edge. rewrite He. unfold gm_has_edge in He |- *. destruct (g_nodes g' !! x) as [n'|] eqn:En; [|done].
      destruct (Hinv x n' En) as (n & Hn & Hne & ->). rewrite Hn. unfold nm_has_neighbor in *. apply bool_decide_eq_true in He. unfold nm_get_neighbor.
      rewrite (Hnbr x n Hn Hne) in He. destruct (decide (dir = false ∧ y = id ∧ (x < id)%N)) as [|Hno]; [by destruct He|].
      rewrite (bool_decide_eq_true_2 _ He). cbn [unwrap rbind]. rewrite (Hnbr x n Hn Hne), decide_False by done. done.
    - intros n l Hne. cbn. unfold gm_neighbors. rewrite Hk. rewrite decide_False by done. destruct (g_nodes g !! n) as [nd|] eqn:Hn; [|done]. intros [= <-]. cbn.
      eexists. split; [done|]. split; [apply bt_keys_increasing|]. intros x. unfold nm_neighbors. rewrite !elem_of_bt_keys. rewrite (Hnbr n nd Hn Hne).
      destruct (decide (dir = false ∧ x = id ∧ (n < id)%N)) as [(Hd & -> & Hlt)|Hno].
      + split; [by intros []|]. intros [_ [?|?]]; [done|congruence|lia].
      + split; [|by intros []]. intros Hx. split; [done|]. intros ->. unfold edge_kept. destruct dir; [by left|right].
        destruct (decide (id < n)%N); [done|]. exfalso. apply Hno. split; [done|]. split; [done|lia].
    - intros Hd n l Hne. cbn. unfold gm_in_neighbors. rewrite Hk. rewrite decide_False by done. destruct (g_nodes g !! n) as [nd|] eqn:Hn; [|done]. intros [= <-]. cbn.
      eexists. split; [done|]. split; [apply bs_iter_increasing|]. intros x. unfold nm_in_neighbors. rewrite !elem_of_bs_iter. by apply Hin.
    - cbn. unfold gm_node_count. assert (dom (g_nodes g) = {[id]} ∪ dom (g_nodes g')) as Hdom.
      { apply set_eq. intros k. rewrite elem_of_union, elem_of_singleton, !elem_of_dom, Hk. destruct (decide (k = id)) as [->|Hne].
        - split; [by left|]. intros _. unfold gm_has_edge in Hloop. by destruct (g_nodes g !! id).
        - rewrite fmap_is_Some. naive_solver. }
      rewrite <-!size_dom, Hdom, size_union, size_singleton; [done|]. intros k ->%elem_of_singleton. rewrite elem_of_dom, Hk. rewrite decide_True by done. by intros [].
    - done.
    - cbn. unfold gm_max_seen_id. by rewrite Hm.
    - cbn. by rewrite Hnl, Hel.
  Qed.
  Lemma view_has_edge g s it x y : skrel g s → v_has_edge (gm_view dir it g) x y = Ok true ↔ a_has_edge (sp_g s) x y.
  Proof. intros H. cbn. rewrite (rel_has_edge _ _ _ _ _ _ _ H). split; [intros [= Hb]; by apply bool_decide_eq_true in Hb|]. intros Hb. by rewrite bool_decide_eq_true_2. Qed.
  Lemma left_clean id g s it g' : skrel g s → gm_has_edge g id id = true → gm_remove_node_left dir id g = (g', false) → ¬ dangling dir id (gm_view dir it g) →
    skrel g' (SState (a_remove_node id (sp_g s)) (sp_count s) (sp_max s) (sp_nls s) (sp_els s)).
  Proof.
    intros H Hloop Hl Hno. destruct (left_state id g s H Hloop) as (g1 & Hg1 & _ & Hc & Hnl & Hel & Hm & Hk). rewrite Hg1 in Hl. injection Hl as <-.
    pose proof (r_abs _ _ _ _ _ H) as Ha.
    assert (∃ node, g_nodes g !! id = Some node) as (node & Hnode). { unfold gm_has_edge in Hloop. destruct (g_nodes g !! id) as [node|]; [by exists node|done]. }
    assert (∀ k, k ∈ nm_neighbors node ↔ gm_has_edge g id k = true) as Hnb.
    { intros k. unfold nm_neighbors. rewrite elem_of_bt_keys. unfold gm_has_edge. rewrite Hnode. unfold nm_has_neighbor. by rewrite bool_decide_eq_true. }
    assert (∀ x y, gm_has_edge g x y = true ↔ a_has_edge (sp_g s) x y) as Hge.
    { intros x y. rewrite (rel_has_edge _ _ _ _ _ _ _ H). by rewrite bool_decide_eq_true. }
    assert (g_nodes g1 = remove_node_map dir id node (g_nodes g)) as Hmap.
    { apply map_eq. intros k. rewrite Hk, lookup_remove_node_map. destruct (decide (k = id)) as [->|Hne]; [done|]. destruct (g_nodes g !! k) as [n|] eqn:Hn; [|done]. cbn. f_equal.
      unfold nm_half. destruct dir eqn:Hd.
      - rewrite (decide_False (P := k ∈ nm_in_neighbors node)).
        + destruct (decide ((k < id)%N ∧ gm_has_edge g id k = true)) as [[H1 H2]|H1]; [rewrite decide_True by (by apply Hnb); done|].
          rewrite decide_False; [done|]. rewrite Hnb. intros H2. apply H1. split; [|done]. destruct (decide (k < id)%N) as [|Hlt]; [done|]. exfalso. apply Hno. exists k.
          split; [done|]. right. split; [done|]. split; [cbn; by rewrite H2|lia].
        + unfold nm_in_neighbors. rewrite elem_of_bs_iter. pose proof (ar_in _ _ _ _ _ Ha id node Hnode) as Hi. cbn in Hi. rewrite Hi. intros He. apply Hno. exists k.
          split; [done|]. left. split; [cbn; f_equal; by apply Hge|by left].
      - destruct (decide ((k < id)%N ∧ gm_has_edge g id k = true)) as [[H1 H2]|H1]; [rewrite decide_True by (by apply Hnb); done|].
        rewrite decide_False; [done|]. rewrite Hnb. intros H2. apply H1. split; [|done]. destruct (decide (k < id)%N) as [|Hlt]; [done|]. exfalso. apply Hno. exists k.
        split; [done|]. left. split; [|right; lia]. cbn. f_equal. apply Hge. apply Hge in H2. rewrite has_edge_sym; [done|]. by rewrite (ar_dir _ _ _ _ _ Ha). }
    pose proof (abs_remove_node _ _ _ _ _ id node Ha Hnode) as Ha'. pose proof (remove_node_num_edges id (sp_g s)) as Hnum.
    destruct H as [_ Hc0 Hm0 Hnl0 Hel0 Hdn Hde Hge0 Hbd].
    split; cbn [sp_g sp_count sp_max sp_nls sp_els]; try congruence.
    - lia.
    - intros k Hk0. apply remove_node_has_node in Hk0 as [_ Hk0]. by apply Hbd.
  Qed.
  Lemma left_iff id g s it g' it' : skrel g s → hash_order g it → gm_has_edge g id id = true → gm_remove_node_left dir id g = (g', false) → hash_order g' it' →
    (∃ B, represents (v_unlabelled (gm_view dir it' g')) B) ↔ ¬ dangling dir id (gm_view dir it g).
  Proof.
    intros H Hit Hloop Hl Hit'. split.
    - intros [B HB]. destruct (left_view id g s it H Hit Hloop) as (g1 & Hg1 & Hh). rewrite Hl in Hg1. injection Hg1 as <-. specialize (Hh it' Hit').
      assert (¬ a_has_node B id) as Hid. { rewrite <-(rp_has_node _ _ HB). cbn. intros Hx. apply (hr_has_node _ _ _ _ Hh) in Hx as [_ Hx]. done. }
      assert (∀ x, x ≠ id → a_has_node (sp_g s) x → a_has_node B x) as Hx.
      { intros x Hne Hx. apply (rp_has_node _ _ HB). apply (hr_has_node _ _ _ _ Hh). split; [|done]. cbn. rewrite (rel_has_node _ _ _ _ _ _ H). by apply bool_decide_eq_true. }
      intros (x & Hne & [[He Hkept]|(Hd & He & Hlt)]).
      + assert (v_has_edge (gm_view dir it' g') x id = Ok true) as He' by (by apply (hr_has_edge _ _ _ _ Hh)). apply (view_has_edge g s it x id H) in He.
        apply wf_edge_nodes in He as [Hxn _]; [|apply (r_abs _ _ _ _ _ H)].
        destruct (rp_has_edge _ _ HB x id (Hx x Hne Hxn)) as (b & Hb & Hbt). assert (b = true) as -> by (cbn in Hb, He'; congruence).
        assert (a_has_edge B x id) as HBe by (by apply Hbt). apply wf_edge_nodes in HBe as [_ HBe]; [done|apply HB].
      + apply (view_has_edge g s it id x H) in He. pose proof He as Hxn. apply wf_edge_nodes in Hxn as [_ Hxn]; [|apply (r_abs _ _ _ _ _ H)].
        assert (∃ l, v_in_neighbors (gm_view dir it g) x = Ok l ∧ id ∈ l) as (l & Hl' & Hin).
        { cbn. unfold gm_in_neighbors. apply (abs_has_node _ _ _ _ _ x (r_abs _ _ _ _ _ H)) in Hxn as [nx Hnx]. rewrite Hnx. eexists. split; [done|].
          unfold nm_in_neighbors. rewrite elem_of_bs_iter. pose proof (ar_in _ _ _ _ _ (r_abs _ _ _ _ _ H) x nx Hnx) as Hi. rewrite Hd in Hi. by apply Hi. }
        destruct (hr_in_neighbors _ _ _ _ Hh Hd x l Hne Hl') as (l' & Hl'' & _ & Hmem).
        destruct (rp_in_neighbors _ _ HB) with (n := x) as (l3 & Hl3 & _ & Hm3); [rewrite <-(rp_directed _ _ HB); exact Hd|by apply Hx|].
        cbn in Hl3, Hl''. rewrite Hl'' in Hl3. injection Hl3 as <-. assert (a_has_edge B id x) as HBe by (apply Hm3, Hmem; split; [done|intros _; done]).
        apply wf_edge_nodes in HBe as [HBe _]; [done|apply HB].
    - intros Hno. pose proof (left_clean id g s it g' H Hloop Hl Hno) as H'. destruct (skrel_view dir g' _ it' H' Hit') as (HB & _). by eexists.
  Qed.
  (** Removing the self-loop first. *)
  Lemma remove_loop_first id g s : skrel g s → ∃ r1 g1 r2 g2, gm_step dir lt (ORemoveEdge id id) g = Ok (r1, g1) ∧ gm_step dir lt (ORemoveNode id) g1 = Ok (r2, g2) ∧
    (∀ x, gm_has_node g2 x = true ↔ gm_has_node g x = true ∧ x ≠ id) ∧
    ∀ x y, gm_has_edge g2 x y = true ↔ gm_has_edge g x y = true ∧ x ≠ id ∧ y ≠ id.
  Proof.
    intros H. assert (∀ g s x, skrel g s → gm_has_node g x = true ↔ a_has_node (sp_g s) x) as Hn0 by (intros ?? x Hr; rewrite (rel_has_node _ _ _ _ _ _ Hr); by rewrite bool_decide_eq_true).
    assert (∀ g s x y, skrel g s → gm_has_edge g x y = true ↔ a_has_edge (sp_g s) x y) as He0 by (intros ?? x y Hr; rewrite (rel_has_edge _ _ _ _ _ _ _ Hr); by rewrite bool_decide_eq_true).
    assert (∃ r1 g1 s1, gm_step dir lt (ORemoveEdge id id) g = Ok (r1, g1) ∧ skrel g1 s1 ∧ ¬ a_has_edge (sp_g s1) id id ∧
      (∀ x, a_has_node (sp_g s1) x ↔ a_has_node (sp_g s) x) ∧ ∀ x y, x ≠ id → (a_has_edge (sp_g s1) x y ↔ a_has_edge (sp_g s) x y)) as (r1 & g1 & s1 & Hs1 & H1 & Hl1 & Hn1 & He1).
    { pose proof (sk_step dir lt (ORemoveEdge id id) g s H eq_refl) as Hst. cbn [spec_step] in Hst. destruct (a_edge_at (sp_g s) id id) as [l|] eqn:El.
      - destruct Hst as (r1 & g1 & Hs1 & H1 & _). eexists _, _, _. split; [exact Hs1|]. split; [exact H1|]. cbn [sp_g]. split; [|split; [done|]].
        + unfold a_has_edge. rewrite remove_edge_edge_at. rewrite decide_True by done. by intros [].
        + intros x y Hx. unfold a_has_edge. rewrite remove_edge_edge_at. destruct (decide _) as [Hk|]; [|done]. apply ekey_eq in Hk. naive_solver.
      - destruct Hst as (r1 & g1 & Hs1 & H1 & _). eexists _, _, _. split; [exact Hs1|]. split; [exact H1|]. split; [|done]. unfold a_has_edge. rewrite El. by intros []. }
    pose proof (sk_step dir lt (ORemoveNode id) g1 s1 H1 eq_refl) as Hst. cbn [spec_step] in Hst.
    destruct (ag_nodes (sp_g s1) !! id) as [l|] eqn:El.
    - destruct (decide (a_has_edge (sp_g s1) id id)) as [|_]; [done|]. destruct Hst as (r2 & g2 & Hs2 & H2 & _). exists r1, g1, r2, g2. split; [done|]. split; [done|].
      split.
      + intros x. rewrite (Hn0 _ _ x H2), (Hn0 _ _ x H). cbn [sp_g]. rewrite remove_node_has_node, Hn1. tauto.
      + intros x y. rewrite (He0 _ _ x y H2), (He0 _ _ x y H). cbn [sp_g]. unfold a_has_edge at 1. rewrite remove_node_edge_at.
        destruct (decide (x = id ∨ y = id)) as [Hxy|Hxy]; [split; [by intros []|tauto]|]. change (a_has_edge (sp_g s1) x y ↔ a_has_edge (sp_g s) x y ∧ x ≠ id ∧ y ≠ id). rewrite He1; tauto.
    - destruct Hst as (r2 & g2 & Hs2 & H2 & _). exists r1, g1, r2, g2. split; [done|]. split; [done|].
      assert (¬ a_has_node (sp_g s) id) as Hno. { rewrite <-Hn1. unfold a_has_node. rewrite El. by intros []. }
      split.
      + intros x. rewrite (Hn0 _ _ x H2), Hn1, (Hn0 _ _ x H). split; [|tauto]. intros Hx. split; [done|]. by intros ->.
      + intros x y. rewrite (He0 _ _ x y H2), (He0 _ _ x y H).
        assert (∀ s' : sstate NL EL, ag_wf (sp_g s') → ¬ a_has_node (sp_g s') id → a_has_edge (sp_g s') x y → x ≠ id ∧ y ≠ id) as Hed.
        { intros s' Hwf Hid He. apply wf_edge_nodes in He as [Hx Hy]; [|done]. split; by intros ->. }
        split.
        * intros He. destruct (Hed s1) as [Hx Hy]; [apply (r_abs _ _ _ _ _ H1)|by rewrite Hn1|done|]. split; [by apply He1|done].
        * intros (He & Hx & _). by apply He1.
  Qed.
End left.
