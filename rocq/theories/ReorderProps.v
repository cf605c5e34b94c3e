(** reorder_id_with and reorder_id rename the graph. *)
From Verif Require Import Base Api Spec BaseFacts SpecFacts Map MapFacts GraphMap GraphMapFacts
  GraphMapRefine GraphMapQueries GraphMapSim GraphMapThms SpecReorder Reorder ReorderFacts.

(** ** The renamed abstract graph *)
Section rename.
  Context {NL EL : Type}.
  Implicit Types (A : agraph NL EL).
  Definition a_rename (f : N → N) A : agraph NL EL :=
    AG (ag_dir A) (list_to_map ((λ p, (f p.1, p.2)) <$> map_to_list (ag_nodes A)))
      (list_to_map ((λ p : N * N * option EL, (ekey (ag_dir A) (f p.1.1) (f p.1.2), p.2)) <$> map_to_list (ag_edges A))).
  Lemma NoDup_fst_inj {K K' V} `{Countable K, Countable K'} (h : K → K') (m : gmap K V) :
    (∀ x y, is_Some (m !! x) → is_Some (m !! y) → h x = h y → x = y) →
    NoDup ((λ p : K * V, (h p.1, p.2)) <$> map_to_list m).*1.
  Proof.
    intros Hh. rewrite <-list_fmap_compose.
    replace ((fst ∘ (λ p : K * V, (h p.1, p.2))) <$> map_to_list m) with (h <$> (map_to_list m).*1)
      by (by rewrite <-list_fmap_compose).
    apply NoDup_fmap_2_strong; [|apply NoDup_fst_map_to_list].
    intros x y ([? v] & -> & Hx)%elem_of_list_fmap ([? w] & -> & Hy)%elem_of_list_fmap.
    apply elem_of_map_to_list in Hx, Hy. apply Hh; by eexists.
  Qed.
  Lemma lookup_map_keys {K K' V} `{Countable K, Countable K'} (h : K → K') (m : gmap K V) y v :
    (∀ x y, is_Some (m !! x) → is_Some (m !! y) → h x = h y → x = y) →
    (list_to_map ((λ p : K * V, (h p.1, p.2)) <$> map_to_list m) : gmap K' V) !! y = Some v ↔
    ∃ x, m !! x = Some v ∧ h x = y.
  Proof.
    intros Hh. rewrite <-elem_of_list_to_map by (by apply NoDup_fst_inj).
    rewrite elem_of_list_fmap. split.
    - intros ([k w] & [= -> ->] & Hk%elem_of_map_to_list). by exists k.
    - intros (x & Hx & <-). exists (x, v). by rewrite elem_of_map_to_list.
  Qed.

  Context (f : N → N) (A : agraph NL EL) (Hwf : ag_wf A).
  Context (Hinj : ∀ x y, a_has_node A x → a_has_node A y → f x = f y → x = y).
  Lemma rename_key_inj e e' : is_Some (ag_edges A !! e) → is_Some (ag_edges A !! e') →
    ekey (ag_dir A) (f e.1) (f e.2) = ekey (ag_dir A) (f e'.1) (f e'.2) → e = e'.
  Proof.
    destruct e as [s t], e' as [s' t']. intros (Hk & Hs & Ht)%Hwf (Hk' & Hs' & Ht')%Hwf. cbn [fst snd].
    rewrite ekey_eq. intros [[H1 H2]|(Hd & H1 & H2)].
    - apply Hinj in H1, H2; try done. by subst.
    - apply Hinj in H1, H2; try done. subst. rewrite Hd in *. rewrite ekey_sym in Hk'. congruence.
  Qed.
  Lemma rename_edges e l : ag_edges (a_rename f A) !! e = Some l ↔
    ∃ s t, ag_edges A !! (s, t) = Some l ∧ ekey (ag_dir A) (f s) (f t) = e.
  Proof.
    cbn [a_rename ag_edges].
    rewrite (lookup_map_keys (λ p : N * N, ekey (ag_dir A) (f p.1) (f p.2))) by (apply rename_key_inj).
    split; [intros ([s t] & ? & ?); by exists s, t|intros (s & t & ? & ?); by exists (s, t)].
  Qed.
  Lemma rename_renames : renames f A (a_rename f A).
  Proof.
    assert (∀ y l, ag_nodes (a_rename f A) !! y = Some l ↔ ∃ x, ag_nodes A !! x = Some l ∧ f x = y) as Hn.
    { intros y l. cbn [a_rename ag_nodes]. by rewrite lookup_map_keys. }
    split; [done| |done|done|].
    - intros s t [l Hl]. apply rename_edges in Hl as (s0 & t0 & Hl & He). cbn [a_rename ag_dir].
      destruct (Hwf s0 t0) as (Hk & [ls Hs] & [lt Ht]); [by eexists|].
      assert (a_has_node (a_rename f A) (f s0) ∧ a_has_node (a_rename f A) (f t0)) as [H1 H2]
        by (split; [exists ls; apply Hn; by exists s0|exists lt; apply Hn; by exists t0]).
      assert ((s, t) = ekey (ag_dir A) s t) as <-.
      { pose proof (ekey_idem (ag_dir A) (f s0) (f t0)) as Hi. rewrite He in Hi. done. }
      split; [done|]. destruct (ekey_cases (ag_dir A) (f s0) (f t0)) as [Hc|[_ Hc]]; rewrite Hc in He; by simplify_eq.
    - intros s t Hs Ht. apply option_eq. intros l. unfold a_edge_at at 1. rewrite rename_edges. cbn [a_rename ag_dir].
      split.
      + intros (s0 & t0 & Hl & He). destruct (Hwf s0 t0) as (Hk & Hs0 & Ht0); [by eexists|].
        unfold a_edge_at. apply ekey_eq in He as [[H1 H2]|(Hd & H1 & H2)]; apply Hinj in H1, H2; try done; subst.
        * by rewrite Hk.
        * rewrite Hd in *. rewrite ekey_sym, Hk. done.
      + intros Hl. unfold a_edge_at in Hl.
        destruct (ekey_cases (ag_dir A) s t) as [Hc|[Hd Hc]]; rewrite Hc in Hl.
        * by exists s, t.
        * exists t, s. split; [done|]. rewrite Hd. apply ekey_sym.
  Qed.
  Lemma rename_num_edges : a_num_edges (a_rename f A) = a_num_edges A.
  Proof.
    unfold a_num_edges. cbn [a_rename ag_edges]. unfold size, map_size.
    rewrite map_to_list_to_map by (apply (NoDup_fst_inj (λ p : N * N, ekey (ag_dir A) (f p.1) (f p.2))), rename_key_inj). by rewrite fmap_length.
  Qed.
  Lemma rename_num_nodes : size (ag_nodes (a_rename f A)) = size (ag_nodes A).
  Proof.
    cbn [a_rename ag_nodes]. unfold size, map_size.
    rewrite map_to_list_to_map by (by apply NoDup_fst_inj). by rewrite fmap_length.
  Qed.
End rename.

(** ** reorder_id_with *)
Section with_maps.
  Context {NL EL : Type} `{EqDecision NL, EqDecision EL} (dir : bool) (idt lt : idty).
  Notation lrel := (rel dir (@lab_rel NL) (@lab_rel EL)).
  Implicit Types (g : graphmap NL EL) (A : agraph NL EL).

  (** The label ids stored in the graph. *)
  Definition node_lid g (i : N) : Prop := ∃ k n, g_nodes g !! k = Some n ∧ nm_label n = Some i.
  Definition edge_lid g (i : N) : Prop := ∃ s t, adj (g_nodes g) s t = Some (Some i).

  Definition lmap_ok (t : idty) {X} (ls : list X) (o : option (list N)) (P : N → Prop) : Prop :=
    covers t o P ∧ match o with Some mp => NoDup mp ∧ ∀ i, i ∈ mp → N.to_nat i < length ls | None => True end.

  Definition new_node (im nlm elm : option (list N)) (n : nodemap) : nodemap :=
    NodeMap (vf idt im (nm_id n)) (vfo lt nlm (nm_label n))
      (match im, elm with
       | None, None => nm_nbrs n
       | _, _ => bt_collect ((λ p : N * option N, (vf idt im p.1, vfo lt elm p.2)) <$> bt_iter (nm_nbrs n))
       end)
      (match im with Some _ => list_to_set (vf idt im <$> bs_iter (nm_in n)) | None => nm_in n end).

  Definition new_labels {X} (o : option (list N)) (ls : list X) : list X :=
    match o with Some mp => omap (λ i, ls !! N.to_nat i) mp | None => ls end.

  Lemma new_labels_rel {X} `{EqDecision X} (ls : list X) o P i l :
    lmap_ok lt ls o P → (∀ j, i = Some j → P j) → lab_rel ls i l → lab_rel (new_labels o ls) (vfo lt o i) l.
  Proof.
    intros [Hc Ho] Hi Hl. destruct o as [mp|].
    - destruct i as [i|], l as [l|]; try done. cbn [vfo fmap option_fmap option_map lab_rel] in *.
      destruct (vf_index lt mp P i Hc (Hi i eq_refl)) as (j & _ & Hj & -> & _).
      rewrite Nat2N.id. destruct Ho as [_ Ho]. cbn [new_labels].
      rewrite (omap_total _ mp j i); [done| |done]. intros x Hx. apply lookup_lt_is_Some. by apply Ho.
    - cbn [new_labels]. by destruct i, l.
  Qed.
  Lemma new_labels_ok {X} `{EqDecision X} (ls : list X) o P :
    lmap_ok lt ls o P → NoDup ls →
    (match o with Some mp => reorder_label_map mp ls | None => Ok ls end) = Ok (new_labels o ls) ∧
    NoDup (new_labels o ls).
  Proof.
    intros [Hc Ho] Hls. destruct o as [mp|]; [|done]. destruct Ho as [Hmp Hb].
    split; [by apply label_map_spec|by apply label_map_NoDup].
  Qed.

  Section one.
    Context (PN : list NL → option N → option NL → Prop) (PE : list EL → option N → option EL → Prop).
    Context (g : graphmap NL EL) (s : sstate NL EL) (Hrel : rel dir PN PE g s) (it : list N) (Hit : hash_order g it).
    Context (im nlm elm : option (list N)).
    Context (Him : covers idt im (a_has_node (sp_g s))).
    Context (Hnlm : covers lt nlm (node_lid g)) (Helm : covers lt elm (edge_lid g)).
    Context (HN : ∀ i l, (∀ j, i = Some j → node_lid g j) → PN (g_nlm g) i l → PN (new_labels nlm (g_nlm g)) (vfo lt nlm i) l).
    Context (HE : ∀ i l, (∀ j, i = Some j → edge_lid g j) → PE (g_elm g) i l → PE (new_labels elm (g_elm g)) (vfo lt elm i) l).
    Context (HlN : (match nlm with Some mp => reorder_label_map mp (g_nlm g) | None => Ok (g_nlm g) end) = Ok (new_labels nlm (g_nlm g)) ∧
      NoDup (new_labels nlm (g_nlm g))).
    Context (HlE : (match elm with Some mp => reorder_label_map mp (g_elm g) | None => Ok (g_elm g) end) = Ok (new_labels elm (g_elm g)) ∧
      NoDup (new_labels elm (g_elm g))).
    Notation A := (sp_g s).
    Notation f := (vf idt im).

    Lemma with_values n : n ∈ gm_values g it ↔ ∃ k, g_nodes g !! k = Some n.
    Proof.
      unfold gm_values. rewrite elem_of_list_omap. split.
      - intros (k & _ & Hk). by exists k.
      - intros (k & Hk). exists k. split; [|done]. apply (hash_order_elem g it k Hit). by eexists.
    Qed.
    Lemma with_node k n : g_nodes g !! k = Some n → nm_id n = k ∧ a_has_node A k.
    Proof.
      intros Hn. destruct Hrel as [Ha _ _ _ _ _ _ _ _]. pose proof (ar_node _ _ _ _ _ Ha k) as H1. rewrite Hn in H1.
      inversion H1 as [? ? [? ?] Hx Hy|]; subst. split; [done|]. by eexists.
    Qed.
    Lemma with_nbr k n t l : g_nodes g !! k = Some n → nm_nbrs n !! t = Some l → a_has_edge A k t ∧ a_has_node A t ∧ adj (g_nodes g) k t = Some l.
    Proof.
      intros Hn Ht. pose proof (abs_nbr _ _ _ _ _ _ _ t (r_abs _ _ _ _ _ Hrel) Hn) as Hb.
      assert (a_has_edge A k t) as He by (apply Hb; by eexists).
      split; [done|]. split; [|unfold adj; by rewrite Hn].
      eapply wf_edge_nodes; [|exact He]. apply (r_abs _ _ _ _ _ Hrel).
    Qed.
    Lemma with_in k n t : g_nodes g !! k = Some n → t ∈ nm_in n → a_has_node A t.
    Proof.
      intros Hn Ht. pose proof (ar_in _ _ _ _ _ (r_abs _ _ _ _ _ Hrel) k n Hn) as Hb. destruct dir.
      - apply Hb in Ht. apply wf_edge_nodes in Ht as [? ?]; [done|]. apply (r_abs _ _ _ _ _ Hrel).
      - rewrite Hb in Ht. set_solver.
    Qed.

    Lemma reorder_node_ok n : n ∈ gm_values g it → reorder_node idt lt im nlm elm n = Ok (new_node im nlm elm n).
    Proof.
      intros (k & Hn)%with_values. destruct (with_node k n Hn) as [Hid Hk]. unfold reorder_node, new_node.
      rewrite (via_ok idt im (a_has_node A)) by (by rewrite ?Hid). cbn [rbind].
      rewrite (via_opt_ok lt nlm (node_lid g)); [|exact Hnlm|intros i Hi; by exists k, n]. cbn [rbind].
      assert (rmapl (λ p : N * option N, let* x := via idt im p.1 in let* l := via_opt lt elm p.2 in Ok (x, l)) (bt_iter (nm_nbrs n))
        = Ok ((λ p : N * option N, (f p.1, vfo lt elm p.2)) <$> bt_iter (nm_nbrs n))) as Hrow.
      { rewrite <-rmapl_ok_fmap. apply rmapl_ext. intros [t l] Hin%elem_of_bt_iter. cbn [fst snd].
        destruct (with_nbr k n t l Hn Hin) as (_ & Ht & Hadj).
        rewrite (via_ok idt im (a_has_node A)) by done. cbn [rbind].
        rewrite (via_opt_ok lt elm (edge_lid g)); [done|exact Helm|]. intros i ->. by exists k, t. }
      assert (rmapl (via idt im) (bs_iter (nm_in n)) = Ok (f <$> bs_iter (nm_in n))) as Hins.
      { rewrite <-rmapl_ok_fmap. apply rmapl_ext. intros t Hin%elem_of_bs_iter.
        apply (via_ok idt im (a_has_node A)); [done|]. by apply (with_in k n). }
      rewrite Hrow, Hins. by destruct im, elm.
    Qed.

    Lemma new_nbrs k n y l' : g_nodes g !! k = Some n →
      nm_nbrs (new_node im nlm elm n) !! y = Some l' ↔
      ∃ t l, nm_nbrs n !! t = Some l ∧ f t = y ∧ vfo lt elm l = l'.
    Proof.
      intros Hn. cbn [new_node nm_nbrs].
      assert (bt_collect ((λ p : N * option N, (f p.1, vfo lt elm p.2)) <$> bt_iter (nm_nbrs n)) !! y = Some l' ↔
        ∃ t l, nm_nbrs n !! t = Some l ∧ f t = y ∧ vfo lt elm l = l') as Hb.
      { rewrite bt_collect_lookup.
        - rewrite elem_of_list_fmap. split.
          + intros ([t l] & [= -> ->] & Hin%elem_of_bt_iter). by exists t, l.
          + intros (t & l & Hin & <- & <-). exists (t, l). by rewrite elem_of_bt_iter.
        - intros p q ([t l] & -> & Ht%elem_of_bt_iter)%elem_of_list_fmap ([t2 l2] & -> & Ht2%elem_of_bt_iter)%elem_of_list_fmap.
          cbn [fst snd]. intros He. apply (vf_inj idt im (a_has_node A)) in He; [|done|..].
          + subst. congruence.
          + by destruct (with_nbr k n t l Hn Ht) as (_ & ? & _).
          + by destruct (with_nbr k n t2 l2 Hn Ht2) as (_ & ? & _). }
      clear Hnlm HN HlN HlE HE. destruct im as [m|]; [done|]. destruct elm as [m|]; [done|]. clear.
      assert (∀ l, vfo lt None l = l) as Hv by (by intros [?|]).
      split; [intros Hy; exists y, l'; by rewrite Hv|]. intros (t & l & Ht & <- & <-). by rewrite Hv.
    Qed.
    Lemma new_in n y : y ∈ nm_in (new_node im nlm elm n) ↔ ∃ t, t ∈ nm_in n ∧ f t = y.
    Proof.
      cbn [new_node nm_in]. clear. destruct im as [m|].
      - rewrite elem_of_list_to_set, elem_of_list_fmap. setoid_rewrite elem_of_bs_iter. naive_solver.
      - unfold vf. cbn [via]. naive_solver.
    Qed.

    Definition new_table : gmap N nodemap :=
      foldl (λ m n, <[nm_id (new_node im nlm elm n) := new_node im nlm elm n]> m) ∅ (gm_values g it).
    Lemma new_table_lookup y n' : new_table !! y = Some n' ↔
      ∃ x n, g_nodes g !! x = Some n ∧ f x = y ∧ n' = new_node im nlm elm n.
    Proof.
      unfold new_table. rewrite nodes_collect.
      - split.
        + intros (n & (x & Hx)%with_values & <- & <-). exists x, n. destruct (with_node x n Hx) as [Hid _].
          cbn [new_node nm_id]. by rewrite Hid.
        + intros (x & n & Hx & <- & ->). exists n. split; [apply with_values; by exists x|].
          split; [done|]. cbn [new_node nm_id]. destruct (with_node x n Hx) as [-> _]. done.
      - intros n1 n2 (x1 & H1)%with_values (x2 & H2)%with_values He. cbn [new_node nm_id] in He.
        destruct (with_node x1 n1 H1) as [Hi1 ?], (with_node x2 n2 H2) as [Hi2 ?].
        rewrite Hi1, Hi2 in He. apply (vf_inj idt im (a_has_node A)) in He; [|done..]. subst x2. congruence.
    Qed.

    Lemma f_inj x y : a_has_node A x → a_has_node A y → f x = f y → x = y.
    Proof. by apply vf_inj. Qed.
    Lemma with_wf : ag_wf A.
    Proof. apply (r_abs _ _ _ _ _ Hrel). Qed.
    Lemma with_dir : ag_dir A = dir.
    Proof. apply (r_abs _ _ _ _ _ Hrel). Qed.

    Lemma new_abs : abs_rel dir (PN (new_labels nlm (g_nlm g))) (PE (new_labels elm (g_elm g))) new_table (a_rename f A).
    Proof.
      pose proof (rename_renames f A with_wf f_inj) as [Rd Rw Ri Rn Re].
      pose proof (r_abs _ _ _ _ _ Hrel) as [Ad Aw An Ae Ai].
      assert (∀ x, is_Some (g_nodes g !! x) ↔ a_has_node A x) as Hnode.
      { intros x. eapply abs_has_node. apply (r_abs _ _ _ _ _ Hrel). }
      assert (∀ x n, g_nodes g !! x = Some n → new_table !! f x = Some (new_node im nlm elm n)) as Htab.
      { intros x n Hx. apply new_table_lookup. by exists x, n. }
      split.
      - rewrite Rd. apply with_dir.
      - done.
      - intros y. destruct (new_table !! y) as [n'|] eqn:Hy.
        + apply new_table_lookup in Hy as (x & n & Hx & <- & ->).
          pose proof (An x) as H1. rewrite Hx in H1. inversion H1 as [? l [Hid Hl] Hx' Hl'|]; subst.
          assert (ag_nodes (a_rename f A) !! f (nm_id n) = Some l) as ->.
          { apply Rn. by exists (nm_id n). }
          constructor. split; [done|]. cbn [new_node nm_label].
          apply HN; [|exact Hl]. intros j Hj. by exists (nm_id n), n.
        + destruct (ag_nodes (a_rename f A) !! y) as [l|] eqn:Hl; [|constructor].
          apply Rn in Hl as (x & Hx & <-). destruct (proj2 (Hnode x)) as [n Hn]; [by eexists|].
          by rewrite (Htab x n Hn) in Hy.
      - intros y z.
        assert (∀ x t n, g_nodes g !! x = Some n → a_has_node A t →
          option_Forall2 (PE (new_labels elm (g_elm g))) (nm_nbrs (new_node im nlm elm n) !! f t) (a_edge_at A x t)) as Hrow.
        { intros x t n Hn Ht. pose proof (Ae x t) as H1. unfold adj in H1. rewrite Hn in H1.
          inversion H1 as [l0 l Hl Hl0 Hl1|Hl0 Hl1].
          - assert (nm_nbrs (new_node im nlm elm n) !! f t = Some (vfo lt elm l0)) as ->.
            { apply (new_nbrs x n); [done|]. by exists t, l0. }
            constructor. apply HE; [|exact Hl].
            intros j ->. exists x, t. unfold adj. by rewrite Hn.
          - destruct (nm_nbrs (new_node im nlm elm n) !! f t) as [l'|] eqn:Hl'; [|constructor].
            apply (new_nbrs x n) in Hl' as (t2 & l2 & Ht2 & Hf & _); [|done].
            apply f_inj in Hf; [|by destruct (with_nbr x n t2 l2 Hn Ht2) as (_ & ? & _)|done]. congruence. }
        unfold adj. destruct (new_table !! y) as [n'|] eqn:Hy.
        + apply new_table_lookup in Hy as (x & n & Hx & <- & ->).
          assert (a_has_node A x) as HxA by (apply Hnode; by eexists).
          destruct (ag_nodes (a_rename f A) !! z) as [lz|] eqn:Hz.
          * apply Rn in Hz as (t & Ht & <-). rewrite Re by (try done; by eexists). apply Hrow; [done|by eexists].
          * assert (a_edge_at (a_rename f A) (f x) z = None) as ->.
            { apply eq_None_not_Some. intros He. apply (wf_edge_nodes _ _ _ Rw) in He as [_ [? Hz']].
              congruence. }
            destruct (nm_nbrs (new_node im nlm elm n) !! z) as [l'|] eqn:Hl'; [|constructor].
            apply (new_nbrs x n) in Hl' as (t2 & l2 & Ht2 & <- & _); [|done].
            destruct (with_nbr x n t2 l2 Hx Ht2) as (_ & [lt2 Hlt2] & _).
            assert (ag_nodes (a_rename f A) !! f t2 = Some lt2) by (apply Rn; by exists t2). congruence.
        + assert (a_edge_at (a_rename f A) y z = None) as ->; [|constructor].
          apply eq_None_not_Some. intros He. apply (wf_edge_nodes _ _ _ Rw) in He as [[l Hl] _].
          apply Rn in Hl as (x & Hx & <-). destruct (proj2 (Hnode x)) as [n Hn]; [by eexists|].
          by rewrite (Htab x n Hn) in Hy.
      - intros y n' Hy. apply new_table_lookup in Hy as (x & n & Hx & <- & ->).
        assert (a_has_node A x) as HxA by (apply Hnode; by eexists).
        pose proof (Ai x n Hx) as Hi. pose proof (new_in n) as Hnew. destruct dir.
        + intros z. rewrite Hnew. split.
          * intros (t & Ht & <-). apply Hi in Ht. pose proof Ht as Ht'.
            apply (wf_edge_nodes _ _ _ Aw) in Ht' as [? ?]. unfold a_has_edge. by rewrite Re.
          * intros He. pose proof He as He'. apply (wf_edge_nodes _ _ _ Rw) in He' as [[l Hl] _].
            apply Rn in Hl as (t & Ht & <-). exists t. split; [|done]. apply Hi.
            unfold a_has_edge in He. rewrite Re in He by (try done; by eexists). done.
        + apply set_eq. intros z. rewrite Hnew, Hi. set_solver.
    Qed.

    Lemma reorder_with_ok : ∃ g' mx,
      gm_reorder_id_with idt lt it im nlm elm g = Ok g' ∧
      g_nodes g' = new_table ∧
      renames f A (a_rename f A) ∧
      rel dir PN PE g' (SState (a_rename f A) (sp_count s) mx (new_labels nlm (sp_nls s)) (new_labels elm (sp_els s))).
    Proof.
      pose proof (rename_renames f A with_wf f_inj) as HR.
      pose proof Hrel as [Ha Hc Hm Hns Hes Hnd Hed Hge Hb].
      destruct HlN as [Hl1 Hd1], HlE as [Hl2 Hd2].
      assert (∀ mx, (∀ n, a_has_node (a_rename f A) n → ∃ k, mx = Some k ∧ (n ≤ k)%N) →
        rel dir PN PE (GraphMap new_table (g_nedges g) (new_labels nlm (g_nlm g)) (new_labels elm (g_elm g)) mx)
          (SState (a_rename f A) (sp_count s) mx (new_labels nlm (sp_nls s)) (new_labels elm (sp_els s)))) as Hres.
      { intros mx Hmx. split; cbn [g_nodes g_nedges g_nlm g_elm g_max sp_g sp_count sp_max sp_nls sp_els]; try done.
        - apply new_abs.
        - by rewrite Hns.
        - by rewrite Hes.
        - by rewrite <-Hns.
        - by rewrite <-Hes.
        - rewrite rename_num_edges; [done|apply with_wf|apply f_inj]. }
      assert (∀ n, a_has_node (a_rename f A) n →
        ∃ k, list_max_N (map_to_list new_table).*1 = Some k ∧ (n ≤ k)%N) as Hmax.
      { intros n Hn. pose proof (abs_has_node _ _ _ _ _ n new_abs) as Hk. apply Hk in Hn as [n' Hn'].
        assert (n ∈ (map_to_list new_table).*1) as Hin.
        { apply elem_of_list_fmap. exists (n, n'). by rewrite elem_of_map_to_list. }
        pose proof (list_max_spec (map_to_list new_table).*1) as Hs. destruct (list_max_N _) as [k|].
        - exists k. split; [done|]. by apply Hs.
        - rewrite Hs in Hin. by apply elem_of_nil in Hin. }
      assert (rfold (λ m n, let* n' := reorder_node idt lt im nlm elm n in Ok (<[nm_id n' := n']> m)) (gm_values g it) ∅
        = Ok new_table) as Hfold.
      { unfold new_table. apply rfold_nodes. apply reorder_node_ok. }
      unfold gm_reorder_id_with. rewrite Hfold, Hl1, Hl2. cbn [rbind].
      destruct (decide (im = None ∧ nlm = None ∧ elm = None)) as [(H1 & H2 & H3)|Hne].
      - exists g, (g_max g). split; [by rewrite H1, H2, H3|].
        assert (∀ n, a_has_node (a_rename f A) n → ∃ k, g_max g = Some k ∧ (n ≤ k)%N) as Hmx.
        { intros n [l Hl]. apply (rn_nodes _ _ _ HR) in Hl as (x & Hx & <-).
          destruct (Hb x) as (k & Hk & ?); [by eexists|]. exists k. rewrite Hm. split; [done|].
          by rewrite H1. }
        specialize (Hres (g_max g) Hmx).
        assert (new_table = g_nodes g) as Ht.
        { apply map_eq. intros y. apply option_eq. intros n'. rewrite new_table_lookup. rewrite H1, H2, H3.
          assert (∀ l, vfo lt None l = l) as Hv by (by intros [?|]).
          assert (∀ n, new_node None None None n = n) as Hnn.
          { intros [a b c d]. unfold new_node. cbn [nm_id nm_label nm_nbrs nm_in]. by rewrite Hv. }
          split.
          - intros (x & n & Hx & <- & ->). rewrite Hnn. done.
          - intros Hy. exists y, n'. by rewrite Hnn. }
        split; [done|]. split; [done|]. rewrite Ht in Hres. unfold new_labels in Hres. rewrite H2, H3 in Hres. 
        unfold new_labels. rewrite H2, H3. destruct g; exact Hres.
      - exists (GraphMap new_table (g_nedges g) (new_labels nlm (g_nlm g)) (new_labels elm (g_elm g))
                 (list_max_N (map_to_list new_table).*1)), (list_max_N (map_to_list new_table).*1).
        split; [|split; [done|split; [done|by apply Hres]]].
        destruct im, nlm, elm; try done. by destruct Hne.
    Qed.
  End one.
End with_maps.
