(** All observations of the GraphMap model. *)
From Verif Require Import Base Api Spec BaseFacts SpecFacts Map MapFacts GraphMap GraphMapFacts GraphMapRefine.

Section queries.
  Context {NL EL : Type} (dir : bool).
  Context (PN : option N → option NL → Prop) (PE : option N → option EL → Prop).
  Implicit Types (g : graphmap NL EL) (A : agraph NL EL).

  Lemma hash_order_elem g it k : hash_order g it → k ∈ it ↔ is_Some (g_nodes g !! k).
  Proof.
    intros Hit. rewrite Hit. rewrite elem_of_list_fmap. split.
    - intros ([k' a] & -> & Hk). rewrite elem_of_map_to_list in Hk. by exists a.
    - intros [a Ha]. exists (k, a). by rewrite elem_of_map_to_list.
  Qed.
  Lemma hash_order_NoDup g it : hash_order g it → NoDup it.
  Proof. intros Hit. rewrite Hit. apply NoDup_fst_map_to_list. Qed.
  Lemma hash_order_exists g : hash_order g (map_to_list (g_nodes g)).*1.
  Proof. unfold hash_order. reflexivity. Qed.

  Lemma values_bind {X} g it (F : nodemap → list X) :
    gm_values g it ≫= F = it ≫= λ k, match g_nodes g !! k with Some n => F n | None => [] end.
  Proof.
    unfold gm_values. induction it as [|k it IH]; csimpl; [done|].
    destruct (g_nodes g !! k); csimpl; by rewrite IH.
  Qed.
  Lemma values_fmap {X} g it (F : nodemap → X) :
    F <$> gm_values g it = omap (λ k, F <$> g_nodes g !! k) it.
  Proof.
    unfold gm_values. induction it as [|k it IH]; csimpl; [done|].
    destruct (g_nodes g !! k); csimpl; by rewrite IH.
  Qed.

  Lemma nbrs_listing n t :
    t ∈ (if dir then nm_neighbors n else nm_non_less_neighbors n) ↔
      is_Some (nm_nbrs n !! t) ∧ (dir = true ∨ (nm_id n ≤ t)%N).
  Proof.
    destruct dir; unfold nm_neighbors, nm_non_less_neighbors.
    - rewrite elem_of_bt_keys. naive_solver.
    - rewrite elem_of_bt_range_keys. naive_solver.
  Qed.
  Lemma nbrs_listing_NoDup n : NoDup (if dir then nm_neighbors n else nm_non_less_neighbors n).
  Proof.
    destruct dir; [apply bt_keys_NoDup|]. apply increasing_NoDup, bt_range_keys_increasing.
  Qed.

  Lemma edge_indices_exact g A it :
    abs_rel dir PN PE (g_nodes g) A → hash_order g it →
    lists_exactly (gm_edge_indices dir g it) (λ e, is_Some (ag_edges A !! e)).
  Proof.
    intros Ha Hit. unfold gm_edge_indices. rewrite values_bind. split.
    - apply NoDup_bind'.
      + intros k1 k2 y _ _ H1 H2.
        destruct (g_nodes g !! k1) as [n1|] eqn:Hn1; [|by apply elem_of_nil in H1].
        destruct (g_nodes g !! k2) as [n2|] eqn:Hn2; [|by apply elem_of_nil in H2].
        apply (abs_node_Some _ _ _ _ _ _ _ Ha) in Hn1 as (_ & _ & Hi1 & _).
        apply (abs_node_Some _ _ _ _ _ _ _ Ha) in Hn2 as (_ & _ & Hi2 & _).
        apply elem_of_list_fmap in H1 as (t1 & -> & _).
        apply elem_of_list_fmap in H2 as (t2 & Heq & _). congruence.
      + intros k _. destruct (g_nodes g !! k) as [n|]; [|constructor].
        apply NoDup_fmap_2; [by intros ?? [= ->]|]. apply nbrs_listing_NoDup.
      + by eapply hash_order_NoDup.
    - intros [s t]. rewrite wf_stored by apply Ha. simpl.
      rewrite <-(abs_adj _ _ _ _ _ s t Ha). rewrite (ar_dir _ _ _ _ _ Ha). unfold adj.
      rewrite elem_of_list_bind. split.
      + intros (k & Hk & Hkit). destruct (g_nodes g !! k) as [n|] eqn:Hn; [|by apply elem_of_nil in Hk].
        apply elem_of_list_fmap in Hk as (t' & Heq & Ht').
        pose proof (abs_node_Some _ _ _ _ _ _ _ Ha Hn) as (_ & _ & Hi & _).
        simplify_eq. rewrite Hn. by apply nbrs_listing.
      + destruct (g_nodes g !! s) as [n|] eqn:Hn; [|by intros [[? ?] _]].
        pose proof (abs_node_Some _ _ _ _ _ _ _ Ha Hn) as (_ & _ & Hi & _).
        intros [Hs Ho]. exists s. rewrite Hn. split.
        * apply elem_of_list_fmap. exists t. rewrite Hi. split; [done|]. apply nbrs_listing.
          by rewrite Hi.
        * apply (hash_order_elem g it); [done|by eexists].
  Qed.

  Lemma node_list_spec g A it :
    abs_rel dir PN PE (g_nodes g) A → hash_order g it →
    rmapl (λ n, unwrap (gm_get_node g n)) it = Ok (gm_node_list g it).
  Proof.
    intros Ha Hit. unfold gm_node_list. rewrite values_fmap.
    assert (∀ k, k ∈ it → is_Some (g_nodes g !! k)) as Hk by (intros k; by apply hash_order_elem).
    clear Hit. induction it as [|k it IH]; [done|].
    destruct (Hk k) as [n Hn]; [left|]. cbn [rmapl omap list_omap]. rewrite IH by (intros k' Hk'; apply Hk; by right).
    unfold gm_get_node at 1. rewrite Hn. done.
  Qed.
  Lemma edge_list_spec g A it :
    abs_rel dir PN PE (g_nodes g) A → hash_order g it →
    rmapl (λ e, let* o := gm_get_edge g e.1 e.2 in unwrap o) (gm_edge_indices dir g it)
      = Ok (gm_edge_list dir g it).
  Proof.
    intros Ha Hit. unfold gm_edge_list, gm_edge_indices. rewrite !values_bind.
    assert (∀ k n t l, g_nodes g !! k = Some n → nm_nbrs n !! t = Some l →
      gm_get_edge g k t = Ok (Some (k, t, l))) as Hget.
    { intros k n t l Hn Ht. unfold gm_get_edge, gm_has_edge, nm_has_neighbor.
      rewrite Hn. rewrite bool_decide_true by (by eexists). cbn [unwrap rbind].
      unfold nm_get_neighbor. by rewrite Ht. }
    assert (∀ k n (l : list (N * option N)), g_nodes g !! k = Some n →
      (∀ t lb, (t, lb) ∈ l → nm_nbrs n !! t = Some lb) → nm_id n = k →
      rmapl (λ e : N * N, let* o := gm_get_edge g e.1 e.2 in unwrap o) ((λ i, (nm_id n, i)) <$> l.*1)
        = Ok ((λ p, (nm_id n, p.1, p.2)) <$> l)) as Hrow.
    { intros k n l Hn Hl Hid. induction l as [|[t lb] l IH]; csimpl; [done|].
      rewrite Hid in *. rewrite (Hget k n t lb) by (try done; apply Hl; left). simpl.
      rewrite IH; [done|]. intros t' lb' Ht'. apply Hl. by right. }
    assert (∀ (l1 l2 : list (N * N)), rmapl (λ e : N * N, let* o := gm_get_edge g e.1 e.2 in unwrap o) (l1 ++ l2)
      = let* a := rmapl (λ e : N * N, let* o := gm_get_edge g e.1 e.2 in unwrap o) l1 in
        rmap (app a) (rmapl (λ e : N * N, let* o := gm_get_edge g e.1 e.2 in unwrap o) l2)) as Happ.
    { intros l1 l2. induction l1 as [|x l1 IH]; cbn [rmapl app].
      - cbn [rbind]. by destruct (rmapl _ l2).
      - rewrite IH. destruct (let* o := gm_get_edge g x.1 x.2 in unwrap o) as [a| |]; cbn [rbind]; [|done..].
        destruct (rmapl _ l1) as [b| |]; cbn [rbind rmap]; [|done..]. by destruct (rmapl _ l2). }
    clear Hit. induction it as [|k it IH]; [done|]. cbn [mbind list_bind]. rewrite Happ.
    change (list_bind ?A ?B ?f ?l) with (l ≫= f) in *.
    destruct (g_nodes g !! k) as [n|] eqn:Hn; cbn [rmapl rbind]; rewrite IH; [|done].
    pose proof (abs_node_Some _ _ _ _ _ _ _ Ha Hn) as (_ & _ & Hi & _).
    assert (rmapl (λ e : N * N, let* o := gm_get_edge g e.1 e.2 in unwrap o)
       ((λ i, (nm_id n, i)) <$> (if dir then nm_neighbors n else nm_non_less_neighbors n)) =
       Ok (if dir then nm_neighbors_full n else nm_non_less_neighbors_full n)) as ->; [|done].
    destruct dir.
    - apply (Hrow k n (bt_iter (nm_nbrs n))); [done| |done]. intros t lb. by rewrite elem_of_bt_iter.
    - apply (Hrow k n (bt_range_from (nm_id n) (nm_nbrs n))); [done| |done].
      intros t lb. rewrite elem_of_bt_range. naive_solver.
  Qed.

  (** The observations of a stored graph, given what label ids denote. *)
  Lemma view_represents g A it (nlm : list NL) (elm : list EL) :
    abs_rel dir PN PE (g_nodes g) A →
    (∀ lid l, PN lid l → denotes nlm lid = l) →
    (∀ lid l, PE lid l → denotes elm lid = l) →
    (∀ n, a_has_node A n → ∃ k, g_max g = Some k ∧ (n ≤ k)%N) →
    hash_order g it →
    g_nlm g = nlm → g_elm g = elm →
    represents (gm_view dir it g) A.
  Proof.
    intros Ha HN HE Hmax Hit Hnlm Helm.
    assert (∀ n, is_Some (g_nodes g !! n) ↔ a_has_node A n) as Hnode by (intros n; by apply (abs_has_node dir PN PE)).
    split; simpl.
    - apply Ha.
    - symmetry. apply Ha.
    - symmetry. apply Ha.
    - unfold gm_node_count, a_num_nodes.
      rewrite <-(lists_exactly_length it (g_nodes g)).
      + rewrite <-(lists_exactly_length it (ag_nodes A)); [done|]. split; [by eapply hash_order_NoDup|].
        intros k. rewrite (hash_order_elem g it) by done. apply Hnode.
      + split; [by eapply hash_order_NoDup|]. intros k. by apply hash_order_elem.
    - intros n. unfold gm_has_node. rewrite bool_decide_eq_true. apply Hnode.
    - intros n Hn%Hnode. destruct Hn as [nm Hn].
      destruct (abs_node_Some _ _ _ _ _ _ _ Ha Hn) as (l & Hl & Hi & HP).
      exists (nm_label nm). unfold gm_get_node. rewrite Hn. simpl. rewrite Hi, Hl. split; [done|].
      rewrite Hnlm. by apply HN.
    - intros s t _. eexists. split; [done|]. unfold gm_has_edge.
      rewrite <-(abs_adj _ _ _ _ _ s t Ha). unfold adj.
      destruct (g_nodes g !! s); [unfold nm_has_neighbor; by rewrite bool_decide_eq_true|].
      split; [done|by intros [? ?]].
    - intros s t He. pose proof (ar_edge _ _ _ _ _ Ha s t) as Hf.
      destruct He as [l He]. rewrite He in Hf. inversion Hf as [lid ? HP Hadj|]; subst.
      unfold adj in Hadj. destruct (g_nodes g !! s) as [n|] eqn:Hn; [|done].
      exists lid. unfold gm_get_edge, gm_has_edge, nm_has_neighbor. rewrite Hn, <-Hadj.
      rewrite bool_decide_true by (by eexists). cbn [unwrap rbind]. unfold nm_get_neighbor.
      rewrite <-Hadj. cbn [unwrap rbind]. split; [done|]. rewrite He. by apply HE.
    - unfold gm_node_indices. split; [by eapply hash_order_NoDup|]. intros k.
      rewrite (hash_order_elem g it) by done. apply Hnode.
    - eexists. split; [done|]. by apply edge_indices_exact.
    - intros n Hn%Hnode. destruct Hn as [nm Hn]. unfold gm_degree, gm_neighbors. rewrite Hn. simpl.
      unfold nm_neighbors, nm_degree. by rewrite bt_keys_length.
    - intros n Hn%Hnode. destruct Hn as [nm Hn]. unfold gm_neighbors. rewrite Hn.
      eexists. split; [done|]. split; [apply bt_keys_increasing|]. intros t. unfold nm_neighbors.
      rewrite elem_of_bt_keys. by apply (abs_nbr dir PN PE (g_nodes g)).
    - intros Hd n Hn%Hnode. destruct Hn as [nm Hn]. unfold gm_in_degree, gm_in_neighbors. rewrite Hn. simpl.
      unfold nm_in_neighbors, nm_in_degree. by rewrite bs_iter_length.
    - intros Hd n Hn%Hnode. destruct Hn as [nm Hn]. unfold gm_in_neighbors. rewrite Hn.
      eexists. split; [done|]. split; [apply bs_iter_increasing|]. intros t. unfold nm_in_neighbors.
      rewrite elem_of_bs_iter. pose proof (ar_in _ _ _ _ _ Ha n nm Hn) as Hin.
      rewrite (ar_dir _ _ _ _ _ Ha) in Hd. rewrite Hd in Hin. apply Hin.
    - intros n Hn. destruct (Hmax n Hn) as (k & Hk & ?). exists k. unfold gm_max_seen_id. by rewrite Hk.
  Qed.

  Lemma view_answers_missing g A it :
    abs_rel dir PN PE (g_nodes g) A → answers_missing (gm_view dir it g) A.
  Proof.
    intros Ha.
    assert (∀ n, ¬ a_has_node A n → g_nodes g !! n = None) as Hnode.
    { intros n Hn. rewrite <-(abs_has_node _ _ _ _ _ n Ha) in Hn. by destruct (g_nodes g !! n); [destruct Hn; eexists|]. }
    split; simpl.
    - intros n Hn. unfold gm_get_node. by rewrite Hnode.
    - intros s t Hn. unfold gm_has_edge. by rewrite Hnode.
    - intros s t Hn. unfold gm_get_edge. rewrite <-(abs_adj _ _ _ _ _ s t Ha) in Hn.
      unfold adj in Hn. unfold gm_has_edge. destruct (g_nodes g !! s) as [n|]; [|done].
      unfold nm_has_neighbor. by rewrite bool_decide_false.
    - intros n Hn. unfold gm_degree, gm_neighbors. by rewrite Hnode.
    - intros n _ Hn. unfold gm_in_degree, gm_in_neighbors. by rewrite Hnode.
  Qed.
  Lemma view_iterates g A it :
    abs_rel dir PN PE (g_nodes g) A → hash_order g it → iterates (gm_view dir it g).
  Proof.
    intros Ha Hit. split; simpl.
    - unfold gm_node_indices. symmetry. by eapply node_list_spec.
    - symmetry. by eapply edge_list_spec.
  Qed.
End queries.
