(** Histories that mix API calls with writes through node handles (C85). *)
From Verif Require Import Base BaseFacts Api Spec Map GraphMap NodeOps SpecNodeOps NodeOpsProps.

Section props.
  Context {NL EL : Type} `{EqDecision NL, EqDecision EL} (dir : bool) (lt : idty).
  Notation graph := (graphmap NL EL).
  Implicit Types g : graph.

  Definition ids_ok g : Prop := ∀ k n, g_nodes g !! k = Some n → nm_id n = k.
  Lemma ids_insert g k n : ids_ok g → nm_id n = k → ids_ok (set_nodes (<[k := n]> (g_nodes g)) g).
  Proof. intros Hi Hn k' n'. cbn. intros [[<- <-]|[_ Hx]]%lookup_insert_Some; [done|by apply Hi]. Qed.
  Lemma ids_upd g k f g' : ids_ok g → (∀ n, nm_id (f n) = nm_id n) → upd_node k f g = Ok g' → ids_ok g'.
  Proof.
    intros Hi Hf. unfold upd_node. destruct (g_nodes g !! k) as [n|] eqn:Hk; [|done]. cbn. intros [= <-].
    apply ids_insert; [done|]. rewrite Hf. by apply Hi.
  Qed.
  Lemma ids_upds l f : ∀ g g', ids_ok g → (∀ k n, nm_id (f k n) = nm_id n) → rfold (λ g k, upd_node k (f k) g) l g = Ok g' → ids_ok g'.
  Proof.
    induction l as [|k l IH]; intros g g' Hi Hf; cbn [rfold]; [by intros [= <-]|].
    destruct (upd_node k (f k) g) as [g1| |] eqn:Hu; try done. cbn [rbind]. intros Hr. exact (IH g1 g' (ids_upd g k (f k) g1 Hi (Hf k) Hu) Hf Hr).
  Qed.
  Lemma nm_add_in_id a n : nm_id (nm_add_in_edge a n) = nm_id n.
  Proof. unfold nm_add_in_edge. by destruct (nm_has_in_neighbor n a). Qed.
  Lemma nm_remove_id a n : nm_id (nm_remove_edge a n).2 = nm_id n.
  Proof. unfold nm_remove_edge. by destruct (nm_nbrs n !! a). Qed.
  Lemma ids_node_label l g i g' : ids_ok g → gm_add_node_label lt l g = Ok (i, g') → ids_ok g'.
  Proof.
    unfold gm_add_node_label. destruct l as [x|]; [|by intros ? [= <- <-]].
    destruct (sm_add_item (g_nlm g) x) as [[j m]| |]; try done. cbn. by intros ? [= <- <-].
  Qed.
  Lemma ids_edge_label l g i g' : ids_ok g → gm_add_edge_label lt l g = Ok (i, g') → ids_ok g'.
  Proof.
    unfold gm_add_edge_label. destruct l as [x|]; [|by intros ? [= <- <-]].
    destruct (sm_add_item (g_elm g) x) as [[j m]| |]; try done. cbn. by intros ? [= <- <-].
  Qed.
  Lemma ids_add_node n l g b g' : ids_ok g → gm_add_node lt n l g = Ok (b, g') → ids_ok g'.
  Proof.
    intros Hi. unfold gm_add_node. destruct (gm_add_node_label lt l g) as [[i g1]| |] eqn:Hl; try done. cbn [rbind].
    apply ids_node_label in Hl; [|done]. destruct (gm_has_node g1 n).
    - destruct (upd_node n (nm_set_label_id i) g1) as [g2| |] eqn:Hu; try done. cbn. intros [= <- <-]. refine (ids_upd _ _ _ _ Hl _ Hu); done.
    - set (g2 := set_nodes _ g1). assert (ids_ok g2) as H2 by (by apply ids_insert).
      intros [= <- <-]. change (g_max g1) with (g_max g2). destruct (g_max g2); [|exact H2]. case_decide; exact H2.
  Qed.
  Lemma ids_add_edge x y l g b g' : ids_ok g → gm_add_edge dir lt x y l g = Ok (b, g') → ids_ok g'.
  Proof.
    intros Hi. unfold gm_add_edge.
    set (r1 := if gm_has_node g x then _ else _).
    destruct r1 as [g1| |] eqn:Hr1; try done. cbn [rbind].
    assert (ids_ok g1) as H1.
    { subst r1. destruct (gm_has_node g x); [by simplify_eq|].
      destruct (gm_add_node lt x None g) as [[b1 g1']| |] eqn:Ha; try done. cbn in Hr1. simplify_eq. by eapply ids_add_node. }
    clear r1 Hr1 Hi. set (r2 := if gm_has_node g1 y then _ else _).
    destruct r2 as [g2| |] eqn:Hr2; try done. cbn [rbind].
    assert (ids_ok g2) as H2.
    { subst r2. destruct (gm_has_node g1 y); [by simplify_eq|].
      destruct (gm_add_node lt y None g1) as [[b1 g1']| |] eqn:Ha; try done. cbn in Hr2. simplify_eq. by eapply ids_add_node. }
    clear r2 Hr2 H1. destruct (gm_add_edge_label lt l g2) as [[i g3]| |] eqn:Hl; try done. cbn [rbind].
    apply ids_edge_label in Hl; [|done].
    destruct (g_nodes g3 !! x) as [ns|] eqn:Hx; [|done]. cbn [unwrap rbind]. unfold nm_add_edge at 1.
    set (g4 := set_nodes _ g3). assert (ids_ok g4) as H4. { apply ids_insert; [done|]. cbn. by apply Hl. }
    destruct dir.
    - destruct (upd_node y (nm_add_in_edge x) g4) as [g5| |] eqn:Hu; try done. cbn. intros [= <- <-].
      apply (ids_upd _ _ _ _ H4 (nm_add_in_id x) Hu).
    - case_decide; [cbn; intros [= <- <-]; exact H4|].
      destruct (upd_node y _ g4) as [g5| |] eqn:Hu; try done. cbn. intros [= <- <-]. refine (ids_upd _ _ _ _ H4 _ Hu); done.
  Qed.
  Lemma ids_remove_node n g o g' : ids_ok g → gm_remove_node dir n g = Ok (o, g') → ids_ok g'.
  Proof.
    intros Hi. unfold gm_remove_node. destruct (g_nodes g !! n) as [nd|] eqn:Hn; [|by intros [= <- <-]].
    set (g1 := set_nodes _ g). assert (ids_ok g1) as H1.
    { intros k m. cbn. intros [_ ?]%lookup_delete_Some. by apply Hi. }
    destruct dir.
    - destruct (rfold _ (nm_neighbors nd) g1) as [g2| |] eqn:Hr; try done. cbn [rbind].
      assert (ids_ok g2) as H2 by (refine (ids_upds _ (λ _, nm_remove_in_edge n) _ _ H1 _ Hr); done).
      destruct (rfold _ (nm_in_neighbors nd) g2) as [g3| |] eqn:Hr3; try done. cbn [rbind].
      assert (ids_ok g3) as H3 by (apply (ids_upds _ (λ _ m, (nm_remove_edge n m).2) _ _ H2 ltac:(intros; apply nm_remove_id) Hr3)).
      destruct (usub _ _); try done. cbn. intros [= <- <-]. exact H3.
    - destruct (rfold _ (nm_neighbors nd) g1) as [g3| |] eqn:Hr3; try done. cbn [rbind].
      assert (ids_ok g3) as H3 by (apply (ids_upds _ (λ _ m, (nm_remove_edge n m).2) _ _ H1 ltac:(intros; apply nm_remove_id) Hr3)).
      destruct (usub _ _); try done. cbn. intros [= <- <-]. exact H3.
  Qed.
  Lemma ids_remove_edge x y g o g' : ids_ok g → gm_remove_edge dir x y g = Ok (o, g') → ids_ok g'.
  Proof.
    intros Hi. unfold gm_remove_edge. destruct (gm_has_edge g x y); [|by intros [= <- <-]].
    destruct (g_nodes g !! x) as [ns|] eqn:Hx; [|done]. cbn [unwrap rbind].
    destruct (nm_remove_edge y ns) as [e ns'] eqn:He. set (g1 := set_nodes _ g).
    assert (ids_ok g1) as H1. { apply ids_insert; [done|]. rewrite <-(Hi x ns Hx). pose proof (nm_remove_id y ns) as Hd. by rewrite He in Hd. }
    destruct dir.
    - destruct (upd_node y _ g1) as [g5| |] eqn:Hu; try done. cbn [rbind]. destruct (usub _ _); try done. cbn. intros [= <- <-].
      refine (ids_upd _ _ _ _ H1 _ Hu); done.
    - destruct (upd_node y _ g1) as [g5| |] eqn:Hu; try done. cbn [rbind]. destruct (usub _ _); try done. cbn. intros [= <- <-].
      apply (ids_upd _ _ _ _ H1 (nm_remove_id x) Hu).
  Qed.
  Lemma rmap_inv {A B} (f : A → B) r b : rmap f r = Ok b → ∃ a, r = Ok a ∧ f a = b.
  Proof. destruct r; cbn; intros [= <-]; eauto. Qed.
  Lemma ids_step o g r g' : ids_ok g → gm_step dir lt o g = Ok (r, g') → ids_ok g'.
  Proof.
    intros Hi. destruct o as [n l|x y l|n|x y|n l|x y l|l|l| |n l|x y l]; cbn [gm_step].
    - intros ([b g1] & Ha & [= <- <-])%rmap_inv. by eapply ids_add_node.
    - intros ([b g1] & Ha & [= <- <-])%rmap_inv. by eapply ids_add_edge.
    - intros ([b g1] & Ha & [= <- <-])%rmap_inv. by eapply ids_remove_node.
    - intros ([b g1] & Ha & [= <- <-])%rmap_inv. by eapply ids_remove_edge.
    - intros ([b g1] & Ha & [= <- <-])%rmap_inv. unfold gm_update_node_label in Ha. destruct (gm_has_node g n); [|by simplify_eq].
      apply rmap_inv in Ha as ([b' g2] & Ha & [= <- <-]). by eapply ids_add_node.
    - intros ([b g1] & Ha & [= <- <-])%rmap_inv. unfold gm_update_edge_label in Ha. destruct (gm_has_edge g x y); [|by simplify_eq].
      apply rmap_inv in Ha as ([b' g2] & Ha & [= <- <-]). by eapply ids_add_edge.
    - intros ([b g1] & Ha & [= <- <-])%rmap_inv. by eapply ids_node_label.
    - intros ([b g1] & Ha & [= <- <-])%rmap_inv. by eapply ids_edge_label.
    - intros [= <- <-]. exact Hi.
    - unfold gm_set_node_label_id. destruct (g_nodes g !! n) as [nd|] eqn:Hn; intros [= <- <-]; [|done].
      apply ids_insert; [done|]. exact (Hi n nd Hn).
    - intros ([b g1] & Ha & [= <- <-])%rmap_inv. unfold gm_set_edge_label_id in Ha. destruct (gm_has_edge g x y); [|by simplify_eq].
      destruct (g_nodes g !! x) as [ns|] eqn:Hx; [|done]. cbn [unwrap rbind] in Ha. unfold nm_set_neighbor_label in Ha.
      destruct (nm_nbrs ns !! y); simplify_eq; [|done]. apply ids_insert; [done|]. exact (Hi x ns Hx).
  Qed.
  Lemma run_id h : ∀ n, nm_id (nm_run h n).2 = nm_id n.
  Proof.
    intros n. destruct (nm_run h n) as [rs n'] eqn:Hr. destruct (node_history n h rs n' Hr) as [[? _] _]. done.
  Qed.
  Lemma ids_write k h g rs g' : ids_ok g → gm_node_write k h g = Ok (rs, g') → ids_ok g'.
  Proof.
    intros Hi. unfold gm_node_write. destruct (g_nodes g !! k) as [n|] eqn:Hk; [|done]. cbn [unwrap rbind].
    pose proof (run_id h n) as Hd. destruct (nm_run h n) as [rs' n']. intros [= <- <-]. cbn in Hd.
    apply ids_insert; [done|]. rewrite Hd. by apply Hi.
  Qed.
  Lemma ids_run h : ∀ g g', ids_ok g → rfold (λ g o, w_step dir lt o g) h g = Ok g' → ids_ok g'.
  Proof.
    induction h as [|o h IH]; intros g g' Hi; cbn [rfold]; [by intros [= <-]|].
    destruct (w_step dir lt o g) as [g1| |] eqn:Ho; try done. cbn [rbind]. apply IH.
    destruct o as [o|k hn]; cbn [w_step] in Ho; apply rmap_inv in Ho as ([r g2] & Ho & <-); cbn [snd].
    - exact (ids_step o g r g2 Hi Ho).
    - exact (ids_write k hn g r g2 Hi Ho).
  Qed.
  Lemma ids_reachable g : w_reachable dir lt g → ids_ok g.
  Proof. intros (nls & els & h & _ & _ & Hr). apply (ids_run h (gm_with_label_map nls els) g); [by intros k n|done]. Qed.

  (** The effect of writes through the handle of node [k]. *)
  Lemma edge_lid_eq it g s t : edge_lid (gm_view dir it g) s t = g_nodes g !! s ≫= λ n, nm_nbrs n !! t.
  Proof.
    unfold edge_lid. cbn [v_get_edge gm_view]. unfold gm_get_edge, gm_has_edge, nm_has_neighbor, nm_get_neighbor.
    destruct (g_nodes g !! s) as [n|]; [|done]. cbn [unwrap rbind mbind option_bind].
    destruct (nm_nbrs n !! t) as [l|]; [|by rewrite bool_decide_eq_false_2 by (by intros [? ?])].
    rewrite bool_decide_eq_true_2 by (by eexists). done.
  Qed.
  Lemma in_list_eq it g s t : in_list (gm_view dir it g) s t ↔ ∃ n, g_nodes g !! s = Some n ∧ t ∈ nm_in_neighbors n.
  Proof.
    unfold in_list. cbn [v_in_neighbors gm_view]. unfold gm_in_neighbors. destruct (g_nodes g !! s) as [n|].
    - split; [intros (l & [= <-] & Ht); by exists n|intros (n' & [= <-] & Ht); by eexists].
    - split; [intros (l & ? & _); done|intros (n' & ? & _); done].
  Qed.
  Lemma handle_missing k h g it : gm_node_write k h g = Panic ↔ v_has_node (gm_view dir it g) k = false.
  Proof.
    cbn [v_has_node gm_view]. unfold gm_has_node, gm_node_write. destruct (g_nodes g !! k) as [n|]; cbn [unwrap rbind].
    - destruct (nm_run h n). rewrite bool_decide_eq_true_2 by (by eexists). done.
    - rewrite bool_decide_eq_false_2 by (by intros [? ?]). done.
  Qed.
  Lemma handle_effect g it k h rs g' it' : w_reachable dir lt g → gm_node_write k h g = Ok (rs, g') →
    let V := gm_view dir it g in let V' := gm_view dir it' g' in
    let nb := nbr_after k (edge_lid V k) (reverse h) in let inn := in_after (in_list V k) (reverse h) in
    (* node k shows what the calls say *)
    (∀ t, v_has_edge V' k t = Ok (bool_decide (is_Some (nb t))) ∧ edge_lid V' k t = nb t) ∧
    (∃ l, v_neighbors V' k = Ok l ∧ v_degree V' k = Ok (length l) ∧ increasing l ∧ ∀ t, t ∈ l ↔ is_Some (nb t)) ∧
    (∃ l, v_in_neighbors V' k = Ok l ∧ v_in_degree V' k = Ok (length l) ∧ increasing l ∧ ∀ t, t ∈ l ↔ inn t) ∧
    (∃ l, v_get_node V k = Ok (Some (k, l)) ∧ v_get_node V' k = Ok (Some (k, label_after l (reverse h)))) ∧
    returns_all k (edge_lid V k) (in_list V k) h rs ∧
    (* every other node, the counts and the label lists are as before *)
    (∀ s, s ≠ k → v_get_node V' s = v_get_node V s ∧ v_neighbors V' s = v_neighbors V s ∧ v_degree V' s = v_degree V s ∧
       v_in_neighbors V' s = v_in_neighbors V s ∧ v_in_degree V' s = v_in_degree V s ∧
       ∀ t, v_has_edge V' s t = v_has_edge V s t ∧ v_get_edge V' s t = v_get_edge V s t) ∧
    (∀ s, v_has_node V' s = v_has_node V s) ∧ v_node_count V' = v_node_count V ∧ v_edge_count V' = v_edge_count V ∧
    v_max_seen_id V' = v_max_seen_id V ∧ v_node_label_map V' = v_node_label_map V ∧ v_edge_label_map V' = v_edge_label_map V.
  Proof.
    intros Hw Hwr V V' nb inn. pose proof (ids_reachable g Hw) as Hids.
    unfold gm_node_write in Hwr. destruct (g_nodes g !! k) as [n|] eqn:Hk; [|done]. cbn [unwrap rbind] in Hwr.
    destruct (nm_run h n) as [rs' n'] eqn:Hr. injection Hwr as -> <-.
    destruct (node_history n h rs n' Hr) as [Hs Hret]. rewrite (Hids k n Hk) in *.
    assert (∀ t, edge_lid V k t = nm_get_neighbor n t) as Hni. { intros t. unfold V. rewrite edge_lid_eq, Hk. done. }
    assert (∀ t, in_list V k t ↔ t ∈ nm_in_neighbors n) as Hii.
    { intros t. unfold V. rewrite in_list_eq, Hk. split; [by intros (? & [= <-] & ?)|by eauto]. }
    assert (∀ ni ni' rh x, (∀ t, ni t = ni' t) → nbr_after k ni rh x = nbr_after k ni' rh x) as Hnbx.
    { intros ni ni' rh x Hx. induction rh as [|o rh IH]; [apply Hx|]. cbn [nbr_after]. by rewrite IH. }
    assert (∀ (ii ii' : N → Prop) rh x, (∀ t, ii t ↔ ii' t) → in_after ii rh x ↔ in_after ii' rh x) as Hinx.
    { intros ii ii' rh x Hx. induction rh as [|o rh IH]; [apply Hx|]. destruct o; cbn [in_after]; by rewrite IH. }
    assert (node_shows k (label_after (nm_label n) (reverse h)) nb inn n') as Hsh.
    { eapply shows_ext; [exact Hs|intros x; by apply Hnbx|intros x; symmetry; by apply Hinx]. }
    clear Hs. set (g' := set_nodes _ g) in V'.
    assert (g_nodes g' !! k = Some n') as Hk' by apply lookup_insert.
    assert (∀ s, s ≠ k → g_nodes g' !! s = g_nodes g !! s) as Hne by (intros s ?; by apply lookup_insert_ne).
    split_and!; try done.
    - intros t. unfold V'. rewrite edge_lid_eq, Hk'. cbn [mbind option_bind v_has_edge gm_view]. unfold gm_has_edge. rewrite Hk'. split.
      + f_equal. apply eq_bool_prop_intro. rewrite !Is_true_true, bool_decide_eq_true. apply (ns_has _ _ _ _ _ Hsh).
      + apply (ns_get _ _ _ _ _ Hsh).
    - exists (nm_neighbors n'). cbn [v_neighbors v_degree gm_view V']. unfold gm_neighbors, gm_degree. rewrite Hk'.
      rewrite (ns_degree _ _ _ _ _ Hsh). split; [done|]. split; [done|]. apply (ns_neighbors _ _ _ _ _ Hsh).
    - exists (nm_in_neighbors n'). cbn [v_in_neighbors v_in_degree gm_view V']. unfold gm_in_neighbors, gm_in_degree. rewrite Hk'.
      rewrite (ns_in_degree _ _ _ _ _ Hsh). split; [done|]. split; [done|]. apply (ns_in_neighbors _ _ _ _ _ Hsh).
    - exists (nm_label n). cbn [v_get_node gm_view V V']. unfold gm_get_node. rewrite Hk, Hk'. cbn [fmap option_fmap option_map].
      rewrite (Hids k n Hk), (ns_id _ _ _ _ _ Hsh), (ns_label _ _ _ _ _ Hsh). done.
    - destruct Hret as [Hlen Hret]. split; [done|]. intros i o r Ho Hri. specialize (Hret i o r Ho Hri).
      destruct o, r; cbn [returns] in *; try done; rewrite ?(Hnbx _ _ _ _ Hni); try done; by rewrite (Hinx _ _ _ _ Hii).
    - intros s Hsk. cbn [v_get_node v_neighbors v_degree v_in_neighbors v_in_degree v_has_edge v_get_edge gm_view V V'].
      unfold gm_get_node, gm_neighbors, gm_degree, gm_in_neighbors, gm_in_degree, gm_get_edge, gm_has_edge. by rewrite (Hne s Hsk).
    - intros s. cbn [v_has_node gm_view V V']. unfold gm_has_node. destruct (decide (s = k)) as [->|Hsk].
      + rewrite Hk, Hk'. by rewrite !bool_decide_eq_true_2 by (by eexists).
      + by rewrite (Hne s Hsk).
    - cbn [v_node_count gm_view V V']. unfold gm_node_count, g'. cbn. apply map_size_insert_Some. by eexists.
  Qed.

  (** Writing both ends of an edge is add_edge without the count. *)
  Lemma both_ends_thm g s t label lid : (∀ it, v_has_node (gm_view dir it g) s = true) → (∀ it, v_has_node (gm_view dir it g) t = true) →
    gm_step dir lt (OAddEdgeLabel label) g = Ok (RLabelId lid, g) →
    ∃ g1 b g2, both_ends dir s t lid g = Ok g1 ∧ gm_step dir lt (OAddEdge s t label) g = Ok (RBool b, g2) ∧
      ∀ it, gm_view dir it g1 = with_edge_count (v_edge_count (gm_view dir it g)) (gm_view dir it g2) ∧
        v_edge_count (gm_view dir it g2) = S (v_edge_count (gm_view dir it g)).
  Proof.
    intros Hs Ht. specialize (Hs []). specialize (Ht []). cbn [v_has_node gm_view] in Hs, Ht.
    intros (p & Hl & [= <- Hg])%rmap_inv. cbn [gm_step]. unfold gm_add_edge. rewrite Hs. cbn [rbind]. rewrite Ht. cbn [rbind].
    destruct p as [lid g0]. cbn [fst snd] in *. subst g0. rewrite Hl. cbn [rbind].
    unfold gm_has_node in Hs, Ht. apply bool_decide_eq_true in Hs as [ns Hns], Ht as [nt Hnt].
    unfold both_ends, gm_node_write. rewrite Hns. cbn [unwrap rbind nm_run nm_step]. unfold nm_add_edge.
    cbn [rmap fst snd rbind]. set (g1 := set_nodes _ g).
    destruct dir.
    - unfold upd_node. destruct (g_nodes g1 !! t) as [n1|] eqn:H1; rewrite ?H1.
      + cbn [unwrap rbind rmap snd]. do 3 eexists. split; [reflexivity|]. split; [reflexivity|]. intros it. done.
      + exfalso. cbn in H1. destruct (decide (s = t)) as [->|]; [by rewrite lookup_insert in H1|rewrite lookup_insert_ne in H1 by done; congruence].
    - case_decide as Hst.
      + cbn [rbind rmap fst snd]. do 3 eexists. split; [reflexivity|]. split; [reflexivity|]. intros it. done.
      + unfold upd_node. destruct (g_nodes g1 !! t) as [n1|] eqn:H1; rewrite ?H1.
        * cbn [unwrap rbind rmap snd]. do 3 eexists. split; [reflexivity|]. split; [reflexivity|]. intros it. done.
        * exfalso. cbn in H1. rewrite lookup_insert_ne in H1 by done; congruence.
  Qed.
End props.

(** *** Cases *)
Definition handle_hist : list (wop N N) :=
  [WCall (OAddNode 1 None); WCall (OAddNode 2 None); WNode 1 [NAddEdge 2 None; NAddEdge 9 (Some 4)]]%N.
Lemma handle_bad (dir : bool) : ∃ g : graphmap N N, rfold (λ g o, w_step dir TU8 o g) handle_hist (gm_with_label_map [] []) = Ok g ∧
  w_reachable dir TU8 g ∧ hash_order g [1; 2]%N ∧
  let V := gm_view dir [1; 2]%N g in
  v_has_edge V 1 2 = Ok true ∧ v_has_edge V 2 1 = Ok false ∧ v_in_neighbors V 2 = Ok [] ∧
  v_has_edge V 1 9 = Ok true ∧ v_has_node V 9 = false ∧
  v_edge_count V = 0 ∧ v_edge_indices V = Ok [(1, 2); (1, 9)]%N ∧
  gm_step dir TU8 (ORemoveNode 1%N) g = Panic ∧
  (dir = true → gm_step dir TU8 (ORemoveEdge 1 2)%N g = Panic).
Proof.
  assert (∀ (r : res (graphmap N N)) (P : graphmap N N → Prop), match r with Ok g => P g | _ => False end → ∃ g, r = Ok g ∧ P g) as Hex.
  { intros [g| |] P HP; [by exists g|done..]. }
  destruct (Hex (rfold (λ g o, w_step dir TU8 o g) handle_hist (gm_with_label_map [] []))
    (λ g, (map_to_list (g_nodes g)).*1 ≡ₚ [1; 2]%N ∧
      let V := gm_view dir [1; 2]%N g in
  v_has_edge V 1%N 2%N = Ok true ∧ v_has_edge V 2%N 1%N = Ok false ∧ v_in_neighbors V 2%N = Ok [] ∧
  v_has_edge V 1%N 9%N = Ok true ∧ v_has_node V 9%N = false ∧
  v_edge_count V = 0 ∧ v_edge_indices V = Ok [(1, 2); (1, 9)]%N ∧
  gm_step dir TU8 (ORemoveNode 1%N) g = Panic ∧
  (dir = true → gm_step dir TU8 (ORemoveEdge 1 2)%N g = Panic))) as (g & Hg & Hp & H).
  { destruct dir; vm_compute; split_and!; try done; apply Permutation_swap || done. }
  exists g. split; [done|]. split; [|split; [unfold hash_order; by symmetry|exact H]].
  exists [], [], handle_hist. split; [constructor|]. split; [constructor|done].
Qed.
Lemma handle_case dir : ∃ (g : graphmap N N) rs g', w_reachable dir TU8 g ∧
  gm_node_write 1%N [NRemoveEdge 9; NAddInEdge 2]%N g = Ok (rs, g') ∧ rs = [NEdge (Some (1, 9, Some 4)); NBool true]%N.
Proof.
  destruct (handle_bad dir) as (g & Hg & Hw & _). exists g.
  assert (match gm_node_write 1%N [NRemoveEdge 9; NAddInEdge 2]%N g with Ok (rs, _) => rs = [NEdge (Some (1, 9, Some 4)); NBool true]%N | _ => False end) as H.
  { assert (match rfold (λ g o, w_step dir TU8 o g) handle_hist (gm_with_label_map [] []) with Ok g =>
      match gm_node_write 1%N [NRemoveEdge 9; NAddInEdge 2]%N g with Ok (rs, _) => rs = [NEdge (Some (1, 9, Some 4)); NBool true]%N | _ => False end | _ => False end) as H
      by (destruct dir; by vm_compute).
    by rewrite Hg in H. }
  destruct (gm_node_write _ _ g) as [[rs g']| |]; try done. by exists rs, g'.
Qed.
Lemma both_ends_case dir : ∃ g : graphmap N N, (∀ it, v_has_node (gm_view dir it g) 1%N = true) ∧ (∀ it, v_has_node (gm_view dir it g) 2%N = true) ∧
  gm_step dir TU8 (OAddEdgeLabel (Some 5%N)) g = Ok (RLabelId (Some 1%N), g).
Proof.
  assert (match gm_run dir TU8 [OAddNode 1 None; OAddEdge 2 3 (Some 7); OAddEdgeLabel (Some 5)]%N (@gm_with_label_map N N [] []) with
    | Ok (_, g) => gm_has_node g 1%N = true ∧ gm_has_node g 2%N = true ∧ gm_step dir TU8 (OAddEdgeLabel (Some 5%N)) g = Ok (RLabelId (Some 1%N), g)
    | _ => False end) as H by (destruct dir; by vm_compute).
  destruct (gm_run _ _ _ _) as [[rs g]| |]; try done. destruct H as (H1 & H2 & H3). exists g. split; [intros it; exact H1|]. split; [intros it; exact H2|exact H3].
Qed.
