(** reorder_id on every graph, whatever was written to label ids. *)
From Verif Require Import Base Api Spec BaseFacts SpecFacts Map MapFacts GraphMap GraphMapFacts
  GraphMapRefine GraphMapQueries GraphMapSim GraphMapThms GraphMapMore GraphMapFrame GraphMapProps ViewFacts SpecReorder Reorder ReorderFacts ReorderProps ReorderThms
  ReorderMain SpecReorderAny.

(** ** Loops that end *)
Lemma np_bind {A B} (r : res A) (k : A → res B) : r ≠ NoFuel → (∀ x, k x ≠ NoFuel) → rbind k r ≠ NoFuel.
Proof. destruct r; [intros _ H; apply H|done|done]. Qed.
Lemma np_rmap {A B} (f : A → B) r : r ≠ NoFuel → rmap f r ≠ NoFuel.
Proof. by destruct r. Qed.
Lemma np_fold {S A} (f : S → A → res S) l s : (∀ s x, f s x ≠ NoFuel) → rfold f l s ≠ NoFuel.
Proof. intros Hf. revert s. induction l as [|x l IH]; intros s; [done|]. cbn [rfold]. by apply np_bind. Qed.
Lemma np_mapl {A B} (f : A → res B) l : (∀ x, f x ≠ NoFuel) → rmapl f l ≠ NoFuel.
Proof. intros Hf. induction l as [|x l IH]; [done|]. cbn [rmapl]. apply np_bind; [done|]. intros y. by apply np_rmap. Qed.
Lemma np_unwrap {A} (o : option A) : unwrap o ≠ NoFuel.
Proof. by destruct o. Qed.
(** A loop that has to stop at one of its rounds stops. *)
Lemma fold_panic {S A} (f : S → A → res S) l s (I : S → Prop) x : x ∈ l → I s → (∀ s y, f s y ≠ NoFuel) → (∀ s y s', I s → f s y = Ok s' → I s') →
  (∀ s, I s → f s x = Panic) → rfold f l s = Panic.
Proof.
  intros Hx Hs Hn HI Hp. revert s Hs. induction l as [|y l IH]; intros s Hs; [by apply elem_of_nil in Hx|]. cbn [rfold].
  apply elem_of_cons in Hx as [->|Hx]; [by rewrite Hp|]. destruct (f s y) as [s'| |] eqn:E; [|done|by destruct (Hn s y)].
  cbn [rbind]. apply IH; [done|]. by apply (HI s y).
Qed.
Lemma mapl_panic {A B} (f : A → res B) l x : x ∈ l → (∀ y, f y ≠ NoFuel) → f x = Panic → rmapl f l = Panic.
Proof.
  intros Hx Hn Hp. induction l as [|y l IH]; [by apply elem_of_nil in Hx|]. cbn [rmapl].
  apply elem_of_cons in Hx as [->|Hx]; [by rewrite Hp|]. destruct (f y) as [z| |] eqn:E; [|done|by destruct (Hn y)]. cbn [rbind]. by rewrite IH.
Qed.

Section label_map.
  Context {X : Type} `{EqDecision X}.
  Lemma add_item_np (m : list X) x : sm_add_item m x ≠ NoFuel.
  Proof. unfold sm_add_item. destruct (is_contains m x); apply np_rmap; [apply np_unwrap|]. unfold usub. by case_match. Qed.
  Lemma label_map_np mp (old : list X) : reorder_label_map mp old ≠ NoFuel.
  Proof.
    apply np_rmap, np_fold. intros s i. apply np_bind; [apply np_unwrap|]. intros sl. apply np_bind; [apply np_unwrap|]. intros l.
    apply np_bind; [apply add_item_np|done].
  Qed.
  Lemma label_map_panic mp (old : list X) i : i ∈ mp → length old ≤ N.to_nat i → reorder_label_map mp old = Panic.
  Proof.
    intros Hi Ho. unfold reorder_label_map. rewrite (fold_panic _ _ _ (λ st : list (option X) * list X, length st.1 = length old) i); [done|exact Hi| |..].
    - cbn [fst]. unfold sm_items. by rewrite fmap_length.
    - intros s j. apply np_bind; [apply np_unwrap|]. intros sl. apply np_bind; [apply np_unwrap|]. intros l. apply np_bind; [apply add_item_np|done].
    - intros s j s' Hs. intros (sl & _ & H)%rbind_Ok. apply rbind_Ok in H as (l & _ & H). apply rbind_Ok in H as (p & _ & H). injection H as <-.
      cbn [fst]. by rewrite insert_length.
    - intros s Hs. cbn beta. unfold id_id. rewrite lookup_ge_None_2 by lia. done.
  Qed.
End label_map.

Section any.
  Context {NL EL : Type} `{EqDecision NL, EqDecision EL} (dir : bool) (idt lt : idty).
  Context (PN : list NL → option N → option NL → Prop) (PE : list EL → option N → option EL → Prop).
  Context (g : graphmap NL EL) (s : sstate NL EL) (Hrel : rel dir PN PE g s) (it : list N) (Hit : hash_order g it).
  Notation V := (gm_view dir it g).
  Lemma shown_node x i : v_get_node V x = Ok (Some (x, Some i)) ↔ ∃ n, g_nodes g !! x = Some n ∧ nm_label n = Some i.
  Proof using Hrel.
    cbn. unfold gm_get_node. split.
    - destruct (g_nodes g !! x) as [n|]; [|done]. cbn. intros [= ? Hl]. by exists n.
    - intros (n & Hn & Hl). rewrite Hn. cbn. destruct (with_node dir _ _ g s Hrel x n Hn) as [-> _]. by rewrite Hl.
  Qed.
  Lemma shown_edge x y l : v_get_edge V x y = Ok (Some (x, y, l)) ↔ adj (g_nodes g) x y = Some l.
  Proof using.
    cbn. unfold gm_get_edge, gm_has_edge, nm_has_neighbor, adj. destruct (g_nodes g !! x) as [n|]; [|done].
    destruct (nm_nbrs n !! y) as [l'|] eqn:E.
    - rewrite bool_decide_true by (by eexists). cbn [unwrap rbind]. unfold nm_get_neighbor. rewrite E. cbn. naive_solver.
    - rewrite bool_decide_false by (by intros [? [=]]). naive_solver.
  Qed.
  Lemma any_edge_list x y l : (x, y, l) ∈ gm_edge_list dir g it ↔ adj (g_nodes g) x y = Some l ∧ (dir = true ∨ (x ≤ y)%N).
  Proof using Hrel Hit.
    pose proof (r_abs _ _ _ _ _ Hrel) as Ha.
    assert (∀ l, (x, y, l) ∈ gm_edge_list dir g it → adj (g_nodes g) x y = Some l) as H1.
    { clear l. intros l. unfold gm_edge_list. intros (n & Hin & (k & Hn)%(with_values g it Hit))%elem_of_list_bind.
      destruct (with_node dir _ _ g s Hrel k n Hn) as [Hid _].
      assert (nm_id n = x ∧ nm_nbrs n !! y = Some l) as [<- Hy].
      { clear Hrel Ha. destruct dir.
        - apply elem_of_list_fmap in Hin as ([y' l'] & [= -> -> ->] & Hin). unfold nm_neighbors_full in Hin. by apply elem_of_bt_iter in Hin.
        - apply elem_of_list_fmap in Hin as ([y' l'] & [= -> -> ->] & Hin). unfold nm_non_less_neighbors_full in Hin.
          apply elem_of_list_filter in Hin as [_ Hin]. by apply elem_of_bt_iter in Hin. }
      unfold adj. by rewrite Hid, Hn. }
    assert ((x, y) ∈ gm_edge_indices dir g it ↔ is_Some (adj (g_nodes g) x y) ∧ (dir = true ∨ (x ≤ y)%N)) as H2.
    { rewrite (proj2 (edge_indices_exact _ _ _ _ _ _ Ha Hit) (x, y)). rewrite wf_stored by apply Ha. cbn [fst snd].
      rewrite (ar_dir _ _ _ _ _ Ha). rewrite (abs_adj _ _ _ _ _ x y Ha). done. }
    assert ((gm_edge_list dir g it).*1 = gm_edge_indices dir g it) as H3.
    { unfold gm_edge_list, gm_edge_indices. clear. induction (gm_values g it) as [|n l IH]; [done|].
      rewrite !bind_cons, fmap_app, IH. f_equal.
      destruct dir; [unfold nm_neighbors_full, nm_neighbors, bt_keys|unfold nm_non_less_neighbors_full, nm_non_less_neighbors];
        by rewrite <-!list_fmap_compose. }
    split.
    - intros Hin. split; [by apply H1|]. apply H2. rewrite <-H3. apply elem_of_list_fmap. by exists (x, y, l).
    - intros [Hl Ho]. assert ((x, y) ∈ (gm_edge_list dir g it).*1) as Hin by (rewrite H3; apply H2; split; [by eexists|done]).
      apply elem_of_list_fmap in Hin as ([[x' y'] l'] & [= <- <-] & Hin).
      pose proof (H1 _ Hin) as E. rewrite Hl in E. by injection E as ->.
  Qed.
  Lemma any_node_ids i : i ∈ node_label_ids g it ↔ node_lid g i.
  Proof using Hit.
    unfold node_label_ids, gm_node_list. rewrite elem_of_list_omap. split.
    - intros ([k l] & (n & [= -> ->] & (x & Hx)%(with_values g it Hit))%elem_of_list_fmap & Hl). by exists x, n.
    - intros (k & n & Hn & Hi). exists (nm_id n, nm_label n). split; [|done]. apply elem_of_list_fmap. exists n. split; [done|].
      apply (with_values g it Hit). by exists k.
  Qed.
  Lemma any_edge_ids i : i ∈ edge_label_ids dir g it ↔ ∃ x y, adj (g_nodes g) x y = Some (Some i) ∧ (dir = true ∨ (x ≤ y)%N).
  Proof using Hrel Hit.
    unfold edge_label_ids. rewrite elem_of_list_omap. split.
    - intros ([[x y] l] & Hin & Hl). cbn in Hl. subst l. exists x, y. by apply any_edge_list.
    - intros (x & y & Hxy). exists (x, y, Some i). split; [by apply any_edge_list|done].
  Qed.
  Lemma order_covers items o (P : N → Prop) : counter_order items o → (∀ i, P i → i ∈ items) → (∀ i, i ∈ items → (i < id_card lt)%N) →
    sm_from_iter (label_order items o) = Ok (label_order items o) ∧ covers lt (Some (label_order items o)) P.
  Proof using.
    intros Ho HP Hlt. pose proof (label_order_perm items o Ho) as Hp. destruct Ho as [Hnd Ho].
    assert (NoDup (label_order items o)) as Hn by (by rewrite Hp).
    split; [by rewrite from_iter_from_vec, from_vec_id|]. split; [intros x Hx; rewrite Hp; by apply Ho, HP|].
    destruct (decide (N.of_nat (length (label_order items o)) ≤ id_card lt)%N) as [|Hgt]; [done|exfalso].
    assert (N.to_nat (id_card lt) < length (label_order items o)) as Hl by lia.
    assert (length (N.to_nat <$> label_order items o) ≤ N.to_nat (id_card lt)) as Hle.
    { rewrite <-(seq_length (N.to_nat (id_card lt)) 0). apply submseteq_length, NoDup_submseteq.
      - apply NoDup_fmap_2; [intros a b; lia|done].
      - intros k (i & -> & Hi)%elem_of_list_fmap. rewrite Hp in Hi. apply Ho, Hlt in Hi. apply elem_of_seq. lia. }
    rewrite fmap_length in Hle. lia.
  Qed.
  Lemma via_np t o x : via t o x ≠ NoFuel.
  Proof using. destruct o; [|done]. cbn [via]. apply np_bind; [apply np_unwrap|done]. Qed.
  Lemma via_opt_np t o x : via_opt t o x ≠ NoFuel.
  Proof using. destruct x; [|done]. cbn [via_opt]. apply np_rmap, via_np. Qed.
  Lemma row_np im elm (p : N * option N) : (let* x := via idt im p.1 in let* l := via_opt lt elm p.2 in Ok (x, l)) ≠ NoFuel.
  Proof using. apply np_bind; [apply via_np|]. intros x. apply np_bind; [apply via_opt_np|done]. Qed.
  Lemma node_np im nlm elm n : reorder_node idt lt im nlm elm n ≠ NoFuel.
  Proof using.
    unfold reorder_node. apply np_bind; [apply via_np|]. intros x. apply np_bind; [apply via_opt_np|]. intros l.
    apply np_bind; [|intros nb; apply np_bind; [|done]].
    - assert (rmap bt_collect (rmapl (λ p : N * option N, let* x := via idt im p.1 in let* l := via_opt lt elm p.2 in Ok (x, l)) (bt_iter (nm_nbrs n))) ≠ NoFuel).
      { apply np_rmap, np_mapl, row_np. }
      by destruct im, elm.
    - destruct im; [|done]. apply np_rmap, np_mapl, via_np.
  Qed.
  Lemma with_np im nlm elm : gm_reorder_id_with idt lt it im nlm elm g ≠ NoFuel.
  Proof using.
    assert ((let* m := rfold (λ m n, let* n' := reorder_node idt lt im nlm elm n in Ok (<[nm_id n' := n']> m)) (gm_values g it) ∅ in
      let* nls := (match nlm with Some mp => reorder_label_map mp (g_nlm g) | None => Ok (g_nlm g) end) in
      let* els := (match elm with Some mp => reorder_label_map mp (g_elm g) | None => Ok (g_elm g) end) in
      Ok (GraphMap m (gm_edge_count g) nls els (list_max_N (map_to_list m).*1))) ≠ NoFuel).
    { apply np_bind; [apply np_fold; intros; apply np_bind; [apply node_np|done]|]. intros m.
      apply np_bind; [destruct nlm; [apply label_map_np|done]|]. intros nls. apply np_bind; [destruct elm; [apply label_map_np|done]|done]. }
    unfold gm_reorder_id_with. by destruct im, nlm, elm.
  Qed.
  Lemma with_panic im nlm elm :
    (∃ n, n ∈ gm_values g it ∧ reorder_node idt lt im nlm elm n = Panic) ∨
    (match nlm with Some mp => reorder_label_map mp (g_nlm g) = Panic | None => False end) ∨
    (match elm with Some mp => reorder_label_map mp (g_elm g) = Panic | None => False end) →
    (is_Some nlm ∨ is_Some elm) → gm_reorder_id_with idt lt it im nlm elm g = Panic.
  Proof using.
    intros Hp Hs. pose proof (with_np im nlm elm) as Hn.
    assert (gm_reorder_id_with idt lt it im nlm elm g =
     (let* m := rfold (λ m n, let* n' := reorder_node idt lt im nlm elm n in Ok (<[nm_id n' := n']> m)) (gm_values g it) ∅ in
      let* nls := (match nlm with Some mp => reorder_label_map mp (g_nlm g) | None => Ok (g_nlm g) end) in
      let* els := (match elm with Some mp => reorder_label_map mp (g_elm g) | None => Ok (g_elm g) end) in
      Ok (GraphMap m (gm_edge_count g) nls els (list_max_N (map_to_list m).*1)))) as E.
    { unfold gm_reorder_id_with. destruct Hs as [[? ->]|[? ->]]; [by destruct im|by destruct im, nlm]. }
    rewrite E in *. clear E Hs. destruct Hp as [(n & Hin & Hp)|[Hp|Hp]].
    - rewrite (fold_panic _ _ _ (λ _, True) n); [done|done|done| |done|].
      + intros m n'. apply np_bind; [apply node_np|done].
      + intros m _. by rewrite Hp.
    - destruct nlm as [mp|]; [|done]. rewrite Hp in *. cbn [rbind] in *. by destruct (rfold _ _ _).
    - destruct elm as [mp|]; [|done]. rewrite Hp in *. cbn [rbind] in *. destruct (rfold _ _ _); [|done|done]. cbn [rbind] in *.
      by destruct (match nlm with Some mp0 => reorder_label_map mp0 (g_nlm g) | None => Ok (g_nlm g) end).
  Qed.
End any.

Section main.
  Context {NL EL : Type} `{EqDecision NL, EqDecision EL} (dir : bool) (idt lt : idty).
  Implicit Types g : graphmap NL EL.
  Lemma lookup_labels {X} (ls : list X) o (P : N → Prop) i : covers lt o P → P i → (∀ j, i ∈ default [] o → j ∈ default [] o → N.to_nat j < length ls) →
    match o with Some mp => new_labels o ls !! N.to_nat (vf lt o i) = ls !! N.to_nat i | None => True end.
  Proof using.
    destruct o as [mp|]; [|done]. intros Hc Hi Hb. destruct (vf_index lt mp P i Hc Hi) as (k & _ & Hk & -> & _). rewrite Nat2N.id. cbn [new_labels].
    apply (omap_total (λ i, ls !! N.to_nat i)); [|done]. intros x Hx. apply lookup_lt_is_Some. apply Hb; [|done]. by eapply elem_of_list_lookup_2.
  Qed.
  Lemma reorder_exact g it no eo fn fnl fel :
    gm_reachable dir lt g → hash_order g it →
    let V := gm_view dir it g in
    (∀ x, v_has_node V x = true → (x < id_card idt)%N) → label_ids_typed lt V →
    counter_order (node_label_ids g it) no → counter_order (edge_label_ids dir g it) eo →
    ((fnl = true ∧ nameless_node V) ∨ (fel = true ∧ nameless_edge dir V) → gm_reorder_id dir idt lt it no eo fn fnl fel g = Panic) ∧
    (¬ ((fnl = true ∧ nameless_node V) ∨ (fel = true ∧ nameless_edge dir V)) →
     ∃ R g' f, gm_reorder_id dir idt lt it no eo fn fnl fel g = Ok R ∧ rr_graph R = Some g' ∧
      (∀ x, v_has_node V x = true → rr_find_new_node_id idt R x = Ok (f x)) ∧
      ∀ it', hash_order g' it' →
        let V' := gm_view dir it' g' in
        (∀ y, v_has_node V' y = true ↔ ∃ x, v_has_node V x = true ∧ f x = y) ∧
        (∀ x y, v_has_node V x = true → v_has_node V y = true →
          (f x = f y → x = y) ∧
          v_has_edge V' (f x) (f y) = v_has_edge V x y ∧
          v_node_label V' (f x) = v_node_label V x ∧
          v_edge_label V' (f x) (f y) = v_edge_label V x y) ∧
        v_node_count V' = v_node_count V ∧ v_edge_count V' = v_edge_count V).
  Proof using.
    intros [s H]%(reach_skrel dir lt) Hit V Hid [Htn Hte] Hno Heo.
    assert (∀ x, v_has_node V x = true ↔ a_has_node (sp_g s) x) as Hnode.
    { intros x. cbn. unfold gm_has_node. rewrite bool_decide_eq_true. eapply abs_has_node. apply (r_abs _ _ _ _ _ H). }
    set (im := if fn then Some (node_order g it) else None).
    set (nlm := if fnl then Some (label_order (node_label_ids g it) no) else None).
    set (elm := if fel then Some (label_order (edge_label_ids dir g it) eo) else None).
    assert (covers idt im (a_has_node (sp_g s))) as Hc.
    { subst im. destruct fn; [|done]. eapply node_order_covers; [exact H|done|]. intros x Hx. apply Hid. by apply Hnode. }
    destruct (order_covers lt (node_label_ids g it) no (node_lid g) Hno) as [Hn1 Hn2].
    { intros i. apply (any_node_ids g it Hit). }
    { intros i (x & n & Hx)%(any_node_ids g it Hit). apply (Htn x). apply (shown_node dir _ _ g s H). by exists n. }
    destruct (order_covers lt (edge_label_ids dir g it) eo (λ i, i ∈ edge_label_ids dir g it) Heo) as [He1 He2]; [done|..].
    { intros i (x & y & Hx & _)%(any_edge_ids dir _ _ g s H it Hit). apply (Hte x y). by apply shown_edge. }
    assert (gm_reorder_id dir idt lt it no eo fn fnl fel g =
      (let* g' := gm_reorder_id_with idt lt it im nlm elm g in Ok (ReorderResult im (Some g')))) as Erun.
    { unfold gm_reorder_id.
      assert ((if fn then rmap Some (sm_from_iter (node_order g it)) else Ok None) = Ok im) as ->.
      { subst im. destruct fn; [|done]. rewrite from_iter_from_vec. by rewrite from_vec_id by (by eapply node_order_NoDup). }
      cbn [rbind]. rewrite Hn1, He1. subst nlm elm. by destruct fnl, fel. }
    rewrite Erun. clear Erun.
    assert (∀ i, i ∈ label_order (node_label_ids g it) no ↔ node_lid g i) as Hnel.
    { intros i. rewrite (label_order_perm _ _ Hno). destruct Hno as [_ Ho]. rewrite Ho. apply (any_node_ids g it Hit). }
    assert (∀ i, i ∈ label_order (edge_label_ids dir g it) eo ↔ i ∈ edge_label_ids dir g it) as Heel.
    { intros i. rewrite (label_order_perm _ _ Heo). destruct Heo as [_ Ho]. apply Ho. }
    split.
    { intros Hbad. rewrite (with_panic idt lt g it im nlm elm); [done| |].
      2:{ subst nlm elm. destruct Hbad as [[-> _]|[-> _]]; [left|right]; by eexists. }
      destruct Hbad as [[-> (x & i & Hx & Hlen)]|[-> (x & y & i & Hxy & Hlen)]].
      - right. left. subst nlm. apply (label_map_panic _ _ i); [|exact Hlen]. apply Hnel.
        apply (shown_node dir _ _ g s H) in Hx as (n & Hn & Hl). by exists x, n.
      - apply shown_edge in Hxy. destruct (decide (i ∈ edge_label_ids dir g it)) as [Hin|Hni].
        + right. right. subst elm. apply (label_map_panic _ _ i); [by apply Heel|]. destruct Hlen as [Hlen|[Hd Hno']]; [exact Hlen|].
          apply (any_edge_ids dir _ _ g s H it Hit) in Hin as (a & b & Hab & [Ho|Ho]); [congruence|]. destruct (Hno' a b Ho). by apply shown_edge.
        + left. unfold adj in Hxy. destruct (g_nodes g !! x) as [n|] eqn:Hn; [|done]. exists n. split; [apply (with_values g it Hit); by exists x|].
          pose proof (node_np idt lt im nlm elm n) as Hnp. unfold reorder_node in *.
          destruct (with_node dir _ _ g s H x n Hn) as [Hid' Hx]. rewrite (via_ok idt im _ (nm_id n) Hc) in * by (by rewrite Hid'). cbn [rbind] in *.
          destruct (via_opt lt nlm (nm_label n)); [|done|done]. cbn [rbind] in *. clear Hnp. subst elm.
          assert (rmapl (λ p : N * option N, let* x := via idt im p.1 in let* l := via_opt lt (Some (label_order (edge_label_ids dir g it) eo)) p.2 in Ok (x, l))
            (bt_iter (nm_nbrs n)) = Panic) as Hrow.
          { apply (mapl_panic _ _ (y, Some i)); [by apply elem_of_bt_iter|apply row_np|]. cbn [fst snd].
            destruct (with_nbr dir _ _ g s H x n y (Some i) Hn Hxy) as (_ & Hy & _). rewrite (via_ok idt im _ y Hc Hy). cbn [rbind via_opt via].
            unfold sm_find_index. destruct (is_get_full (label_order (edge_label_ids dir g it) eo) i) as [k|] eqn:Ek; [|done].
            apply get_full_Some, elem_of_list_lookup_2, Heel in Ek. done. }
          rewrite Hrow. by destruct im. }
    intros Hgood.
    assert (∀ i, fnl = true → node_lid g i → N.to_nat i < length (g_nlm g)) as Hgn.
    { intros i -> (x & n & Hx). destruct (decide (N.to_nat i < length (g_nlm g))) as [|Hge]; [done|]. exfalso. apply Hgood. left. split; [done|].
      exists x, i. split; [|cbn; lia]. apply (shown_node dir _ _ g s H). by exists n. }
    assert (∀ i, fel = true → edge_lid g i → N.to_nat i < length (g_elm g) ∧ i ∈ edge_label_ids dir g it) as Hgel.
    { intros i -> (x & y & Hxy). destruct (decide (N.to_nat i < length (g_elm g) ∧ i ∈ edge_label_ids dir g it)) as [|Hge]; [done|]. exfalso. apply Hgood.
      right. split; [done|]. exists x, y, i. split; [by apply shown_edge|].
      destruct (decide (N.to_nat i < length (g_elm g))) as [Hl|Hl]; [right|left; cbn; lia].
      assert (i ∉ edge_label_ids dir g it) as Hni by naive_solver. split.
      - destruct (bool_decide_reflect (dir = true)) as [Hd|Hd]; [|by destruct dir]. exfalso. apply Hni. apply (any_edge_ids dir _ _ g s H it Hit). exists x, y. by split; [|left].
      - intros a b Hab Hs. apply Hni. apply (any_edge_ids dir _ _ g s H it Hit). exists a, b. split; [by apply shown_edge in Hs|by right]. }
    assert (covers lt nlm (node_lid g)) as Hcn by (subst nlm; by destruct fnl).
    assert (covers lt elm (edge_lid g)) as Hce.
    { subst elm. destruct fel; [|done]. destruct He2 as [_ Hlen]. split; [|done]. intros i Hi. apply Heel. by apply Hgel. }
    assert (NoDup (g_nlm g) ∧ NoDup (g_elm g)) as [Hd1 Hd2].
    { rewrite (r_nls _ _ _ _ _ H), (r_els _ _ _ _ _ H). split; apply H. }
    destruct (reorder_with_ok dir idt lt _ _ g s H it Hit im nlm elm) as (g' & mx & Hg' & Htab & HR & Hr); try done.
    { subst nlm. destruct fnl; [|done]. cbn [new_labels]. pose proof (label_order_perm _ _ Hno) as Hp. destruct Hno as [Hnd _].
      split; [apply label_map_spec|apply label_map_NoDup]; try done; [by rewrite Hp| |by rewrite Hp].
      intros i Hi%Hnel. by apply Hgn. }
    { subst elm. destruct fel; [|done]. cbn [new_labels]. pose proof (label_order_perm _ _ Heo) as Hp. destruct Heo as [Hnd _].
      split; [apply label_map_spec|apply label_map_NoDup]; try done; [by rewrite Hp| |by rewrite Hp].
      intros i Hi%Heel. apply (any_edge_ids dir _ _ g s H it Hit) in Hi as (x & y & Hxy & _). apply Hgel; [done|]. by exists x, y. }
    rewrite Hg'. cbn [rbind]. exists (ReorderResult im (Some g')), g', (vf idt im). split; [done|split; [done|split]].
    - intros x Hx. unfold rr_find_new_node_id. cbn [rr_map]. apply (via_ok idt im (a_has_node (sp_g s))); [done|by apply Hnode].
    - intros it' Hit'. cbv zeta. set (V' := gm_view dir it' g').
      assert (∀ x, v_has_node V' x = true ↔ a_has_node (a_rename (vf idt im) (sp_g s)) x) as Hnode'.
      { intros x. cbn. unfold gm_has_node. rewrite bool_decide_eq_true. eapply abs_has_node. apply (r_abs _ _ _ _ _ Hr). }
      assert (∀ x n, g_nodes g !! x = Some n → g_nodes g' !! vf idt im x = Some (new_node idt lt im nlm elm n)) as Hlk.
      { intros x n Hx. rewrite Htab. apply (new_table_lookup dir idt lt _ _ g s H it Hit im nlm elm Hc). by exists x, n. }
      assert (g_nlm g' = new_labels nlm (g_nlm g) ∧ g_elm g' = new_labels elm (g_elm g) ∧ g_nedges g' = g_nedges g) as (Hnl & Hel & Hc1).
      { split_and!.
        - rewrite (r_nls _ _ _ _ _ Hr). cbn [sp_nls]. by rewrite (r_nls _ _ _ _ _ H).
        - rewrite (r_els _ _ _ _ _ Hr). cbn [sp_els]. by rewrite (r_els _ _ _ _ _ H).
        - rewrite (r_count _ _ _ _ _ Hr). symmetry. apply (r_count _ _ _ _ _ H). }
      assert (∀ i, node_lid g i → new_labels nlm (g_nlm g) !! N.to_nat (vf lt nlm i) = g_nlm g !! N.to_nat i) as Hln.
      { intros i Hi. subst nlm. destruct fnl; [|done]. apply (lookup_labels (g_nlm g) (Some _) (node_lid g) i); [done|done|].
        cbn [default from_option id]. intros j _ Hj%Hnel. by apply Hgn. }
      assert (∀ i, edge_lid g i → new_labels elm (g_elm g) !! N.to_nat (vf lt elm i) = g_elm g !! N.to_nat i) as Hle.
      { intros i Hi. subst elm. destruct fel; [|done]. apply (lookup_labels (g_elm g) (Some _) (edge_lid g) i); [done|done|].
        cbn [default from_option id]. intros j _ Hj%Heel. apply (any_edge_ids dir _ _ g s H it Hit) in Hj as (x & y & Hxy & _). apply Hgel; [done|]. by exists x, y. }
      assert (∀ x n y, g_nodes g !! x = Some n → a_has_node (sp_g s) y →
        nm_nbrs (new_node idt lt im nlm elm n) !! vf idt im y = vfo lt elm <$> nm_nbrs n !! y) as Hnb.
      { intros x n y Hn Hy. apply option_eq. intros l.
        rewrite (new_nbrs dir idt lt _ _ g s H im nlm elm Hc Hce x) by exact Hn. split.
        - intros (t & l0 & Ht & Hf & <-). apply (vf_inj idt im _ _ _ Hc) in Hf; [subst t; by rewrite Ht| |done].
          by destruct (with_nbr dir _ _ g s H x n t l0 Hn Ht) as (_ & ? & _).
        - intros (l0 & Hl0 & ->)%fmap_Some. by exists y, l0. }
      split; [|split; [|split]].
      + intros y. rewrite Hnode'. setoid_rewrite Hnode. split.
        * intros [l Hl]. apply (rn_nodes _ _ _ HR) in Hl as (x & Hx & <-). exists x. split; [by eexists|done].
        * intros (x & [l Hl] & <-). exists l. apply (rn_nodes _ _ _ HR). by exists x.
      + intros x y Hx%Hnode Hy%Hnode. split; [by apply HR|].
        assert (∃ n, g_nodes g !! x = Some n) as [n Hn].
        { destruct (abs_has_node _ _ _ _ _ x (r_abs _ _ _ _ _ H)) as [_ Hh]. by destruct (Hh Hx) as [n ?]; exists n. }
        assert (v_get_edge V' (vf idt im x) (vf idt im y) =
          rmap (option_map (λ e, (vf idt im x, vf idt im y, vfo lt elm e.2))) (v_get_edge V x y)) as Hge.
        { subst V V'. cbn. unfold gm_get_edge, gm_has_edge, nm_has_neighbor. rewrite (Hlk x n Hn), Hn.
          rewrite (Hnb x n y Hn Hy). destruct (nm_nbrs n !! y) as [l|] eqn:Hl; [|done].
          rewrite !bool_decide_true by (by eexists). cbn [unwrap rbind]. unfold nm_get_neighbor.
          rewrite (Hnb x n y Hn Hy), Hl. done. }
        split; [|split].
        * subst V V'. cbn. f_equal. unfold gm_has_edge, nm_has_neighbor. rewrite (Hlk x n Hn), Hn, (Hnb x n y Hn Hy). by destruct (nm_nbrs n !! y).
        * unfold v_node_label. subst V V'. cbn. unfold gm_get_node. rewrite (Hlk x n Hn), Hn. cbn [fmap option_fmap option_map rbind].
          cbn [new_node nm_label snd]. destruct (nm_label n) as [i|] eqn:Hi; [|done]. cbn. rewrite Hnl. unfold sm_get_item, id_id.
          rewrite (Hln i); [done|]. by exists x, n.
        * unfold v_edge_label. rewrite Hge. subst V. destruct (v_get_edge (gm_view dir it g) x y) as [[[[a b] c]|]| |] eqn:Hxy; cbn [rmap option_map rbind snd]; try done.
          destruct c as [i|]; [|done]. cbn. subst V'. cbn. rewrite Hel. unfold sm_get_item, id_id. rewrite (Hle i); [done|].
          exists x, y. apply (shown_edge dir g it). cbn [gm_view v_get_edge] in *. rewrite Hxy. unfold gm_get_edge in Hxy.
          destruct (gm_has_edge g x y); [|done]. rewrite Hn in Hxy. cbn [unwrap rbind] in Hxy. destruct (nm_get_neighbor n y); [|done]. cbn in Hxy. by injection Hxy as -> -> ->.
      + subst V V'. cbn. unfold gm_node_count.
        assert (size (g_nodes g) = size (ag_nodes (sp_g s))) as ->.
        { rewrite <-(lists_exactly_length it (ag_nodes (sp_g s))); [|split; [by eapply hash_order_NoDup|by apply (has_node_it dir _ _ g s H it Hit)]].
          symmetry. apply lists_exactly_length. split; [by eapply hash_order_NoDup|]. intros x. by apply hash_order_elem. }
        rewrite <-(rename_num_nodes (vf idt im) (sp_g s)); [|apply (f_inj idt s im Hc)].
        rewrite <-(lists_exactly_length it' (ag_nodes (a_rename (vf idt im) (sp_g s)))); [|split; [by eapply hash_order_NoDup|by apply (has_node_it dir _ _ g' _ Hr it' Hit')]].
        symmetry. apply lists_exactly_length. split; [by eapply hash_order_NoDup|]. intros x. by apply hash_order_elem.
      + done.
  Qed.
End main.
