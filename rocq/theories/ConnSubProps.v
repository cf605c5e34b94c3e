(** ConnSubgraph. *)
From Verif Require Import Base BaseFacts Api Spec SpecFacts SpecOps SpecConn ConnComp ConnCompFacts ConnCompProps Map GraphMap GraphMapProps GraphMapThms GraphMapQueries ViewFacts GraphOps GraphOpsFacts GraphOpsProps TraverseProps.

(** Calls that only add. *)
Definition is_add {NL EL} (o : gop NL EL) : bool := match o with OAddNode _ _ | OAddEdge _ _ _ => true | _ => false end.
Lemma adds_ok {NL EL} `{EqDecision NL, EqDecision EL} dir lt (h : list (gop NL EL)) :
  (∀ o, o ∈ h → is_add o = true) → ∃ g, rmap snd (gm_run dir lt h gm_new) = Ok g.
Proof.
  intros Hh.
  assert (strip h = h) as Hs.
  { induction h as [|o h IH]; [done|]. unfold strip. rewrite filter_cons_True; [|by destruct o; specialize (Hh _ (elem_of_list_here _ _))].
    f_equal. apply IH. intros; apply Hh; set_solver. }
  pose proof (structure dir lt [] [] h ltac:(constructor) ltac:(constructor)) as Hst. rewrite Hs in Hst.
  assert (∀ s, ∃ rs s', spec_run h s = SOk (rs, s')) as Hr.
  { clear -Hh. induction h as [|o h IH]; intros s; [by eexists _, _|]. cbn [spec_run].
    specialize (Hh o ltac:(set_solver)) as Ho.
    destruct o; try done; cbn [spec_step];
      (edestruct IH as (rs & s' & ->); [intros; apply Hh; set_solver|]; by eexists _, _). }
  destruct (Hr (s_init dir [] [])) as (rs & s & Hr'). rewrite Hr' in Hst. destruct Hst as (rs' & g & Hg & _).
  exists g. unfold gm_new. unfold gm_with_label_map in Hg. by rewrite Hg.
Qed.

Section place.
  Context {NL EL : Type} `{EqDecision NL, EqDecision EL} (dir : bool) (lt : idty).
  Notation graph := (graphmap NL EL).

  Lemma root_index roots r : match root_to_subgraph roots r with
    | Some i => roots !! i = Some r | None => r ∉ roots end.
  Proof.
    induction roots as [|r' roots IH]; cbn [root_to_subgraph]; [set_solver|].
    destruct (decide (r' = r)) as [->|]; [done|]. destruct (root_to_subgraph roots r); cbn; [done|set_solver].
  Qed.
  Definition ops_at (r : N) (d : list (N * gop NL EL)) : list (gop NL EL) := (filter (λ p, p.1 = r) d).*2.
  Record csinv (d : list (N * gop NL EL)) (cs : csub) : Prop := {
    cv_nd : NoDup (cs_roots cs);
    cv_roots : ∀ r, r ∈ cs_roots cs ↔ r ∈ d.*1;
    cv_len : length (cs_subs cs) = length (cs_roots cs);
    cv_subs : ∀ i r, cs_roots cs !! i = Some r → ∃ g : graph, cs_subs cs !! i = Some g ∧
      rmap snd (gm_run dir lt (ops_at r d) gm_new) = Ok g;
  }.
  Lemma ops_at_app r d r' o : ops_at r (d ++ [(r', o)]) = ops_at r d ++ (if decide (r' = r) then [o] else []).
  Proof. unfold ops_at. rewrite filter_app, fmap_app. f_equal. rewrite filter_cons. simpl. by destruct (decide (r' = r)). Qed.
  Lemma ops_at_nil r d : r ∉ d.*1 → ops_at r d = [].
  Proof.
    unfold ops_at. induction d as [|[r' o] d IH]; [done|]. csimpl. intros [? ?]%not_elem_of_cons.
    rewrite filter_cons_False by (simpl; congruence). by apply IH.
  Qed.
  Lemma run_one h o (g : graph) : rmap snd (gm_run dir lt h gm_new) = Ok g →
    rmap snd (gm_run dir lt (h ++ [o]) gm_new) = rmap snd (gm_step dir lt o g).
  Proof.
    intros Hh. rewrite gm_run_app, Hh. cbn [rbind gm_run]. by destruct (gm_step dir lt o g) as [[]| |].
  Qed.
  Lemma place_spec d cs r o (f : graph → res graph) :
    csinv d cs → (∀ g, f g = rmap snd (gm_step dir lt o g)) →
    (∀ p, p ∈ d → is_add p.2 = true) → is_add o = true →
    ∃ cs', cs_place f r cs = Ok cs' ∧ csinv (d ++ [(r, o)]) cs' ∧ cs_cc cs' = cs_cc cs.
  Proof.
    intros [Hnd Hroots Hlen Hsubs] Hf Hd Ho. unfold cs_place. pose proof (root_index (cs_roots cs) r) as Hi.
    destruct (adds_ok dir lt (ops_at r d ++ [o])) as [g' Hg'].
    { intros o' [Hin| ->%elem_of_list_singleton]%elem_of_app; [|done]. apply elem_of_list_fmap in Hin as (p & -> & Hp).
      apply elem_of_list_filter in Hp as [_ Hp]. by apply Hd. }
    destruct (root_to_subgraph (cs_roots cs) r) as [i|].
    - destruct (Hsubs i r Hi) as (g & Hg & Hrun). rewrite Hg. cbn [unwrap rbind]. rewrite Hf.
      rewrite (run_one _ _ _ Hrun) in Hg'. rewrite Hg'. cbn [rbind]. eexists. split; [done|]. split; [|done].
      split; cbn [cs_roots cs_subs].
      + done.
      + intros r0. rewrite Hroots, fmap_app. simpl. rewrite elem_of_app, elem_of_list_singleton.
        split; [by left|]. intros [?| ->]; [done|]. apply Hroots. by eapply elem_of_list_lookup_2.
      + by rewrite insert_length.
      + intros j r0 Hj. rewrite ops_at_app. destruct (decide (i = j)) as [->|Hij].
        * assert (r0 = r) as -> by congruence. rewrite decide_True by done. exists g'. split.
          -- apply list_lookup_insert. rewrite Hlen. by eapply lookup_lt_Some.
          -- by rewrite (run_one _ _ _ Hrun).
        * rewrite list_lookup_insert_ne by done. rewrite decide_False; [rewrite app_nil_r; by apply Hsubs|].
          intros ->. apply Hij. by eapply NoDup_lookup.
    - assert (r ∉ d.*1) as Hr by (by rewrite <- Hroots). rewrite (ops_at_nil r d Hr) in Hg'. cbn [app] in Hg'.
      assert (f gm_new = Ok g') as Hg. { rewrite Hf, <- Hg'. symmetry. exact (run_one [] o gm_new eq_refl). }
      rewrite Hg. cbn [rbind]. eexists. split; [done|]. split; [|done]. split; cbn [cs_roots cs_subs].
      + apply NoDup_app. split_and!; [done|set_solver|apply NoDup_singleton].
      + intros r0. rewrite fmap_app. simpl. rewrite !elem_of_app, !elem_of_list_singleton. by rewrite Hroots.
      + rewrite !app_length. simpl. lia.
      + intros j r0 Hj. rewrite ops_at_app. apply lookup_app_Some in Hj as [Hj|[Hj1 Hj2]].
        * assert (r0 ∈ cs_roots cs) by (by eapply elem_of_list_lookup_2).
          rewrite decide_False by congruence. rewrite app_nil_r. destruct (Hsubs j r0 Hj) as (g & Hg2 & ?).
          exists g. split; [|done]. apply lookup_app_Some. by left.
        * apply list_lookup_singleton_Some in Hj2 as [Hj0 <-]. rewrite decide_True by done.
          rewrite (ops_at_nil r d Hr). exists g'. split; [|done]. apply lookup_app_Some. right.
          split; [lia|]. apply list_lookup_singleton_Some. split; [lia|done].
  Qed.
End place.

Section thm.
  Context {NL EL : Type} `{EqDecision NL, EqDecision EL} (lt : idty).
  Context (V : gview NL EL) (A : agraph NL EL) (Hrep : represents V A).
  Context (es : list (N * N)) (c0 : ccomp) (Hc0 : cinv es c0).
  Let dir := ag_dir A.
  (** The root of a node. *)
  Definition rho (n : N) : N := match cc_get_root n c0 with Ok (Some r, _) => r | _ => 0%N end.
  Definition ccok (c : ccomp) : Prop := cinv es c ∧ compresses (cc_parent c0) (cc_parent c).
  Lemma ccok_init : ccok c0.
  Proof. split; [done|]. apply compresses_refl, Hc0. Qed.
  Lemma rho_depth n : seen es n → ∃ k, depth (cc_parent c0) n k (rho n).
  Proof.
    intros Hn. unfold rho. destruct (cinv_get_root es c0 n Hc0 Hn) as (k & r & c' & Hd & -> & _). eauto.
  Qed.
  Lemma rho_root c n : ccok c → seen es n → ∃ c', cc_get_root n c = Ok (Some (rho n), c') ∧ ccok c'.
  Proof.
    intros [Hc Hcm] Hn. destruct (cinv_get_root es c n Hc Hn) as (k & r & c' & Hd & Hr & Hc' & Hcm').
    destruct (rho_depth n Hn) as [k0 Hk0]. destruct (Hcm) as (_ & _ & Hcd). destruct (Hcd _ _ _ Hk0) as [k1 Hk1].
    destruct (depth_fun _ _ _ _ _ _ Hd Hk1) as [_ ->]. exists c'. split; [done|]. split; [done|]. by eapply compresses_trans.
  Qed.
  Lemma rho_eq x y : seen es x → seen es y → rho x = rho y ↔ joined es x y.
  Proof.
    intros Hx Hy. destruct (rho_depth x Hx) as [kx Hkx], (rho_depth y Hy) as [ky Hky]. rewrite <- (ci_same _ _ Hc0). split.
    - intros Heq. rewrite Heq in Hkx. by exists (rho y), kx, ky.
    - intros (r & k & k' & H1 & H2). destruct (depth_fun _ _ _ _ _ _ H1 Hkx) as [_ ->]. by destruct (depth_fun _ _ _ _ _ _ H2 Hky) as [_ ->].
  Qed.

  Definition ntag (n : N) : N * gop NL EL := (rho n, OAddNode n (nlab A n)).
  Definition etag (e : N * N) : N * gop NL EL := (rho e.1, OAddEdge e.1 e.2 (elab A e)).
  Lemma nodes_loop l cs d : csinv dir lt d cs → ccok (cs_cc cs) → (∀ p, p ∈ d → is_add p.2 = true) →
    (∀ n, n ∈ l → a_has_node A n ∧ seen es n) →
    ∃ cs', rfold (λ cs id,
      let* '(o, c) := cc_get_root id (cs_cc cs) in
      let* root := unwrap o in
      let* label := v_node_label V id in
      cs_place (λ g, rmap snd (gm_add_node lt id label g)) root (cs_set_cc c cs)) l cs = Ok cs' ∧
      csinv dir lt (d ++ (ntag <$> l)) cs' ∧ ccok (cs_cc cs').
  Proof.
    revert cs d. induction l as [|n l IH]; intros cs d Hcs Hcc Hd Hl; cbn [rfold fmap list_fmap].
    - rewrite app_nil_r. eauto.
    - destruct (Hl n ltac:(set_solver)) as [Hn Hsn]. destruct (rho_root (cs_cc cs) n Hcc Hsn) as (c' & -> & Hcc'). cbn [rbind unwrap].
      rewrite (rep_node_label V A n Hrep Hn). cbn [rbind].
      destruct (place_spec dir lt d (cs_set_cc c' cs) (rho n) (OAddNode n (nlab A n)) (λ g, rmap snd (gm_add_node lt n (label_of (ag_nodes A !! n)) g)))
        as (cs' & -> & Hcs' & Hcc2); [by destruct Hcs; split| |done|done|].
      { intros g. cbn [gm_step]. unfold nlab. by destruct (gm_add_node lt n _ g) as [[]| |]. }
      cbn [rbind]. destruct (IH cs' (d ++ [ntag n])) as (cs'' & Hr & Hcs'' & Hcc''); [done| | | |].
      + rewrite Hcc2. done.
      + intros p [?| ->%elem_of_list_singleton]%elem_of_app; [by apply Hd|done].
      + intros; apply Hl; set_solver.
      + exists cs''. split; [exact Hr|]. rewrite <- (assoc_L (++)) in Hcs''. done.
  Qed.
  Lemma edges_loop (l : list (N * N * option N)) cs d : csinv dir lt d cs → ccok (cs_cc cs) → (∀ p, p ∈ d → is_add p.2 = true) →
    (∀ e, e ∈ l.*1 → a_has_edge A e.1 e.2 ∧ seen es e.1) →
    ∃ cs', rfold (λ cs e,
      let start := e.1.1 in let target := e.1.2 in
      let* '(o, c) := cc_get_root start (cs_cc cs) in
      let* root := unwrap o in
      let* label := v_edge_label V start target in
      cs_place (λ g, rmap snd (gm_add_edge (v_directed V) lt start target label g)) root (cs_set_cc c cs)) l cs = Ok cs' ∧
      csinv dir lt (d ++ (etag <$> l.*1)) cs' ∧ ccok (cs_cc cs').
  Proof.
    revert cs d. induction l as [|e l IH]; intros cs d Hcs Hcc Hd Hl; cbn [rfold fmap list_fmap].
    - rewrite app_nil_r. eauto.
    - destruct (Hl e.1 ltac:(set_solver)) as [Hn Hsn]. cbn zeta. destruct (rho_root (cs_cc cs) e.1.1 Hcc Hsn) as (c' & -> & Hcc'). cbn [rbind unwrap].
      rewrite (rep_edge_label V A _ _ Hrep Hn). cbn [rbind].
      destruct (place_spec dir lt d (cs_set_cc c' cs) (rho e.1.1) (OAddEdge e.1.1 e.1.2 (elab A e.1)) (λ g, rmap snd (gm_add_edge (v_directed V) lt e.1.1 e.1.2 (label_of (a_edge_at A e.1.1 e.1.2)) g)))
        as (cs' & -> & Hcs' & Hcc2); [by destruct Hcs; split| |done|done|].
      { intros g. cbn [gm_step]. unfold elab, dir. rewrite (rp_directed _ _ Hrep). by destruct (gm_add_edge _ lt _ _ _ g) as [[]| |]. }
      cbn [rbind]. destruct (IH cs' (d ++ [etag e.1])) as (cs'' & Hr & Hcs'' & Hcc''); [done| | | |].
      + rewrite Hcc2. done.
      + intros p [?| ->%elem_of_list_singleton]%elem_of_app; [by apply Hd|done].
      + intros; apply Hl; set_solver.
      + exists cs''. split; [exact Hr|]. rewrite <- (assoc_L (++)) in Hcs''. done.
  Qed.
  Lemma ops_at_tags r ns l : ops_at r ((ntag <$> ns) ++ (etag <$> l)) =
    node_ops (nlab A) (filter (λ n, rho n = r) ns) ++ edge_ops (elab A) (filter (λ e, rho e.1 = r) l).
  Proof.
    unfold ops_at, node_ops, edge_ops. rewrite filter_app, fmap_app. f_equal.
    - induction ns as [|n ns IH]; [done|]. csimpl. rewrite !filter_cons. cbn [ntag fst].
      destruct (decide (rho n = r)); csimpl; by rewrite IH.
    - induction l as [|n l IH]; [done|]. csimpl. rewrite !filter_cons. cbn [etag fst].
      destruct (decide (rho n.1 = r)); csimpl; by rewrite IH.
  Qed.
  (** The graph built for a root. *)
  Lemma part_spec nls els r l : v_edge_indices V = Ok l → uses_labels A nls els →
    (∀ e, e ∈ l → rho e.1 = rho e.2) →
    ∃ rs s, spec_run (ops_at r ((ntag <$> v_node_indices V) ++ (etag <$> l))) (s_init dir [] []) = SOk (rs, s) ∧ within s nls els ∧
      is_induced (λ n, rho n = r) A (sp_g s) ∧ sp_count s = a_num_edges (sp_g s).
  Proof.
    intros Hl Hu Hends. rewrite ops_at_tags.
    destruct (rp_edge_indices _ _ Hrep) as (l' & Hl' & Hex). rewrite Hl in Hl'. injection Hl' as <-.
    destruct (build_nodes (nlab A) nls els (filter (λ n, rho n = r) (v_node_indices V)) (s_init dir [] [])) as (rs1 & s1 & Hr1 & Hw1 & Hd1 & He1 & Hc1 & Hn1).
    { unfold within. simpl. split_and!; [constructor|constructor|set_solver|set_solver]. }
    { intros n lab [_ Hn]%elem_of_list_filter. by apply (nlab_uses V A Hrep nls els n lab Hu). }
    assert (∀ k lab, ag_nodes (sp_g s1) !! k = Some lab ↔ ag_nodes A !! k = Some lab ∧ rho k = r) as Hnodes.
    { intros k lab. rewrite Hn1. destruct (decide (k ∈ filter (λ n, rho n = r) (v_node_indices V))) as [Hk|Hk]; rewrite elem_of_list_filter in Hk.
      - destruct Hk as [? Hk]. apply (rp_node_indices _ _ Hrep) in Hk. rewrite (nlab_some A) by done. naive_solver.
      - simpl. rewrite lookup_empty. split; [done|]. intros [Hk1 Hk2]. exfalso. apply Hk. split; [done|]. apply (rp_node_indices _ _ Hrep). by eexists. }
    destruct (build_edges_distinct (elab A) nls els (filter (λ e, rho e.1 = r) l) s1 dir) as (rs2 & s2 & Hr2 & Hw2 & Hd2 & Hn2 & Hc2 & He2).
    { done. } { done. } { intros e lab [_ He]%elem_of_list_filter. by apply (elab_uses V A Hrep nls els l e lab Hl Hu). }
    { intros [x y] [Hr He]%elem_of_list_filter. simpl in *. pose proof (Hends _ He) as Hxy. simpl in Hxy.
      apply Hex in He. apply (rp_wf _ _ Hrep) in He as (? & [lx Hx] & [ly Hy]).
      split; [done|]. split; [exists lx|exists ly]; apply Hnodes; split; congruence. }
    assert (∀ e lab, ag_edges (sp_g s2) !! e = Some lab ↔ ag_edges A !! e = Some lab ∧ rho e.1 = r) as Hedges.
    { intros e lab. rewrite He2, He1. simpl. destruct (decide (e ∈ filter (λ e, rho e.1 = r) l)) as [Hk|Hk]; rewrite elem_of_list_filter in Hk.
      - destruct Hk as [? Hk]. apply Hex in Hk. rewrite (elab_some V A Hrep) by done. naive_solver.
      - rewrite lookup_empty. split; [done|]. intros [Hk1 Hk2]. exfalso. apply Hk. split; [done|]. apply Hex. by eexists. }
    eexists _, s2. split; [exact (run_app2 Hr1 Hr2)|]. split; [done|].
    assert (ag_wf (sp_g s2)) as Hwf.
    { intros x y [lab Hxy]. apply Hedges in Hxy as [Hxy Hr]. assert (is_Some (ag_edges A !! (x, y))) as Hs by (by eexists).
      pose proof Hs as Hin. apply Hex in Hin. apply Hends in Hin. simpl in *.
      apply (rp_wf _ _ Hrep) in Hs as (Hk & [lx Hx] & [ly Hy]). rewrite Hd2. split; [done|].
      unfold a_has_node. rewrite Hn2. split; [exists lx|exists ly]; apply Hnodes; split; congruence. }
    split.
    - split; [done| | |done].
      + intros n lab. by rewrite Hn2, Hnodes.
      + intros x y lab. unfold a_edge_at. rewrite Hd2. fold dir. rewrite Hedges. split; [|intros (Hxy & Hx & Hy)].
        * intros [Hxy Hr]. split; [done|]. assert (is_Some (ag_edges A !! ekey dir x y)) as Hin by (by eexists).
          apply Hex, Hends in Hin. destruct (ekey_cases dir x y) as [Heq|[_ Heq]]; rewrite Heq in *; simpl in *; split; congruence.
        * split; [done|]. destruct (ekey_cases dir x y) as [Heq|[_ Heq]]; rewrite Heq; done.
    - rewrite Hc2, Hc1. simpl. unfold a_num_edges. rewrite <- (lists_exactly_length (filter (λ e, rho e.1 = r) l)); [done|].
      split; [apply NoDup_filter, Hex|]. intros e. rewrite elem_of_list_filter.
      split.
      + intros [Hr He]. apply Hex in He as [lab Hlab]. exists lab. by apply Hedges.
      + intros [lab [Hlab Hr]%Hedges]. split; [done|]. apply Hex. by eexists.
  Qed.
End thm.

Section main.
  Context {NL EL : Type} `{EqDecision NL, EqDecision EL} (lt : idty).
  Context (V : gview NL EL) (A : agraph NL EL) (Hrep : represents V A) (Hiter : iterates V).

  Lemma conn_sub_panic n : isolated A n → conn_subgraphs lt V = Panic.
  Proof.
    intros [Hn Hiso]. destruct (new_spec V A Hrep Hiter) as (es & c0 & Hc & Hinv & Hseen & _).
    unfold conn_subgraphs. rewrite Hc. cbn [rbind].
    assert (cs_process_nodes lt V (CSub [] [] c0) = Panic) as ->; [|done]. unfold cs_process_nodes.
    assert (n ∈ v_node_indices V) as Hin by (by apply (rp_node_indices _ _ Hrep)).
    assert (∃ l1 x l2, v_node_indices V = l1 ++ x :: l2 ∧ (∀ y, y ∈ l1 → is_Some (cc_parent c0 !! y)) ∧ cc_parent c0 !! x = None) as (l1 & x & l2 & Hl & H1 & Hx).
    { assert (cc_parent c0 !! n = None) as Hnone.
      { apply eq_None_not_Some. rewrite (ci_dom _ _ Hinv), Hseen. intros [y Hy]. destruct (Hiso y). tauto. }
      clear -Hin Hnone. induction (v_node_indices V) as [|y l IH]; [by apply elem_of_nil in Hin|].
      destruct (cc_parent c0 !! y) eqn:Hy.
      - assert (n ∈ l) as Hn. { apply elem_of_cons in Hin as [->|]; [congruence|done]. }
        destruct (IH Hn) as (l1 & x & l2 & -> & H1 & Hx). exists (y :: l1), x, l2. split_and!; [done| |done].
        intros z [->|Hz]%elem_of_cons; [by eexists|by apply H1].
      - exists [], y, l. split_and!; [done|set_solver|done]. }
    assert (∀ y, y ∈ l1 → a_has_node A y ∧ seen es y) as Hl1.
    { intros y Hy. split; [|by apply (ci_dom _ _ Hinv), H1]. apply (rp_node_indices _ _ Hrep). rewrite Hl. set_solver. }
    rewrite Hl, rfold_app.
    edestruct (nodes_loop lt V A Hrep es c0 Hinv l1 (CSub [] [] c0) []) as (cs' & Hcs & _ & Hcc); [| |set_solver|exact Hl1|].
    { split; [constructor|set_solver|done|]. intros i r Hi. done. } { by apply ccok_init. }
    rewrite Hcs. cbn [rbind rfold]. rewrite get_root_missing; [done|]. destruct Hcc as [Hcc _].
    apply eq_None_not_Some. rewrite (ci_dom _ _ Hcc), <- (ci_dom _ _ Hinv). by apply eq_None_not_Some.
  Qed.

  Definition part_ok (g : graphmap NL EL) (n : N) (A' : agraph NL EL) : Prop :=
    a_has_node A n ∧ is_induced (weakly_connected A n) A A' ∧
    (∀ x y, a_has_node A' x → a_has_node A' y → weakly_connected A' x y) ∧
    ∀ it, hash_order g it → shows (gm_view (ag_dir A) it g) A'.
  Lemma induced_connected n A' : is_induced (weakly_connected A n) A A' →
    ∀ x, weakly_connected A n x → weakly_connected A' n x.
  Proof.
    intros Hi x Hx. unfold weakly_connected, rtsc in *. revert x Hx. apply rtc_ind_r; [apply rtc_refl|]. intros x y Hx Hxy IH.
    eapply rtc_r; [exact IH|].
    assert (rtc (sc (a_has_edge A)) n y) as Hy. { eapply rtc_r; [exact Hx|exact Hxy]. }
    assert (∀ a b, rtc (sc (a_has_edge A)) n a → rtc (sc (a_has_edge A)) n b → a_has_edge A a b → a_has_edge A' a b) as Hab.
    { intros a b Ha Hb [l Hl]. exists l. by apply (ind_edges _ _ _ Hi). }
    destruct Hxy as [Hxy|Hxy]; [left|right]; by apply Hab.
  Qed.
  Lemma conn_sub_thm nls els : (∀ n, ¬ isolated A n) → uses_labels A nls els → labels_fit lt nls → labels_fit lt els →
    ∃ gs, conn_subgraphs lt V = Ok gs ∧
      (∀ i g, gs !! i = Some g → ∃ n A', part_ok g n A') ∧
      (∀ n, a_has_node A n → ∃ i g, gs !! i = Some g ∧ gm_has_node g n = true ∧
         ∀ j g', gs !! j = Some g' → gm_has_node g' n = true → j = i).
  Proof.
    intros Hiso Hu HN HE. destruct (new_spec V A Hrep Hiter) as (es & c0 & Hc & Hinv & Hseen & Hjoin).
    assert (∀ n, a_has_node A n → seen es n) as Hall.
    { intros n Hn. destruct (decide (is_Some (cc_parent c0 !! n))) as [Hs|Hs]; [by apply (ci_dom _ _ Hinv)|]. exfalso.
      rewrite (ci_dom _ _ Hinv), Hseen in Hs. apply (Hiso n). split; [done|]. intros x. split; intros Hx; apply Hs; exists x; eauto. }
    destruct (edges_pairs V A Hrep Hiter) as (le & Hle & Hidx & Hel).
    assert (∀ e, e ∈ le.*1 → a_has_edge A e.1 e.2 ∧ seen es e.1 ∧ seen es e.2) as Hedge.
    { intros e He. apply Hel in He. apply wf_stored in He as [He _]; [|apply Hrep]. split; [done|].
      apply (wf_edge_nodes A _ _ (rp_wf _ _ Hrep)) in He as [? ?]. eauto. }
    unfold conn_subgraphs. rewrite Hc. cbn [rbind]. unfold cs_process_nodes.
    edestruct (nodes_loop lt V A Hrep es c0 Hinv (v_node_indices V) (CSub [] [] c0) []) as (cs1 & Hcs1 & Hv1 & Hcc1); [| |set_solver| |].
    { split; [constructor|set_solver|done|]. intros i r Hi. done. } { by apply ccok_init. }
    { intros n Hn. apply (rp_node_indices _ _ Hrep) in Hn. eauto. }
    cbn [app] in Hv1. rewrite Hcs1. cbn [rbind].
    edestruct (edges_loop lt V A Hrep es c0 Hinv le cs1) as (cs2 & Hcs2 & Hv2 & _); [exact Hv1|done| | |].
    { intros p (n & -> & _)%elem_of_list_fmap. done. } { intros e He. destruct (Hedge e He) as (?&?&?). done. }
    assert (cs_process_edges lt V cs1 = Ok cs2) as -> by (unfold cs_process_edges; by rewrite Hle). cbn [rbind]. exists (cs_subs cs2). split; [done|].
    set (d := (ntag A c0 <$> v_node_indices V) ++ (etag A c0 <$> le.*1)) in *.
    assert (∀ x y, a_has_node A x → a_has_node A y → rho c0 x = rho c0 y ↔ weakly_connected A x y) as Hrho.
    { intros x y Hx Hy. rewrite (rho_eq es c0 Hinv), Hjoin by auto. split; [tauto|]. intros ?. split_and!; [by apply Hseen, Hall..|done]. }
    assert (∀ i g r, cs_roots cs2 !! i = Some r → cs_subs cs2 !! i = Some g →
      ∃ A', is_induced (λ n, rho c0 n = r) A A' ∧ ∀ it, hash_order g it → shows (gm_view (ag_dir A) it g) A') as Hpart.
    { intros i g r Hir Hig. destruct (cv_subs _ _ _ _ Hv2 i r Hir) as (g' & Hg' & Hrun).
      assert (g' = g) as -> by congruence.
      destruct (part_spec V A Hrep es c0 Hinv nls els r le.*1 Hidx Hu) as (rs & s & Hr & Hw & Hind & Hcnt).
      { intros e He. destruct (Hedge e He) as (He1 & He2 & He3). apply (rho_eq es c0 Hinv); [done..|]. apply Hjoin.
        split_and!; [by apply Hseen..|]. apply rtc_once. by left. }
      exists (sp_g s). split; [done|]. intros it Hit.
      destruct (built lt (ag_dir A) _ rs s nls els Hr Hw HN HE) as (g2 & Hg2 & Hsh).
      fold d in Hg2. assert (g2 = g) as -> by congruence. destruct (Hsh it Hit) as (?&?&?&Hcc). unfold shows, exact_count. by rewrite Hcc. }
    assert (∀ i g r A', cs_roots cs2 !! i = Some r → cs_subs cs2 !! i = Some g → is_induced (λ n, rho c0 n = r) A A' →
      (∀ it, hash_order g it → shows (gm_view (ag_dir A) it g) A') →
      ∀ n, gm_has_node g n = true ↔ a_has_node A n ∧ rho c0 n = r) as Hhas.
    { intros i g r A' _ _ Hind Hsh n. destruct (Hsh _ (hash_order_exists g)) as (Hr & _).
      pose proof (rp_has_node _ _ Hr n) as Hh. cbn [gm_view v_has_node] in Hh. rewrite Hh. unfold a_has_node. split.
      - intros [l Hl]. apply (ind_nodes _ _ _ Hind) in Hl as [? ?]. split; [by eexists|done].
      - intros [[l Hl] ?]. exists l. by apply (ind_nodes _ _ _ Hind). }
    split.
    - intros i g Hig. assert (∃ r, cs_roots cs2 !! i = Some r) as [r Hir].
      { apply lookup_lt_is_Some. rewrite <- (cv_len _ _ _ _ Hv2). by eapply lookup_lt_Some. }
      destruct (Hpart i g r Hir Hig) as (A' & Hind & Hsh).
      assert (∃ n, a_has_node A n ∧ rho c0 n = r) as (n & Hn & Hnr).
      { apply elem_of_list_lookup_2 in Hir. apply (cv_roots _ _ _ _ Hv2) in Hir. unfold d in Hir. rewrite fmap_app, elem_of_app in Hir.
        destruct Hir as [Hir|Hir]; apply elem_of_list_fmap in Hir as (p & -> & Hp); apply elem_of_list_fmap in Hp as (n & -> & Hn).
        - exists n. split; [by apply (rp_node_indices _ _ Hrep)|done].
        - exists n.1. split; [|done]. destruct (Hedge n Hn) as (He & _). by apply (wf_edge_nodes A _ _ (rp_wf _ _ Hrep)) in He as [? _]. }
      assert (is_induced (weakly_connected A n) A A') as Hind'.
      { subst r. destruct Hind as [Hi1 Hi2 Hi3 Hi4]. split; [done| | |done].
        - intros k l. rewrite Hi2. split; intros [Hk ?]; (split; [done|]); [symmetry|symmetry]; apply Hrho; try done; by eexists.
        - intros x y l. rewrite Hi3. split; intros (Hxy & Hx & Hy); (split; [done|]);
            (destruct (wf_edge_nodes A x y (rp_wf _ _ Hrep)) as [Hx' Hy']; [by eexists|]).
          + split; apply Hrho; congruence.
          + split; symmetry; by apply Hrho. }
      exists n, A'. split_and!; [done|done| |done].
      intros x y [lx [_ Hx]%(ind_nodes _ _ _ Hind')] [ly [_ Hy]%(ind_nodes _ _ _ Hind')].
      apply (induced_connected n A' Hind') in Hx, Hy. unfold weakly_connected in *. etrans; [symmetry; exact Hx|exact Hy].
    - intros n Hn. assert (rho c0 n ∈ cs_roots cs2) as Hr.
      { apply (cv_roots _ _ _ _ Hv2). unfold d. rewrite fmap_app. apply elem_of_app. left.
        apply elem_of_list_fmap. exists (ntag A c0 n). split; [done|]. apply elem_of_list_fmap. exists n. split; [done|]. by apply (rp_node_indices _ _ Hrep). }
      apply elem_of_list_lookup in Hr as [i Hi]. destruct (cv_subs _ _ _ _ Hv2 i _ Hi) as (g & Hg & _).
      exists i, g. split; [done|]. destruct (Hpart i g _ Hi Hg) as (A' & Hind & Hsh). split.
      { by apply (Hhas i g _ A' Hi Hg Hind Hsh). }
      intros j g' Hj Hgn. assert (∃ r, cs_roots cs2 !! j = Some r) as [r Hjr].
      { apply lookup_lt_is_Some. rewrite <- (cv_len _ _ _ _ Hv2). by eapply lookup_lt_Some. }
      destruct (Hpart j g' r Hjr Hj) as (A2 & Hind2 & Hsh2). apply (Hhas j g' r A2 Hjr Hj Hind2 Hsh2) in Hgn. destruct Hgn as [? Heqr].
      rewrite <- Heqr in Hjr. eapply NoDup_lookup; [apply (cv_nd _ _ _ _ Hv2)|done|done].
  Qed.
End main.
