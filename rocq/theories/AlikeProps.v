(** Two graphs that look alike are the same abstract graph and behave the same. *)
From Verif Require Import Base BaseFacts Api Spec SpecFacts ViewFacts Map GraphMap GraphMapFrame GraphMapMore GraphMapProps GraphOpsFacts SpecHist HistFacts HistProps
  SpecOps ViewOps ViewOpsProps ConnComp SpecConnGrow ConnCompProps Traverse SpecTraverse TraverseSame Static IntoStatic IntoStaticProps SymProps SpecAlike.

Section alike.
  Context {NL EL : Type} `{EqDecision NL, EqDecision EL}.
  Implicit Types (V : gview NL EL) (A : agraph NL EL) (h : list (gop NL EL)).

  Lemma rep_edge_at V A x y : represents V A → a_has_edge A x y ↔ v_has_node V x = true ∧ v_has_edge V x y = Ok true.
  Proof.
    intros HV. rewrite (rp_has_node _ _ HV). split.
    - intros E. destruct (wf_edge_nodes A _ _ (rp_wf _ _ HV) E) as [H1 _]. split; [done|]. by apply (rep_has_edge_true V A).
    - intros [H1 E]. by apply (rep_has_edge_true V A) in E.
  Qed.
  Lemma label_of_inj {X} (a b : option (option X)) : (is_Some a ↔ is_Some b) → (is_Some a → label_of a = label_of b) → a = b.
  Proof.
    intros H1 H2. destruct a as [a|], b as [b|]; simpl in *; [f_equal; by apply H2| | |done].
    - destruct (proj1 H1) as [? [=]]. by eexists.
    - destruct (proj2 H1) as [? [=]]. by eexists.
  Qed.
  Lemma Ok_eq {X} (a b : X) : Ok a = Ok b → a = b.
  Proof. by intros [= ->]. Qed.
  Lemma alike_eq V V' A A' : represents V A → represents V' A' → look_alike V V' → A = A'.
  Proof.
    intros HV HV' L. pose proof (rp_wf _ _ HV) as W. pose proof (rp_wf _ _ HV') as W'.
    assert (ag_dir A = ag_dir A') as HD by (rewrite <-(rp_directed _ _ HV), <-(rp_directed _ _ HV'); apply L).
    assert (∀ n, a_has_node A n ↔ a_has_node A' n) as HN.
    { intros n. by rewrite <-(rp_has_node _ _ HV), <-(rp_has_node _ _ HV'), (la_has_node _ _ L). }
    assert (∀ x y, a_edge_at A x y = a_edge_at A' x y) as HE.
    { intros x y. assert (a_has_edge A x y ↔ a_has_edge A' x y) as HX.
      { rewrite (rep_edge_at V A), (rep_edge_at V' A') by done. rewrite <-(la_has_node _ _ L).
        split; intros [H1 H2]; (split; [done|]); [by rewrite <-(la_has_edge _ _ L)|by rewrite (la_has_edge _ _ L)]. }
      apply label_of_inj; [done|]. intros Hx. apply Ok_eq. rewrite <-(rep_edge_label V A), <-(rep_edge_label V' A') by (done || by apply HX).
      destruct (proj1 (rep_edge_at V A x y HV) Hx) as [H1 H2]. by apply L. }
    apply agraph_eq; [done| |].
    - intros n. apply label_of_inj; [apply HN|]. intros Hn. apply Ok_eq. rewrite <-(rep_node_label V A), <-(rep_node_label V' A') by (done || by apply HN).
      apply L. by apply (rp_has_node _ _ HV).
    - intros [x y]. destruct (decide (ekey (ag_dir A) x y = (x, y))) as [E|E].
      + specialize (HE x y). unfold a_edge_at in HE. rewrite <-HD, E in HE. done.
      + destruct (ag_edges A !! (x, y)) eqn:E1; [destruct (W x y) as [? _]; [by eexists|done]|].
        destruct (ag_edges A' !! (x, y)) eqn:E2; [|done]. destruct (W' x y) as [Hk _]; [by eexists|]. by rewrite <-HD in Hk.
  Qed.
  Lemma eq_alike V V' A : represents V A → represents V' A → look_alike V V'.
  Proof.
    intros HV HV'. assert (∀ n, v_has_node V n = v_has_node V' n) as HN.
    { intros n. apply eq_true_iff_eq. by rewrite (rp_has_node _ _ HV), (rp_has_node _ _ HV'). }
    split.
    - by rewrite (rp_directed _ _ HV), (rp_directed _ _ HV').
    - done.
    - intros n Hn. apply (rp_has_node _ _ HV) in Hn. by rewrite (rep_node_label V A), (rep_node_label V' A).
    - intros s t Hs. apply (rp_has_node _ _ HV) in Hs. destruct (rp_has_edge _ _ HV s t Hs) as (b & -> & Hb).
      destruct (rp_has_edge _ _ HV' s t Hs) as (b' & -> & Hb'). f_equal. apply eq_true_iff_eq. by rewrite Hb, Hb'.
    - intros s t Hs He. assert (a_has_edge A s t) as Hx by (by apply (rep_edge_at V A)). by rewrite (rep_edge_label V A), (rep_edge_label V' A).
  Qed.

  (** *** The future *)
  Lemma step_alike o (s s' : sstate NL EL) : on_graph o = true → sp_g s = sp_g s' →
    match spec_step o s, spec_step o s' with
    | SOk (r, t), SOk (r', t') => r = r' ∧ sp_g t = sp_g t' ∧ (sp_max s = sp_max s' → sp_max t = sp_max t')
    | SPanic, SPanic => True
    | _, _ => False
    end.
  Proof.
    intros Ho E. destruct o; try discriminate; cbn [spec_step]; rewrite <-E.
    - split; [done|]. unfold s_add_node; cbn [sp_g sp_max]. rewrite <-E. split; [done|]. by intros ->.
    - split; [done|]. unfold s_add_edge; cbn [sp_g sp_max]. rewrite <-E. split; [done|]. by intros ->.
    - destruct (ag_nodes (sp_g s) !! _); [|done]. destruct (decide _); [done|]. cbn [sp_g sp_max]. done.
    - destruct (a_edge_at (sp_g s) _ _); done.
    - destruct (ag_nodes (sp_g s) !! _); [|done]. unfold s_add_node; cbn [sp_g sp_max]. rewrite <-E. split_and!; [done..|]. by intros ->.
    - destruct (a_edge_at (sp_g s) _ _); [|done]. unfold s_add_edge; cbn [sp_g sp_max]. rewrite <-E. split_and!; [done..|]. by intros ->.
  Qed.
  Lemma run_alike h (s s' : sstate NL EL) : Forall (λ o, on_graph o = true) h → sp_g s = sp_g s' →
    match spec_run h s, spec_run h s' with
    | SOk (r, t), SOk (r', t') => r = r' ∧ sp_g t = sp_g t' ∧ (sp_max s = sp_max s' → sp_max t = sp_max t')
    | SPanic, SPanic => True
    | _, _ => False
    end.
  Proof.
    intros Hf. revert s s'. induction Hf as [|o h Ho Hf IH]; intros s s' E; cbn [spec_run]; [done|].
    pose proof (step_alike o s s' Ho E) as Hs. destruct (spec_step o s) as [[r t]| |], (spec_step o s') as [[r' t']| |]; try done.
    destruct Hs as (<- & Et & Hm). specialize (IH t t' Et). destruct (spec_run h t) as [[rs u]| |], (spec_run h t') as [[rs' u']| |]; try done.
    destruct IH as (<- & Eu & Hm'). split_and!; [done..|]. auto.
  Qed.

  Lemma future dir lt lt' (nls nls' : list NL) (els els' : list EL) h1 h2 h rs1 rs2 g1 g2 it1 it2 :
    NoDup nls → NoDup els → NoDup nls' → NoDup els' →
    Forall (λ o, is_raw o = false) h1 → Forall (λ o, is_raw o = false) h2 → Forall (λ o, on_graph o = true) h →
    gm_run dir lt h1 (gm_with_label_map nls els) = Ok (rs1, g1) → gm_run dir lt' h2 (gm_with_label_map nls' els') = Ok (rs2, g2) →
    labels_fit lt (g_nlm g1) → labels_fit lt (g_elm g1) → labels_fit lt' (g_nlm g2) → labels_fit lt' (g_elm g2) →
    hash_order g1 it1 → hash_order g2 it2 → look_alike (gm_view dir it1 g1) (gm_view dir it2 g2) →
    (gm_run dir lt h g1 = Panic ∧ gm_run dir lt' h g2 = Panic) ∨
    ∃ rs rs' g1' g2', gm_run dir lt h g1 = Ok (rs, g1') ∧ gm_run dir lt' h g2 = Ok (rs', g2') ∧
      (labels_fit lt (g_nlm g1') → labels_fit lt (g_elm g1') → labels_fit lt' (g_nlm g2') → labels_fit lt' (g_elm g2') →
       rs = rs' ∧ ∀ o1 o2, hash_order g1' o1 → hash_order g2' o2 →
         let V1 := gm_view dir it1 g1 in let V2 := gm_view dir it2 g2 in
         let V1' := gm_view dir o1 g1' in let V2' := gm_view dir o2 g2' in
         look_alike V1' V2' ∧ v_edge_count V1' + v_edge_count V2 = v_edge_count V2' + v_edge_count V1 ∧
         (v_max_seen_id V1 = v_max_seen_id V2 → v_max_seen_id V1' = v_max_seen_id V2')).
  Proof.
    intros N1 E1 N2 E2 P1 P2 Ph R1 R2 F1 F2 F3 F4 O1 O2 L. pose proof (on_graph_plain h Ph) as Pp.
    assert (Forall (λ o, is_raw o = false) (h1 ++ h)) as Pa by (by apply Forall_app).
    assert (Forall (λ o, is_raw o = false) (h2 ++ h)) as Pb by (by apply Forall_app).
    destruct (plain_ok dir lt nls els N1 E1 h1 rs1 g1 P1 R1 F1 F2) as (s1 & S1 & Q1 & Q2).
    destruct (plain_ok dir lt' nls' els' N2 E2 h2 rs2 g2 P2 R2 F3 F4) as (s2 & S2 & Q3 & Q4).
    assert (∀ it, hash_order g1 it → represents (gm_view dir it g1) (sp_g s1) ∧ v_max_seen_id (gm_view dir it g1) = Ok (sp_max s1)) as V1.
    { destruct (refinement dir lt nls els h1 rs1 s1 N1 E1 S1) as (g & Hg & HV); [by rewrite Q1|by rewrite Q2|]. assert (g = g1) as -> by congruence.
      intros it Hit. destruct (HV it Hit) as (? & _ & _ & _ & ? & _). done. }
    assert (∀ it, hash_order g2 it → represents (gm_view dir it g2) (sp_g s2) ∧ v_max_seen_id (gm_view dir it g2) = Ok (sp_max s2)) as V2.
    { destruct (refinement dir lt' nls' els' h2 rs2 s2 N2 E2 S2) as (g & Hg & HV); [by rewrite Q3|by rewrite Q4|]. assert (g = g2) as -> by congruence.
      intros it Hit. destruct (HV it Hit) as (? & _ & _ & _ & ? & _). done. }
    destruct (V1 it1 O1) as [A1 M1]. destruct (V2 it2 O2) as [A2 M2].
    pose proof (alike_eq _ _ _ _ A1 A2 L) as EA. pose proof (run_alike h s1 s2 Ph EA) as HR.
    pose proof (plain_panic dir lt nls els N1 E1 (h1 ++ h) Pa) as X1. pose proof (plain_panic dir lt' nls' els' N2 E2 (h2 ++ h) Pb) as X2.
    pose proof (plain_total dir lt nls els N1 E1 (h1 ++ h) Pa) as T1. pose proof (plain_total dir lt' nls' els' N2 E2 (h2 ++ h) Pb) as T2.
    assert (spec_run (h1 ++ h) (s_init dir nls els) = match spec_run h s1 with SOk (rs', t) => SOk (rs1 ++ rs', t) | SPanic => SPanic | SUnspec => SUnspec end) as Y1.
    { by rewrite spec_run_app, S1. }
    assert (spec_run (h2 ++ h) (s_init dir nls' els') = match spec_run h s2 with SOk (rs', t) => SOk (rs2 ++ rs', t) | SPanic => SPanic | SUnspec => SUnspec end) as Y2.
    { by rewrite spec_run_app, S2. }
    assert (∀ g, gm_run dir lt (h1 ++ h) g = let* '(rs1, g1) := gm_run dir lt h1 g in rmap (λ p, (rs1 ++ p.1, p.2)) (gm_run dir lt h g1)) as Z1 by (intros; apply GraphMapFrame.gm_run_app).
    assert (∀ g, gm_run dir lt' (h2 ++ h) g = let* '(rs1, g1) := gm_run dir lt' h2 g in rmap (λ p, (rs1 ++ p.1, p.2)) (gm_run dir lt' h g1)) as Z2 by (intros; apply GraphMapFrame.gm_run_app).
    specialize (Z1 (gm_with_label_map nls els)). specialize (Z2 (gm_with_label_map nls' els')). rewrite R1 in Z1. rewrite R2 in Z2. cbn [rbind] in Z1, Z2.
    destruct (spec_run h s1) as [[rs t]| |], (spec_run h s2) as [[rs' t']| |]; try done.
    2:{ left. split.
        - destruct (gm_run dir lt h g1) as [[? ?]| |]; cbn [rmap rbind] in Z1; [|done|]; rewrite (proj2 X1 Y1) in Z1; done.
        - destruct (gm_run dir lt' h g2) as [[? ?]| |]; cbn [rmap rbind] in Z2; [|done|]; rewrite (proj2 X2 Y2) in Z2; done. }
    destruct HR as (<- & Et & Hm). right.
    assert (∃ ra ga, gm_run dir lt h g1 = Ok (ra, ga)) as (ra & ga & Ga).
    { destruct (gm_run dir lt h g1) as [[ra ga]| |]; [by eexists _, _| |]; cbn [rmap rbind] in Z1.
      - apply X1 in Z1. congruence.
      - destruct T1 as [T1|(? & ? & T1)]; congruence. }
    assert (∃ rb gb, gm_run dir lt' h g2 = Ok (rb, gb)) as (rb & gb & Gb).
    { destruct (gm_run dir lt' h g2) as [[rb gb]| |]; [by eexists _, _| |]; cbn [rmap rbind] in Z2.
      - apply X2 in Z2. congruence.
      - destruct T2 as [T2|(? & ? & T2)]; congruence. }
    rewrite Ga in Z1. rewrite Gb in Z2. cbn [rmap rbind fst snd] in Z1, Z2.
    exists ra, rb, ga, gb. split; [done|]. split; [done|]. intros G1 G2 G3 G4.
    destruct (plain_ok dir lt nls els N1 E1 (h1 ++ h) _ ga Pa Z1 G1 G2) as (u1 & U1 & W1 & W2).
    destruct (plain_ok dir lt' nls' els' N2 E2 (h2 ++ h) _ gb Pb Z2 G3 G4) as (u2 & U2 & W3 & W4).
    rewrite Y1 in U1. rewrite Y2 in U2. injection U1 as U1 <-. injection U2 as U2 <-. apply app_inv_head in U1, U2. subst ra rb.
    split; [done|]. intros o1 o2 P3 P4. cbv zeta.
    destruct (refinement dir lt nls els (h1 ++ h) (rs1 ++ rs) t N1 E1 Y1) as (g & Hg & HV); [by rewrite W1|by rewrite W2|]. assert (g = ga) as -> by congruence.
    destruct (refinement dir lt' nls' els' (h2 ++ h) (rs2 ++ rs) t' N2 E2 Y2) as (g' & Hg' & HV'); [by rewrite W3|by rewrite W4|]. assert (g' = gb) as -> by congruence.
    destruct (HV o1 P3) as (B1 & _ & _ & _ & B1m & _). destruct (HV' o2 P4) as (B2 & _ & _ & _ & B2m & _). rewrite <-Et in B2.
    split; [exact (eq_alike _ _ _ B1 B2)|]. split.
    - destruct (edge_count_drift dir lt nls els h1 rs1 g1 it1 N1 E1 R1 O1) as (l1 & L1 & ->).
      destruct (edge_count_drift dir lt' nls' els' h2 rs2 g2 it2 N2 E2 R2 O2) as (l2 & L2 & ->).
      destruct (edge_count_drift dir lt nls els (h1 ++ h) (rs1 ++ rs) ga o1 N1 E1 Z1 P3) as (l3 & L3 & ->).
      destruct (edge_count_drift dir lt' nls' els' (h2 ++ h) (rs2 ++ rs) gb o2 N2 E2 Z2 P4) as (l4 & L4 & ->).
      rewrite !drift_app by eauto using run_length. rewrite (drift_add (drift 0 h1 rs1)), (drift_add (drift 0 h2 rs2)) by done.
      assert (∀ (V V' : gview NL EL) A l l', represents V A → represents V' A → v_edge_indices V = Ok l → v_edge_indices V' = Ok l' → length l = length l') as Hlen.
      { intros V V' A l l' HA HB Hl Hl'. destruct (rp_edge_indices _ _ HA) as (k & Hk & Hk1 & Hk2). destruct (rp_edge_indices _ _ HB) as (k' & Hk' & Hk1' & Hk2').
        assert (k = l) as -> by congruence. assert (k' = l') as -> by congruence. apply Permutation_length, NoDup_Permutation; [done..|]. intros e. by rewrite Hk2, Hk2'. }
      rewrite <-EA in A2. rewrite (Hlen _ _ _ _ _ A1 A2 L1 L2), (Hlen _ _ _ _ _ B1 B2 L3 L4). lia.
    - rewrite M1, M2, B1m, B2m. intros [= Hx]. f_equal. by apply Hm.
  Qed.

  (** *** Algorithms *)
  Lemma alike_traversals idt idt' V V' A A' s : represents V A → represents V' A' → look_alike V V' →
    (∀ m, v_max_seen_id V = Ok (Some m) → (m < id_card idt)%N) → (∀ m, v_max_seen_id V' = Ok (Some m) → (m < id_card idt')%N) → v_has_node V s = true →
    (∃ l, ∀ fuel, v_node_count V < fuel → bfs_run idt V fuel (Some s) = Ok l ∧ bfs_run idt' V' fuel (Some s) = Ok l) ∧
    (∃ l, ∀ fuel, v_node_count V < fuel → dfs_run idt V fuel (Some s) = Ok l ∧ dfs_run idt' V' fuel (Some s) = Ok l).
  Proof.
    intros HV HV' L M M' Hs. pose proof (alike_eq _ _ _ _ HV HV' L) as <-. apply (rp_has_node _ _ HV) in Hs.
    exact (same_order idt idt' V V' A (Some s) (Some s) s HV HV' M M' (conj eq_refl Hs) (conj eq_refl Hs)).
  Qed.
  Lemma alike_lists V V' A A' : represents V A → represents V' A' → look_alike V V' →
    v_node_count V = v_node_count V' ∧ v_node_indices V ≡ₚ v_node_indices V' ∧
    (∃ es es', v_edge_indices V = Ok es ∧ v_edge_indices V' = Ok es' ∧ es ≡ₚ es') ∧
    ∀ n, v_has_node V n = true → v_neighbors V n = v_neighbors V' n ∧ v_degree V n = v_degree V' n ∧
      (v_directed V = true → v_in_neighbors V n = v_in_neighbors V' n ∧ v_in_degree V n = v_in_degree V' n).
  Proof.
    intros HV HV' L. pose proof (alike_eq _ _ _ _ HV HV' L) as <-. split_and!.
    - by rewrite (rp_node_count _ _ HV), (rp_node_count _ _ HV').
    - destruct (rp_node_indices _ _ HV) as [? H1]. destruct (rp_node_indices _ _ HV') as [? H2]. apply NoDup_Permutation; [done..|]. intros n. by rewrite H1, H2.
    - destruct (rp_edge_indices _ _ HV) as (es & ? & ? & H1). destruct (rp_edge_indices _ _ HV') as (es' & ? & ? & H2). exists es, es'.
      split_and!; [done..|]. apply NoDup_Permutation; [done..|]. intros n. by rewrite H1, H2.
    - intros n Hn. apply (rp_has_node _ _ HV) in Hn. assert (v_neighbors V n = v_neighbors V' n) as E.
      { destruct (rp_neighbors _ _ HV n Hn) as (l & -> & ? & H1). destruct (rp_neighbors _ _ HV' n Hn) as (l' & -> & ? & H2). f_equal.
        apply increasing_ext; [done..|]. intros t. by rewrite H1, H2. }
      split_and!; [done|by rewrite (rp_degree _ _ HV n Hn), (rp_degree _ _ HV' n Hn), E|]. intros Hd. rewrite (rp_directed _ _ HV) in Hd.
      assert (v_in_neighbors V n = v_in_neighbors V' n) as E'.
      { destruct (rp_in_neighbors _ _ HV Hd n Hn) as (l & -> & ? & H1). destruct (rp_in_neighbors _ _ HV' Hd n Hn) as (l' & -> & ? & H2). f_equal.
        apply increasing_ext; [done..|]. intros t. by rewrite H1, H2. }
      split; [done|]. by rewrite (rp_in_degree _ _ HV Hd n Hn), (rp_in_degree _ _ HV' Hd n Hn), E'.
  Qed.
  Lemma alike_results V V' A A' : represents V A → represents V' A' → iterates V → iterates V' → look_alike V V' →
    (∃ c c', cc_new V = Ok c ∧ cc_new V' = Ok c' ∧ cc_get_count c = cc_get_count c' ∧ ∀ a b, connected c a b ↔ connected c' a b) ∧
    (∃ k, box_hash V = Ok k ∧ box_hash V' = Ok k) ∧
    (∃ c c', v_node_label_counter V = Ok c ∧ v_node_label_counter V' = Ok c' ∧ ∀ l, counter_get l c = counter_get l c') ∧
    (∃ c c', v_edge_label_counter V = Ok c ∧ v_edge_label_counter V' = Ok c' ∧ ∀ l, counter_get l c = counter_get l c').
  Proof.
    intros HV HV' IV IV' L. pose proof (alike_eq _ _ _ _ HV HV' L) as <-. split_and!.
    - destruct (thm_graph V A HV IV) as (c & Hc & Hcon & Hcnt). destruct (thm_graph V' A HV' IV') as (c' & Hc' & Hcon' & Hcnt').
      exists c, c'. split_and!; [done..| |].
      + apply Hcnt', Hcnt. done.
      + intros a b. destruct (Hcon a b) as (v & d & Hd & Hv). destruct (Hcon' a b) as (v' & d' & Hd' & Hv'). unfold connected.
        split; intros [e He]; [rewrite Hd in He|rewrite Hd' in He]; injection He as -> ->.
        * exists d'. rewrite Hd'. by rewrite (proj2 Hv' (proj1 Hv eq_refl)).
        * exists d. rewrite Hd. by rewrite (proj2 Hv (proj1 Hv' eq_refl)).
    - exact (box_hash_thm V V' A HV HV').
    - destruct (node_counter_thm V A HV) as (c & ? & Hc). destruct (node_counter_thm V' A HV') as (c' & ? & Hc'). exists c, c'. split_and!; [done..|]. intros l. by rewrite Hc, Hc'.
    - destruct (edge_counter_thm V A HV) as (c & ? & Hc). destruct (edge_counter_thm V' A HV') as (c' & ? & Hc'). exists c, c'. split_and!; [done..|]. intros l. by rewrite Hc, Hc'.
  Qed.
  Lemma alike_static it lt it' lt' dir (g g' : graphmap NL EL) ord ord' A A' n :
    represents (gm_view dir ord g) A → represents (gm_view dir ord' g') A' → look_alike (gm_view dir ord g) (gm_view dir ord' g') → a_has_node A n →
    (∀ n, a_has_node A n → (n < id_max it)%N ∧ (n < id_max it')%N) → (∀ n m, a_has_node A n → (m < n)%N → a_has_node A m) →
    (N.of_nat (length (g_nlm g)) ≤ id_max lt)%N → (N.of_nat (length (g_elm g)) ≤ id_max lt)%N →
    (N.of_nat (length (g_nlm g')) ≤ id_max lt')%N → (N.of_nat (length (g_elm g')) ≤ id_max lt')%N →
    ∃ sg sg', gm_into_static it lt dir g = Ok sg ∧ gm_into_static it' lt' dir g' = Ok sg' ∧ look_alike (sg_view it lt dir sg) (sg_view it' lt' dir sg').
  Proof.
    intros HV HV' L Hn Hm Hd L1 L2 L3 L4. pose proof (alike_eq _ _ _ _ HV HV' L) as <-.
    destruct (into_static_dense it lt dir g ord A HV n Hn) as (sg & E & _ & R & _); [intros; by apply Hm|done..|].
    destruct (into_static_dense it' lt' dir g' ord' A HV' n Hn) as (sg' & E' & _ & R' & _); [intros; by apply Hm|done..|].
    exists sg, sg'. split; [done|]. split; [done|]. exact (eq_alike _ _ _ R R').
  Qed.
  (** equal() with any third graph, when the counts are right. *)
  Lemma alike_equal V V' A A' : represents V A → represents V' A' → exact_count V A → exact_count V' A' → (v_equal V V' = Ok true ↔ look_alike V V').
  Proof.
    intros HV HV' C C'. destruct (equal_thm V V' A A' HV HV' C C') as (b & -> & Hb). split.
    - intros [= ->]. destruct (proj1 Hb eq_refl). exact (eq_alike _ _ _ HV HV').
    - intros L. f_equal. apply Hb. exact (alike_eq _ _ _ _ HV HV' L).
  Qed.
End alike.
