(** What each call leaves alone, for every graph a user can obtain. *)
From Verif Require Import Base Api Spec BaseFacts SpecFacts Map MapFacts GraphMap GraphMapFacts
  GraphMapRefine GraphMapQueries GraphMapSim GraphMapThms GraphMapMore ViewFacts.

Section keep.
  Context {NL EL X : Type} `{EqDecision NL, EqDecision EL} (dir : bool) (lt : idty).
  Context (P : nodemap → X) (x : N).
  Implicit Types (g : graphmap NL EL).

  Definition keep g g' : Prop := P <$> g_nodes g' !! x = P <$> g_nodes g !! x.
  Lemma keep_refl g : keep g g. Proof. done. Qed.
  Lemma keep_trans g1 g2 g3 : keep g1 g2 → keep g2 g3 → keep g1 g3.
  Proof. unfold keep. congruence. Qed.
  Lemma keep_same g g' : g_nodes g' = g_nodes g → keep g g'.
  Proof. unfold keep. by intros ->. Qed.
  Lemma keep_present g g' : keep g g' → is_Some (g_nodes g !! x) → is_Some (g_nodes g' !! x).
  Proof. unfold keep. intros Hk [n Hn]. rewrite Hn in Hk. destruct (g_nodes g' !! x); [by eexists|done]. Qed.

  Lemma keep_upd k f g g' : (k = x → ∀ n, P (f n) = P n) → upd_node k f g = Ok g' → keep g g'.
  Proof.
    intros Hf Hu. unfold upd_node in Hu. destruct (g_nodes g !! k) as [n|] eqn:Hn; [|done].
    simpl in Hu. simplify_eq. unfold keep. simpl. destruct (decide (k = x)) as [->|Hne].
    - rewrite lookup_insert, Hn. simpl. by rewrite Hf.
    - by rewrite lookup_insert_ne.
  Qed.
  Lemma keep_rfold f l g g' : (∀ n, P (f n) = P n) →
    rfold (λ g k, upd_node k f g) l g = Ok g' → keep g g'.
  Proof.
    intros Hf. revert g. induction l as [|k l IH]; intros g Hr; simpl in Hr; [by simplify_eq|].
    apply rbind_Ok in Hr as (g1 & Hu & Hr). eapply keep_trans; [eapply keep_upd; [|exact Hu]; done|]. by eapply IH.
  Qed.
  Lemma add_node_label_nodes l g lid g' : gm_add_node_label lt l g = Ok (lid, g') → g_nodes g' = g_nodes g.
  Proof.
    unfold gm_add_node_label. destruct l; [|by intros; simplify_eq].
    intros ([i m] & _ & ?)%rbind_Ok. by simplify_eq.
  Qed.
  Lemma add_edge_label_nodes l g lid g' : gm_add_edge_label lt l g = Ok (lid, g') → g_nodes g' = g_nodes g.
  Proof.
    unfold gm_add_edge_label. destruct l; [|by intros; simplify_eq].
    intros ([i m] & _ & ?)%rbind_Ok. by simplify_eq.
  Qed.
  Lemma keep_add_node id l g b g' : is_Some (g_nodes g !! x) →
    (id = x → ∀ lid n, P (nm_set_label_id lid n) = P n) → gm_add_node lt id l g = Ok (b, g') → keep g g'.
  Proof.
    intros Hx HP Hr. unfold gm_add_node in Hr. apply rbind_Ok in Hr as ([lid g1] & Hl & Hr).
    apply add_node_label_nodes in Hl. unfold gm_has_node in Hr. case_bool_decide as Hid.
    - apply rbind_Ok in Hr as (g2 & Hu & Hr). simplify_eq.
      eapply keep_trans; [by apply keep_same|]. eapply keep_upd; [|done]. intros Hxid n. by apply HP.
    - simplify_eq. rewrite Hl in Hid.
      assert (keep g (set_nodes (<[id:=nm_new id lid]> (g_nodes g1)) g1)) as Hk.
      { unfold keep. simpl. rewrite lookup_insert_ne by (by intros ->). by rewrite Hl. }
      destruct (g_max g1); simpl in *; [case_decide|]; exact Hk.
  Qed.
  Lemma keep_add_edge s t l g b g' : is_Some (g_nodes g !! x) →
    (s = x → ∀ lid n, P (nm_add_edge t lid n).2 = P n) →
    (t = x → dir = true → ∀ n, P (nm_add_in_edge s n) = P n) →
    (t = x → dir = false → ∀ lid n, P (nm_add_edge s lid n).2 = P n) →
    gm_add_edge dir lt s t l g = Ok (b, g') → keep g g'.
  Proof.
    intros Hx Hs Ht1 Ht2 Hr. unfold gm_add_edge in Hr.
    assert (∀ k g g1, is_Some (g_nodes g !! x) →
      (if gm_has_node g k then Ok g else rmap snd (gm_add_node lt k None g)) = Ok g1 → keep g g1) as Htouch.
    { clear -x. intros k g g1 Hx Hr. unfold gm_has_node in Hr. case_bool_decide as Hk; [by simplify_eq|].
      apply rmap_Ok in Hr as ([b g2] & Hr & <-). eapply keep_add_node; [done| |done]. by intros ->. }
    apply rbind_Ok in Hr as (g1 & H1 & Hr). apply Htouch in H1; [|done].
    apply rbind_Ok in Hr as (g2 & H2 & Hr). apply Htouch in H2; [|by eapply keep_present].
    apply rbind_Ok in Hr as ([lid g3] & H3 & Hr). apply add_edge_label_nodes, keep_same in H3.
    apply rbind_Ok in Hr as (ns & Hns & Hr). destruct (g_nodes g3 !! s) as [ns'|] eqn:Hgs; [|done].
    simpl in Hns. simplify_eq. unfold nm_add_edge at 1 in Hr.
    change (NodeMap (nm_id ns) (nm_label ns) (<[t:=lid]> (nm_nbrs ns)) (nm_in ns)) with (nm_add_edge t lid ns).2 in Hr.
    set (g4 := set_nodes (<[s:=(nm_add_edge t lid ns).2]> (g_nodes g3)) g3) in *.
    assert (keep g3 g4) as H4.
    { unfold keep, g4. cbn [g_nodes set_nodes]. destruct (decide (s = x)) as [->|Hne].
      - rewrite lookup_insert, Hgs. cbn [fmap option_fmap option_map]. f_equal. by apply Hs.
      - by rewrite lookup_insert_ne. }
    apply rbind_Ok in Hr as (g5 & H5 & Hr). simplify_eq.
    assert (keep g4 g5) as H5'.
    { destruct dir.
      - eapply keep_upd; [|done]. intros ->. by apply Ht1.
      - case_decide; [by simplify_eq|]. eapply keep_upd; [|done]. intros -> n. by apply Ht2. }
    eapply keep_trans; [exact H1|]. eapply keep_trans; [exact H2|]. eapply keep_trans; [exact H3|].
    eapply keep_trans; [exact H4|]. exact H5'.
  Qed.
  Lemma keep_remove_node id g o g' : id ≠ x →
    (dir = true → ∀ n, P (nm_remove_in_edge id n) = P n) → (∀ n, P (nm_remove_edge id n).2 = P n) →
    gm_remove_node dir id g = Ok (o, g') → keep g g'.
  Proof.
    intros Hne H1 H2 Hr. unfold gm_remove_node in Hr.
    destruct (g_nodes g !! id) as [node|] eqn:Hid; [|by simplify_eq].
    apply rbind_Ok in Hr as (g1 & Hf & Hr). apply rbind_Ok in Hr as (k & _ & Hr). simplify_eq.
    assert (keep g (set_nodes (delete id (g_nodes g)) g)) as H0.
    { unfold keep. simpl. by rewrite lookup_delete_ne. }
    eapply keep_trans; [exact H0|]. change (keep (set_nodes (delete id (g_nodes g)) g) g1).
    destruct dir.
    - apply rbind_Ok in Hf as (g2 & Hf1 & Hf2). eapply keep_trans; [eapply keep_rfold; [|exact Hf1]; by apply H1|].
      eapply keep_rfold; [|exact Hf2]; exact H2.
    - eapply keep_rfold; [|exact Hf]; exact H2.
  Qed.
  Lemma keep_remove_edge s t g o g' :
    (s = x → ∀ n, P (nm_remove_edge t n).2 = P n) →
    (t = x → dir = true → ∀ n, P (nm_remove_in_edge s n) = P n) →
    (t = x → dir = false → ∀ n, P (nm_remove_edge s n).2 = P n) →
    gm_remove_edge dir s t g = Ok (o, g') → keep g g'.
  Proof.
    intros H1 H2 H3 Hr. unfold gm_remove_edge in Hr. destruct (gm_has_edge g s t); [|by simplify_eq].
    apply rbind_Ok in Hr as (ns & Hns & Hr). destruct (g_nodes g !! s) as [ns'|] eqn:Hgs; [|done].
    simpl in Hns. simplify_eq. destruct (nm_remove_edge t ns) as [e ns'] eqn:Hre.
    apply rbind_Ok in Hr as (g1 & Hf & Hr). apply rbind_Ok in Hr as (k & _ & Hr). simplify_eq.
    eapply (keep_trans _ (set_nodes (<[s:=ns']> (g_nodes g)) g)).
    - unfold keep. simpl. destruct (decide (s = x)) as [->|Hne].
      + rewrite lookup_insert, Hgs. cbn [fmap option_fmap option_map]. f_equal.
        pose proof (H1 eq_refl ns) as HP. by rewrite Hre in HP.
      + by rewrite lookup_insert_ne.
    - change (keep (set_nodes (<[s:=ns']> (g_nodes g)) g) g1). destruct dir.
      + eapply keep_upd; [|done]. intros ->. by apply H2.
      + eapply keep_upd; [|done]. intros ->. by apply H3.
  Qed.
End keep.

Section frame.
  Context {NL EL : Type} `{EqDecision NL, EqDecision EL} (dir : bool) (lt : idty).
  Notation PNt := (λ (_ : list NL) (_ : option N) (_ : option NL), True).
  Notation PEt := (λ (_ : list EL) (_ : option N) (_ : option EL), True).
  Notation skrel := (rel dir PNt PEt).
  Implicit Types (g : graphmap NL EL) (s : sstate NL EL).

  (** The stored label id of a node. *)
  Lemma step_keeps_node n o g r g' : modifies_node n o = false → is_Some (g_nodes g !! n) →
    gm_step dir lt o g = Ok (r, g') → nm_label <$> g_nodes g' !! n = nm_label <$> g_nodes g !! n.
  Proof.
    intros Hm Hn Hs. change (keep nm_label n g g').
    destruct o as [m l|x y l|m|x y|m l|x y l|l|l| |m lid|x y lid]; simpl in Hm, Hs;
      rewrite ?bool_decide_eq_false in Hm;
      try (apply rmap_Ok in Hs as ([b g1] & Hs & ?); simplify_eq; simpl).
    - eapply keep_add_node; [done| |done]. by intros ->.
    - eapply keep_add_edge; [done|done| |done|done]. intros _ _ nd. apply nm_add_in_edge_label.
    - eapply keep_remove_node; [done|done| |done]. intros nd. apply nm_remove_edge_label.
    - eapply keep_remove_edge; [|done| |done]; intros; apply nm_remove_edge_label.
    - unfold gm_update_node_label in Hs. destruct (gm_has_node g m); [|by simplify_eq].
      apply rmap_Ok in Hs as ([b' g2] & Hs & ?). simplify_eq. eapply keep_add_node; [done| |done]. by intros ->.
    - unfold gm_update_edge_label in Hs. destruct (gm_has_edge g x y); [|by simplify_eq].
      apply rmap_Ok in Hs as ([b' g2] & Hs & ?). simplify_eq.
      eapply keep_add_edge; [done|done| |done|done]. intros _ _ nd. apply nm_add_in_edge_label.
    - apply add_node_label_nodes in Hs. by apply keep_same.
    - apply add_edge_label_nodes in Hs. by apply keep_same.
    - by simplify_eq.
    - unfold gm_set_node_label_id in Hs. destruct (g_nodes g !! m); simplify_eq; [|done].
      unfold keep. simpl. by rewrite lookup_insert_ne.
    - unfold gm_set_edge_label_id in Hs. destruct (gm_has_edge g x y); [|by simplify_eq].
      apply rbind_Ok in Hs as (nd & Hnd & Hs). destruct (g_nodes g !! x) as [nd'|] eqn:Hx; [|done].
      simpl in Hnd. simplify_eq. unfold nm_set_neighbor_label in Hs. destruct (nm_nbrs nd !! y); simplify_eq; [|done].
      unfold keep. simpl. destruct (decide (x = n)) as [->|]; [by rewrite lookup_insert, Hx|by rewrite lookup_insert_ne].
  Qed.
  (** The stored entry of an edge. *)
  Lemma step_keeps_edge x y o g r g' : modifies_edge dir x y o = false → is_Some (g_nodes g !! x) →
    gm_step dir lt o g = Ok (r, g') →
    (λ nd, nm_nbrs nd !! y) <$> g_nodes g' !! x = (λ nd, nm_nbrs nd !! y) <$> g_nodes g !! x.
  Proof.
    intros Hm Hn Hs. change (keep (λ nd, nm_nbrs nd !! y) x g g').
    assert (∀ (s t : N), ekey dir s t ≠ ekey dir x y → (s = x → t ≠ y) ∧ (dir = false → t = x → s ≠ y)) as Hek.
    { intros s t Hne. rewrite ekey_eq in Hne. naive_solver. }
    assert (∀ (s t : N) l g b g', ekey dir s t ≠ ekey dir x y → is_Some (g_nodes g !! x) →
      gm_add_edge dir lt s t l g = Ok (b, g') → keep (λ nd, nm_nbrs nd !! y) x g g') as Hadd.
    { clear -Hek. intros s t l g b g' Hne Hx Hs. apply Hek in Hne as [Hn1 Hn2].
      eapply keep_add_edge; [done|..|done].
      - intros Hsx lid nd. simpl. by rewrite lookup_insert_ne by auto.
      - intros _ _ nd. by rewrite nm_add_in_edge_nbrs.
      - intros Htx Hd lid nd. simpl. by rewrite lookup_insert_ne by auto. }
    destruct o as [m l|s t l|m|s t|m l|s t l|l|l| |m lid|s t lid]; simpl in Hm, Hs;
      rewrite ?bool_decide_eq_false in Hm;
      try (apply rmap_Ok in Hs as ([b g1] & Hs & ?); simplify_eq; simpl).
    - eapply keep_add_node; [done|done|done].
    - by eapply Hadd.
    - eapply keep_remove_node; [|done| |done]; [naive_solver|]. intros nd. rewrite nm_remove_edge_nbrs.
      rewrite decide_False; [done|naive_solver].
    - apply Hek in Hm as [Hn1 Hn2]. eapply keep_remove_edge; [|done| |done].
      + intros Hsx nd. rewrite nm_remove_edge_nbrs, decide_False; [done|]. intros ->. by apply Hn1.
      + intros Htx Hd nd. rewrite nm_remove_edge_nbrs, decide_False; [done|]. intros ->. by apply Hn2.
    - unfold gm_update_node_label in Hs. destruct (gm_has_node g m); [|by simplify_eq].
      apply rmap_Ok in Hs as ([b' g2] & Hs & ?). simplify_eq. by eapply keep_add_node.
    - unfold gm_update_edge_label in Hs. destruct (gm_has_edge g s t); [|by simplify_eq].
      apply rmap_Ok in Hs as ([b' g2] & Hs & ?). simplify_eq. by eapply Hadd.
    - apply add_node_label_nodes in Hs. by apply keep_same.
    - apply add_edge_label_nodes in Hs. by apply keep_same.
    - by simplify_eq.
    - unfold gm_set_node_label_id in Hs. destruct (g_nodes g !! m) eqn:Hgm; simplify_eq; [|done].
      unfold keep. simpl. destruct (decide (m = x)) as [->|]; [by rewrite lookup_insert, Hgm|by rewrite lookup_insert_ne].
    - apply Hek in Hm as [Hn1 Hn2].
      unfold gm_set_edge_label_id in Hs. destruct (gm_has_edge g s t); [|by simplify_eq].
      apply rbind_Ok in Hs as (nd & Hnd & Hs). destruct (g_nodes g !! s) as [nd'|] eqn:Hx; [|done].
      simpl in Hnd. simplify_eq. unfold nm_set_neighbor_label in Hs. destruct (nm_nbrs nd !! t); simplify_eq; [|done].
      unfold keep. simpl. destruct (decide (s = x)) as [->|]; [|by rewrite lookup_insert_ne].
      rewrite lookup_insert, Hx. cbn [fmap option_fmap option_map nm_nbrs]. rewrite lookup_insert_ne; [done|]. by apply Hn1.
  Qed.

  (** Label maps only grow. *)
  Lemma step_label_maps o g s r g' : skrel g s → gm_step dir lt o g = Ok (r, g') →
    ∃ s', skrel g' s' ∧ g_nlm g `prefix_of` g_nlm g' ∧ g_elm g `prefix_of` g_elm g'.
  Proof.
    intros H Hs. destruct (skrel_step dir lt g s o H) as [(r' & g1 & s' & Hs' & H' & Hcase)|(Hs' & _)]; [|congruence].
    rewrite Hs in Hs'. simplify_eq. exists s'. split; [done|].
    rewrite (r_nls _ _ _ _ _ H), (r_els _ _ _ _ _ H), (r_nls _ _ _ _ _ H'), (r_els _ _ _ _ _ H').
    destruct Hcase as [[_ ->]|(_ & r0 & Ho & _)]; [done|by eapply spec_step_prefix].
  Qed.

  Lemma run_keeps_node n h g s rs g' lid : skrel g s → Forall (λ o, modifies_node n o = false) h →
    nm_label <$> g_nodes g !! n = Some lid → gm_run dir lt h g = Ok (rs, g') →
    nm_label <$> g_nodes g' !! n = Some lid ∧ g_nlm g `prefix_of` g_nlm g' ∧ ∃ s', skrel g' s'.
  Proof.
    revert g s rs. induction h as [|o h IH]; intros g s rs H Hf Hn Hr; simpl in Hr.
    - simplify_eq. by eauto.
    - apply rbind_Ok in Hr as ([r g1] & Hs & Hr). apply rmap_Ok in Hr as ([rs1 g2] & Hr & ?). simplify_eq.
      apply Forall_cons in Hf as [Ho Hf]. destruct (step_label_maps o g s r g1 H Hs) as (s1 & H1 & Hp & _).
      apply (step_keeps_node n) in Hs; [|done|destruct (g_nodes g !! n); [by eexists|done]].
      destruct (IH g1 s1 rs1 H1 Hf) as (? & ? & ?); [congruence|done|]. split; [done|]. split; [by etrans|done].
  Qed.
  Lemma run_keeps_edge x y h g s rs g' lid : skrel g s → Forall (λ o, modifies_edge dir x y o = false) h →
    (λ nd, nm_nbrs nd !! y) <$> g_nodes g !! x = Some lid → gm_run dir lt h g = Ok (rs, g') →
    (λ nd, nm_nbrs nd !! y) <$> g_nodes g' !! x = Some lid ∧ g_elm g `prefix_of` g_elm g' ∧ ∃ s', skrel g' s'.
  Proof.
    revert g s rs. induction h as [|o h IH]; intros g s rs H Hf Hn Hr; simpl in Hr.
    - simplify_eq. by eauto.
    - apply rbind_Ok in Hr as ([r g1] & Hs & Hr). apply rmap_Ok in Hr as ([rs1 g2] & Hr & ?). simplify_eq.
      apply Forall_cons in Hf as [Ho Hf]. destruct (step_label_maps o g s r g1 H Hs) as (s1 & H1 & _ & Hp).
      apply (step_keeps_edge x y) in Hs; [|done|destruct (g_nodes g !! x); [by eexists|done]].
      destruct (IH g1 s1 rs1 H1 Hf) as (? & ? & ?); [congruence|done|]. split; [done|]. split; [by etrans|done].
  Qed.

  Lemma gm_run_app h1 h2 g : gm_run dir lt (h1 ++ h2) g =
    let* '(rs1, g1) := gm_run dir lt h1 g in rmap (λ p, (rs1 ++ p.1, p.2)) (gm_run dir lt h2 g1).
  Proof.
    revert g. induction h1 as [|o h1 IH]; intros g; simpl.
    - cbn [rbind]. by destruct (gm_run dir lt h2 g) as [[? ?]| |].
    - destruct (gm_step dir lt o g) as [[r g1]| |]; cbn [rbind]; [|done..]. rewrite IH.
      destruct (gm_run dir lt h1 g1) as [[rs1 g2]| |]; cbn [rbind rmap]; [|done..].
      cbn [fst snd]. by destruct (gm_run dir lt h2 g2) as [[? ?]| |].
  Qed.

  (** What add_node and add_edge store. *)
  Lemma add_node_stores n (l : NL) g s r g' : skrel g s → gm_step dir lt (OAddNode n (Some l)) g = Ok (r, g') →
    ∃ i, nm_label <$> g_nodes g' !! n = Some (Some (id_new lt i)) ∧ g_nlm g' !! i = Some l.
  Proof.
    intros H Hs. simpl in Hs. apply rmap_Ok in Hs as ([b g1] & Hs & ?). simplify_eq. simpl.
    unfold gm_add_node in Hs. simpl in Hs. destruct (register_snd (g_nlm g) l) as (i & Hi & _ & Hlk).
    rewrite Hi in Hs. cbn [rbind] in Hs. exists i. unfold gm_has_node in Hs. simpl in Hs.
    case_bool_decide as Hn.
    - apply rbind_Ok in Hs as (g2 & Hu & Hs). simplify_eq. unfold upd_node in Hu. simpl in Hu.
      destruct Hn as [nd Hn]. rewrite Hn in Hu. simpl in Hu. simplify_eq. simpl. by rewrite lookup_insert.
    - simplify_eq. destruct (g_max g) as [k|]; simpl; [case_decide; simpl|]; by rewrite lookup_insert.
  Qed.

  Lemma add_node_nlm id l g b g' : gm_add_node lt id l g = Ok (b, g') → g_elm g' = g_elm g.
  Proof.
    intros Hr. unfold gm_add_node in Hr. apply rbind_Ok in Hr as ([lid g1] & Hl & Hr).
    assert (g_elm g1 = g_elm g) as Hl1.
    { unfold gm_add_node_label in Hl. destruct l; [|by simplify_eq]. apply rbind_Ok in Hl as ([? ?] & _ & ?). by simplify_eq. }
    destruct (gm_has_node g1 id).
    - apply rbind_Ok in Hr as (g2 & Hu & Hr). simplify_eq. unfold upd_node in Hu.
      destruct (g_nodes g1 !! id); [|done]. simpl in Hu. by simplify_eq.
    - simplify_eq. simpl. destruct (g_max g1); simpl; [case_decide; simpl|]; done.
  Qed.
  Lemma add_edge_stores x y (l : EL) g s r g' : skrel g s → gm_step dir lt (OAddEdge x y (Some l)) g = Ok (r, g') →
    ∃ i, (λ nd, nm_nbrs nd !! y) <$> g_nodes g' !! x = Some (Some (Some (id_new lt i))) ∧
      (dir = false → (λ nd, nm_nbrs nd !! x) <$> g_nodes g' !! y = Some (Some (Some (id_new lt i)))) ∧
      g_elm g' !! i = Some l.
  Proof.
    intros H Hs. simpl in Hs. apply rmap_Ok in Hs as ([b g1] & Hs & ?). simplify_eq. simpl.
    unfold gm_add_edge in Hs.
    apply rbind_Ok in Hs as (g2 & H2 & Hs). apply rbind_Ok in Hs as (g3 & H3 & Hs).
    apply rbind_Ok in Hs as ([lid g4] & H4 & Hs). simpl in H4.
    destruct (register_snd (g_elm g3) l) as (i & Hi & _ & Hlk). rewrite Hi in H4. simpl in H4. simplify_eq.
    exists i. apply rbind_Ok in Hs as (ns & Hns & Hs). simpl in Hns.
    destruct (g_nodes g3 !! x) as [ns'|] eqn:Hx; [|done]. simpl in Hns. simplify_eq.
    unfold nm_add_edge at 1 in Hs. apply rbind_Ok in Hs as (g5 & H5 & Hs). simplify_eq. simpl.
    destruct dir.
    - unfold upd_node in H5. simpl in H5. destruct (<[x:=_]> (g_nodes g3) !! y) as [nt|] eqn:Hy; [|done].
      simpl in H5. simplify_eq. simpl. split; [|done]. destruct (decide (x = y)) as [->|Hne].
      + rewrite lookup_insert in Hy. simplify_eq. rewrite lookup_insert. cbn [fmap option_fmap option_map].
        rewrite nm_add_in_edge_nbrs. simpl. by rewrite lookup_insert.
      + rewrite lookup_insert_ne by done. rewrite lookup_insert. cbn [fmap option_fmap option_map nm_nbrs]. by rewrite lookup_insert.
    - case_decide as Hxy.
      + simplify_eq. simpl. rewrite lookup_insert. cbn [fmap option_fmap option_map nm_nbrs]. by rewrite lookup_insert.
      + unfold upd_node in H5. simpl in H5. rewrite lookup_insert_ne in H5 by done.
        destruct (g_nodes g3 !! y) as [nt|] eqn:Hy; [|done]. simpl in H5. simplify_eq. simpl.
        rewrite lookup_insert_ne by done. rewrite !lookup_insert. cbn [fmap option_fmap option_map nm_nbrs].
        by rewrite !lookup_insert.
  Qed.

  Lemma fit_lookup {X} (ls : list X) i x : labels_fit lt ls → ls !! i = Some x →
    ls !! id_id (id_new lt i) = Some x.
  Proof.
    intros Hf Hi. rewrite id_new_id; [done|]. apply lookup_lt_Some in Hi. unfold labels_fit in Hf. lia.
  Qed.

  (** C16 *)
  Lemma node_label_round_trip nls els h1 n l h2 rs g it :
    NoDup nls → NoDup els →
    gm_run dir lt (h1 ++ OAddNode n (Some l) :: h2) (gm_with_label_map nls els) = Ok (rs, g) →
    Forall (λ o, modifies_node n o = false) h2 → labels_fit lt (g_nlm g) →
    v_node_label (gm_view dir it g) n = Ok (Some l).
  Proof.
    intros Hn He Hr Hf Hfit. rewrite gm_run_app in Hr. apply rbind_Ok in Hr as ([rs1 g1] & Hr1 & Hr).
    apply rmap_Ok in Hr as ([rs2 g2] & Hr & ?). simplify_eq. cbn [gm_run] in Hr.
    destruct (run_skrel dir lt _ _ _ _ _ (skrel_init dir nls els Hn He) Hr1) as [s1 H1].
    apply rbind_Ok in Hr as ([r g3] & Hs & Hr). apply rmap_Ok in Hr as ([rs3 g4] & Hr & ?). simplify_eq.
    destruct (add_node_stores n l g1 s1 r g3 H1 Hs) as (i & Hi & Hlk).
    destruct (step_label_maps _ g1 s1 r g3 H1 Hs) as (s3 & H3 & _).
    destruct (run_keeps_node n h2 g3 s3 rs3 g4 _ H3 Hf Hi Hr) as (Hl & Hp & _). cbn [fst snd] in *.
    unfold v_node_label. simpl. unfold gm_get_node. destruct (g_nodes g4 !! n) as [nd|]; [|done].
    cbn [fmap option_fmap option_map rbind] in *. injection Hl as Hl. rewrite Hl. f_equal.
    apply fit_lookup; [done|]. by eapply prefix_lookup.
  Qed.
  Lemma edge_label_round_trip nls els h1 x y l h2 rs g it :
    NoDup nls → NoDup els →
    gm_run dir lt (h1 ++ OAddEdge x y (Some l) :: h2) (gm_with_label_map nls els) = Ok (rs, g) →
    Forall (λ o, modifies_edge dir x y o = false) h2 → labels_fit lt (g_elm g) →
    v_edge_label (gm_view dir it g) x y = Ok (Some l) ∧
    (dir = false → v_edge_label (gm_view dir it g) y x = Ok (Some l)).
  Proof.
    intros Hn He Hr Hf Hfit. rewrite gm_run_app in Hr. apply rbind_Ok in Hr as ([rs1 g1] & Hr1 & Hr).
    apply rmap_Ok in Hr as ([rs2 g2] & Hr & ?). simplify_eq. cbn [gm_run] in Hr.
    destruct (run_skrel dir lt _ _ _ _ _ (skrel_init dir nls els Hn He) Hr1) as [s1 H1].
    apply rbind_Ok in Hr as ([r g3] & Hs & Hr). apply rmap_Ok in Hr as ([rs3 g4] & Hr & ?). simplify_eq.
    destruct (add_edge_stores x y l g1 s1 r g3 H1 Hs) as (i & Hi & Hi' & Hlk).
    destruct (step_label_maps _ g1 s1 r g3 H1 Hs) as (s3 & H3 & _).
    assert (∀ a b, (λ nd, nm_nbrs nd !! b) <$> g_nodes g4 !! a = Some (Some (Some (id_new lt i))) →
      g_elm g3 `prefix_of` g_elm g4 → v_edge_label (gm_view dir it g4) a b = Ok (Some l)) as Hread.
    { intros a b Hab Hp. unfold v_edge_label. simpl. unfold gm_get_edge, gm_has_edge, nm_has_neighbor.
      destruct (g_nodes g4 !! a) as [nd|]; [|done]. cbn [fmap option_fmap option_map] in Hab. injection Hab as Hab.
      rewrite bool_decide_true by (by rewrite Hab; eexists). cbn [unwrap rbind]. unfold nm_get_neighbor. rewrite Hab.
      cbn [unwrap rbind]. f_equal. apply fit_lookup; [done|]. by eapply prefix_lookup. }
    split.
    - destruct (run_keeps_edge x y h2 g3 s3 rs3 g4 _ H3 Hf Hi Hr) as (Hl & Hp & _). by apply Hread.
    - intros Hd. destruct (run_keeps_edge y x h2 g3 s3 rs3 g4 (Some (Some (id_new lt i))) H3) as (Hl & Hp & _); [| |done|by apply Hread].
      + eapply Forall_impl; [exact Hf|]. intros o. destruct o; simpl; try done; rewrite !bool_decide_eq_false.
        all: rewrite ?(ekey_sym x y), ?Hd, ?(ekey_sym x y); naive_solver.
      + by apply Hi'.
  Qed.

  (** C17 *)
  Lemma return_values g it : gm_reachable dir lt g →
    let V := gm_view dir it g in
    (∀ n l, ∃ g', gm_step dir lt (OAddNode n l) g = Ok (RBool (negb (v_has_node V n)), g')) ∧
    (∀ x y l, ∃ b g', v_has_edge V x y = Ok b ∧ gm_step dir lt (OAddEdge x y l) g = Ok (RBool (negb b), g')) ∧
    (∀ n l, ∃ g', gm_step dir lt (OUpdateNodeLabel n l) g = Ok (RBool (v_has_node V n), g')) ∧
    (∀ x y l, ∃ b g', v_has_edge V x y = Ok b ∧ gm_step dir lt (OUpdateEdgeLabel x y l) g = Ok (RBool b, g')) ∧
    (∀ n, v_has_edge V n n = Ok false → ∃ lb g', v_node_label V n = Ok lb ∧
      gm_step dir lt (ORemoveNode n) g = Ok (RNode (if v_has_node V n then Some (n, lb) else None), g')) ∧
    (∀ x y, ∃ b lb g', v_has_edge V x y = Ok b ∧ v_edge_label V x y = Ok lb ∧
      gm_step dir lt (ORemoveEdge x y) g = Ok (REdge (if b then Some (x, y, lb) else None), g')) ∧
    (∀ n lid, ∃ g', gm_step dir lt (OSetNodeLabelId n lid) g = Ok (RBool (v_has_node V n), g')) ∧
    (∀ x y lid, ∃ b g', v_has_edge V x y = Ok b ∧ gm_step dir lt (OSetEdgeLabelId x y lid) g = Ok (RBool b, g')).
  Proof.
    intros [s H]%(reach_skrel dir lt) V. pose proof (r_abs _ _ _ _ _ H) as Ha.
    assert (∀ n, v_has_node V n = bool_decide (is_Some (ag_nodes (sp_g s) !! n))) as HVn.
    { intros n. apply (rel_has_node dir PNt PEt g s n H). }
    assert (∀ x y, v_has_edge V x y = Ok (bool_decide (is_Some (a_edge_at (sp_g s) x y)))) as HVe.
    { intros x y. simpl. by rewrite (rel_has_edge dir PNt PEt g s x y H). }
    assert (∀ o b, is_raw o = false → (∀ s', spec_step o s = SOk (b, s') →
      match b with RBool _ => True | _ => False end → ∃ g', gm_step dir lt o g = Ok (b, g'))) as Hbool.
    { intros o b Hraw s' Ho Hb. pose proof (sk_step dir lt o g s H Hraw) as Hs. rewrite Ho in Hs.
      destruct Hs as (r' & g' & Hg & _ & Hr). exists g'. rewrite Hg. do 2 f_equal. destruct b; try done.
      destruct r'; simpl in Hr; congruence. }
    assert (∀ {X} (o : option X), bool_decide (o = None) = negb (bool_decide (is_Some o))) as Hneg.
    { intros X o. by destruct o. }
    split_and!.
    - intros n l. rewrite HVn, <-Hneg. by eapply Hbool.
    - intros x y l. exists (bool_decide (is_Some (a_edge_at (sp_g s) x y))). rewrite HVe. destruct (Hbool (OAddEdge x y l) _ eq_refl _ eq_refl I) as [g' Hg']. eexists. split; [done|].
      rewrite Hg'. by rewrite Hneg.
    - intros n l. rewrite HVn. destruct (ag_nodes (sp_g s) !! n) as [l0|] eqn:Hn.
      + rewrite bool_decide_true by (by eexists). eapply (Hbool (OUpdateNodeLabel n l)); [done| |done]. simpl. by rewrite Hn.
      + rewrite bool_decide_false by (by intros [? ?]). eapply (Hbool (OUpdateNodeLabel n l)); [done| |done]. simpl. by rewrite Hn.
    - intros x y l. exists (bool_decide (is_Some (a_edge_at (sp_g s) x y))). rewrite HVe. destruct (a_edge_at (sp_g s) x y) as [l0|] eqn:Hn.
      + rewrite bool_decide_true by (by eexists).
        destruct (Hbool (OUpdateEdgeLabel x y l) (RBool true) eq_refl (s_add_edge x y l s)) as [g' Hg']; [simpl; by rewrite Hn|done|].
        exists g'. split; [reflexivity|exact Hg'].
      + rewrite bool_decide_false by (by intros [? ?]).
        destruct (Hbool (OUpdateEdgeLabel x y l) (RBool false) eq_refl s) as [g' Hg']; [simpl; by rewrite Hn|done|].
        exists g'. split; [reflexivity|exact Hg'].
    - intros n. rewrite HVe, HVn. intros [= Hloop%bool_decide_eq_false].
      destruct (ag_nodes (sp_g s) !! n) as [l0|] eqn:Hn.
      + rewrite bool_decide_true by (by eexists).
        destruct (rel_remove_node_ok dir PNt PEt g s n l0 H Hn Hloop) as (node & g' & Hr & Hnode & Hid & _ & Hnlm & _).
        exists (lookup_label (g_nlm g) (nm_label node)), g'. split.
        * unfold v_node_label. simpl. unfold gm_get_node. rewrite Hnode. simpl. by destruct (nm_label node).
        * simpl. rewrite Hr. simpl. by rewrite Hnlm, Hid.
      + rewrite bool_decide_false by (by intros [? ?]). exists None, g. split.
        * unfold v_node_label. simpl. unfold gm_get_node.
          by rewrite (proj2 (abs_node_None _ _ _ _ _ n Ha) Hn).
        * simpl. by rewrite (rel_remove_node_none dir PNt PEt g s n).
    - intros x y. rewrite HVe. exists (bool_decide (is_Some (a_edge_at (sp_g s) x y))). destruct (a_edge_at (sp_g s) x y) as [l0|] eqn:Hn.
      + rewrite bool_decide_true by (by eexists).
        destruct (rel_remove_edge_ok dir PNt PEt g s x y l0 H Hn) as (lid & g' & Hr & _ & Helm & _).
        exists (lookup_label (g_elm g) lid), g'. split; [done|].
        assert (gm_get_edge g x y = Ok (Some (x, y, lid))) as Hget.
        { unfold gm_remove_edge in Hr. unfold gm_get_edge. destruct (gm_has_edge g x y); [|done].
          apply rbind_Ok in Hr as (ns & Hns & Hr). destruct (g_nodes g !! x) as [ns'|] eqn:Hx; [|done].
          simpl in Hns. simplify_eq. unfold nm_remove_edge at 1 in Hr. cbn [unwrap rbind]. unfold nm_get_neighbor.
          destruct (nm_nbrs ns !! y) as [l|]; apply rbind_Ok in Hr as (? & _ & Hr); apply rbind_Ok in Hr as (? & _ & Hr);
            simplify_eq. done. }
        split.
        * unfold v_edge_label. simpl. rewrite Hget. simpl. by destruct lid.
        * simpl. rewrite Hr. simpl. by rewrite Helm.
      + rewrite bool_decide_false by (by intros [? ?]). exists None, g. split; [done|]. split.
        * unfold v_edge_label. simpl. unfold gm_get_edge. rewrite (rel_has_edge dir PNt PEt g s x y H), Hn.
          rewrite bool_decide_false by (by intros [? ?]). done.
        * simpl. by rewrite (rel_remove_edge_none dir PNt PEt g s x y).
    - intros n lid. simpl. unfold gm_set_node_label_id, gm_has_node. destruct (g_nodes g !! n); by eexists.
    - intros x y lid. exists (gm_has_edge g x y). simpl. unfold gm_set_edge_label_id.
      destruct (gm_has_edge g x y) eqn:He; [|by eexists].
      unfold gm_has_edge, nm_has_neighbor in He. destruct (g_nodes g !! x) as [nd|]; [|done].
      apply bool_decide_eq_true in He as [l0 Hl0]. cbn [unwrap rbind]. unfold nm_set_neighbor_label. rewrite Hl0.
      eexists. split; [done|]. done.
  Qed.

  (** C18 *)
  Lemma remove_node_frame g it n r g' it' : gm_reachable dir lt g → hash_order g it → hash_order g' it' →
    gm_step dir lt (ORemoveNode n) g = Ok (RNode (Some r), g') →
    let V := gm_view dir it g in let V' := gm_view dir it' g' in
    (∀ m, v_has_node V' m = true ↔ m ≠ n ∧ v_has_node V m = true) ∧
    (∀ x y, v_has_edge V' x y = Ok true ↔ x ≠ n ∧ y ≠ n ∧ v_has_edge V x y = Ok true) ∧
    (∀ m, m ≠ n → v_node_label V' m = v_node_label V m) ∧
    (∀ x y, x ≠ n → y ≠ n → v_edge_label V' x y = v_edge_label V x y) ∧
    (∃ es, v_edge_indices V = Ok es ∧
       v_edge_count V = v_edge_count V' + length (filter (touches n) es)).
  Proof.
    intros [s H]%(reach_skrel dir lt) Hit Hit' Hs V V'.
    pose proof (r_abs _ _ _ _ _ H) as Ha. simpl in Hs. apply rmap_Ok in Hs as ([o g1] & Hs & Heq).
    destruct (ag_nodes (sp_g s) !! n) as [l0|] eqn:Hn.
    2:{ rewrite (rel_remove_node_none dir PNt PEt g s n) in Hs by done. by simplify_eq. }
    destruct (decide (a_has_edge (sp_g s) n n)) as [Hloop|Hloop].
    { by rewrite (rel_remove_node_panic dir PNt PEt g s n) in Hs. }
    destruct (rel_remove_node_ok dir PNt PEt g s n l0 H Hn Hloop) as (node & g2 & Hr & Hnode & Hid & _ & Hnlm & Helm & Hnodes & H2).
    rewrite Hr in Hs. injection Hs as <- <-. injection Heq as _ Heq. cbn [fst snd] in *. subst g2. cbn [fst snd] in *.
    assert (∀ k, k ≠ n → nm_label <$> g_nodes g' !! k = nm_label <$> g_nodes g !! k) as Hlab.
    { intros k Hk. rewrite Hnodes, lookup_remove_node_map, decide_False by done.
      destruct (g_nodes g !! k) as [nd|]; [|done]. cbn [fmap option_fmap option_map]. f_equal.
      destruct dir; repeat case_decide; rewrite ?nm_remove_edge_label; done. }
    assert (∀ k y, k ≠ n → y ≠ n → (λ nd, nm_nbrs nd !! y) <$> g_nodes g' !! k = (λ nd, nm_nbrs nd !! y) <$> g_nodes g !! k) as Hnb.
    { intros k y Hk Hy. rewrite Hnodes, lookup_remove_node_map, (decide_False (P := k = n)) by done.
      destruct (g_nodes g !! k) as [nd|]; [|done]. cbn [fmap option_fmap option_map]. f_equal.
      destruct dir; repeat case_decide; rewrite ?nm_remove_edge_nbrs, ?(decide_False (P := y = n)) by done; done. }
    split_and!.
    - intros m. unfold V, V'. cbn [v_has_node gm_view]. rewrite (rel_has_node dir PNt PEt _ _ m H2), (rel_has_node dir PNt PEt _ _ m H).
      rewrite !bool_decide_eq_true. simpl. apply remove_node_has_node.
    - intros x y. unfold V, V'. cbn [v_has_edge gm_view]. rewrite (rel_has_edge dir PNt PEt _ _ x y H2), (rel_has_edge dir PNt PEt _ _ x y H). simpl.
      rewrite remove_node_edge_at. destruct (decide (x = n ∨ y = n)) as [Hd|Hd].
      + rewrite bool_decide_false by (by intros [? ?]). split; [done|]. intros (? & ? & _). by destruct Hd.
      + split; [intros Hb|by intros (_ & _ & Hb)]. split_and!; [| |done]; intros ->; apply Hd; auto.
    - intros m Hm. unfold v_node_label. simpl. unfold gm_get_node. rewrite Hnlm. specialize (Hlab m Hm).
      destruct (g_nodes g' !! m) as [nd'|], (g_nodes g !! m) as [nd|]; simpl in *; try done.
      injection Hlab as Hlab. by rewrite Hlab.
    - intros x y Hx Hy. unfold v_edge_label. simpl. unfold gm_get_edge, gm_has_edge, nm_has_neighbor, nm_get_neighbor.
      rewrite Helm. specialize (Hnb x y Hx Hy).
      destruct (g_nodes g' !! x) as [nd'|], (g_nodes g !! x) as [nd|]; cbn [fmap option_fmap option_map] in *; try done.
      injection Hnb as Hnb. rewrite Hnb. case_bool_decide as Hb; [|done].
      destruct Hb as [? Hb]. cbn [unwrap rbind]. by rewrite Hnb.
    - eexists. split; [done|]. unfold V, V'. cbn [v_edge_count gm_view]. unfold gm_edge_count. rewrite (r_count _ _ _ _ _ H), (r_count _ _ _ _ _ H2). simpl.
      pose proof (edge_indices_exact dir _ _ g _ it Ha Hit) as [Hnd Hl].
      assert (length (filter (touches n) (gm_edge_indices dir g it)) = size (a_incident n (sp_g s))) as ->.
      { apply lists_exactly_length. split; [by apply NoDup_filter|]. intros e. rewrite elem_of_list_filter, Hl.
        unfold a_incident. split.
        - intros [Ht [l Hl']]. exists l. by apply map_filter_lookup_Some.
        - intros [l Hl']. apply map_filter_lookup_Some in Hl' as [Hl' Ht]. simpl in Ht. split; [done|by eexists]. }
      pose proof (remove_node_num_edges n (sp_g s)). pose proof (r_ge _ _ _ _ _ H). lia.
  Qed.

  (** C19 *)
  Lemma set_edge_label_spec g it x y lid r g' it' : gm_reachable dir lt g →
    gm_step dir lt (OSetEdgeLabelId x y lid) g = Ok (RBool r, g') → r = true →
    (∀ a b, v_get_edge (gm_view dir it' g') a b =
      if decide ((a, b) = (x, y)) then Ok (Some (x, y, lid)) else v_get_edge (gm_view dir it g) a b).
  Proof.
    intros _ Hs -> a b. simpl in *. apply rmap_Ok in Hs as ([r' g1] & Hs & ?). simplify_eq.
    unfold gm_set_edge_label_id in Hs. destruct (gm_has_edge g x y) eqn:He; [|done].
    unfold gm_has_edge, nm_has_neighbor in He. destruct (g_nodes g !! x) as [nd|] eqn:Hx; [|done].
    apply bool_decide_eq_true in He as [l0 Hl0]. cbn [unwrap rbind] in Hs. unfold nm_set_neighbor_label in Hs.
    rewrite Hl0 in Hs. simplify_eq. unfold gm_get_edge, gm_has_edge, nm_has_neighbor, nm_get_neighbor. simpl.
    destruct (decide (a = x)) as [->|Ha].
    - rewrite lookup_insert, Hx. simpl. destruct (decide (b = y)) as [->|Hb].
      + rewrite lookup_insert, decide_True by done. rewrite bool_decide_true by (by eexists). done.
      + rewrite lookup_insert_ne, decide_False by (done || naive_solver). done.
    - rewrite lookup_insert_ne, decide_False by (done || naive_solver). done.
  Qed.
End frame.
