(** The order of calls, on the model of GraphMap. *)
From Verif Require Import Base BaseFacts Api Spec SpecFacts Map GraphMap GraphMapFacts GraphMapRefine GraphMapQueries GraphMapSim GraphMapThms
  GraphMapMore GraphMapProps GraphOpsFacts SpecHist HistFacts.

Section hist.
  Context {NL EL : Type} `{EqDecision NL, EqDecision EL} (dir : bool) (lt : idty).
  Context (nls : list NL) (els : list EL) (Hn : NoDup nls) (He : NoDup els).
  Implicit Types (g : graphmap NL EL) (s : sstate NL EL) (h : list (gop NL EL)).
  Notation init := (gm_with_label_map nls els).
  Notation sinit := (s_init dir nls els).
  Notation plain h := (Forall (λ o, is_raw o = false) h).

  Lemma strip_plain h : plain h → strip h = h.
  Proof. intros Hf. unfold strip. induction Hf; [done|]. rewrite filter_cons_True by done. by f_equal. Qed.
  Lemma on_graph_plain h : Forall (λ o, on_graph o = true) h → plain h.
  Proof. intros Hf. eapply Forall_impl; [exact Hf|]. by intros []. Qed.
  Lemma add_on_graph h : Forall (λ o, is_add o = true) h → Forall (λ o, on_graph o = true) h.
  Proof. intros Hf. eapply Forall_impl; [exact Hf|]. by intros []. Qed.

  Lemma plain_panic h : plain h → gm_run dir lt h init = Panic ↔ spec_run h sinit = SPanic.
  Proof.
    intros Hp. pose proof (structure dir lt nls els h Hn He) as Hs. rewrite (strip_plain h Hp) in Hs.
    destruct (spec_run h sinit) as [[rs s]| |]; [|done..]. destruct Hs as (rs' & g & -> & _). done.
  Qed.
  Lemma plain_total h : plain h → gm_run dir lt h init = Panic ∨ ∃ rs g, gm_run dir lt h init = Ok (rs, g).
  Proof.
    intros Hp. pose proof (structure dir lt nls els h Hn He) as Hs. rewrite (strip_plain h Hp) in Hs.
    destruct (spec_run h sinit) as [[rs s]| |]; [|by left|done]. destruct Hs as (rs' & g & -> & _). right. by eexists _, _.
  Qed.
  Lemma plain_ok h rs g : plain h → gm_run dir lt h init = Ok (rs, g) → labels_fit lt (g_nlm g) → labels_fit lt (g_elm g) →
    ∃ s, spec_run h sinit = SOk (rs, s) ∧ sp_nls s = g_nlm g ∧ sp_els s = g_elm g.
  Proof.
    intros Hp Hr Hfn Hfe. pose proof (structure dir lt nls els h Hn He) as Hs. rewrite (strip_plain h Hp) in Hs.
    destruct (spec_run h sinit) as [[rs0 s]| |] eqn:Hsp; [|congruence|done]. destruct Hs as (rs' & g' & Hr' & _ & Hv).
    rewrite Hr in Hr'. injection Hr' as <- <-.
    destruct (Hv (map_to_list (g_nodes g)).*1) as (_ & _ & _ & _ & _ & Hnl & Hel); [unfold hash_order; reflexivity|].
    cbn [v_node_label_map v_edge_label_map gm_view] in Hnl, Hel. rewrite Hnl in Hfn. rewrite Hel in Hfe.
    destruct (refinement dir lt nls els h rs0 s Hn He Hsp Hfn Hfe) as (g2 & Hg2 & _). exists s. rewrite Hg2 in Hr. by simplify_eq.
  Qed.
  Lemma spec_nodup h rs s : plain h → spec_run h sinit = SOk (rs, s) → NoDup (sp_nls s) ∧ NoDup (sp_els s).
  Proof.
    intros Hp Hr. pose proof (skel_run dir lt h _ _ (skrel_init dir nls els Hn He)) as Hs. unfold strip in Hs.
    change (filter _ h) with (strip h) in Hs. rewrite (strip_plain h Hp), Hr in Hs.
    destruct Hs as (rs' & g & _ & H & _). split; [exact (r_nd_nls _ _ _ _ _ H)|exact (r_nd_els _ _ _ _ _ H)].
  Qed.

  Lemma drift_app d h1 h2 (rs1 rs2 : list (gout NL EL)) : length rs1 = length h1 →
    drift d (h1 ++ h2) (rs1 ++ rs2) = drift (drift d h1 rs1) h2 rs2.
  Proof.
    revert d rs1. induction h1 as [|o h1 IH]; intros d [|r rs1] Hl; try discriminate; [done|]. simpl. apply IH. simpl in Hl. lia.
  Qed.
  Lemma drift_add d h (rs : list (gout NL EL)) : Forall (λ o, on_graph o = true) h → drift d h rs = d + drift 0 h rs.
  Proof.
    intros Hf. revert d rs. induction Hf as [|o h Ho Hf IH]; intros d [|r rs]; simpl; try lia.
    rewrite IH, (IH (next_drift 0 o r)). assert (next_drift d o r = d + next_drift 0 o r) as ->; [|lia].
    destruct o; try discriminate; destruct r as [[]| | | |]; simpl; lia.
  Qed.
  Lemma run_length h g rs g' : gm_run dir lt h g = Ok (rs, g') → length rs = length h.
  Proof.
    revert g rs. induction h as [|o h IH]; intros g rs Hr; simpl in Hr; [by simplify_eq|].
    apply rbind_Ok in Hr as ([r g1] & Hs & Hr). apply rbind_Ok in Hr as ([rs1 g2] & Hh & Hr). simplify_eq. simpl. f_equal. by eapply IH.
  Qed.
  Lemma spec_length h s rs s' : spec_run h s = SOk (rs, s') → length rs = length h.
  Proof.
    revert s rs. induction h as [|o h IH]; intros s rs Hr; simpl in Hr; [by simplify_eq|].
    destruct (spec_step o s) as [[r s1]| |]; [|done..]. destruct (spec_run h s1) as [[rs1 s2]| |] eqn:Hh; [|done..]. simplify_eq. simpl. f_equal. by eapply IH.
  Qed.
  Lemma spec_split h1 h2 s rs s' : spec_run (h1 ++ h2) s = SOk (rs, s') →
    ∃ rs1 s1 rs2, spec_run h1 s = SOk (rs1, s1) ∧ spec_run h2 s1 = SOk (rs2, s') ∧ rs = rs1 ++ rs2.
  Proof.
    revert s rs. induction h1 as [|o h1 IH]; intros s rs Hr; simpl in Hr; [by exists [], s, rs|].
    cbn [spec_run]. destruct (spec_step o s) as [[r s1]| |]; [|done..]. destruct (spec_run (h1 ++ h2) s1) as [[rs1 s2]| |] eqn:Hh; [|done..]. simplify_eq.
    destruct (IH _ _ Hh) as (rsa & sa & rsb & -> & H2 & ->). by exists (r :: rsa), sa, rsb.
  Qed.

  (** Two runs that end in the same abstract graph. *)
  Lemma same_end h h' rs rs' g g' s s' :
    spec_run h sinit = SOk (rs, s) → spec_run h' sinit = SOk (rs', s') →
    gm_run dir lt h init = Ok (rs, g) → labels_fit lt (sp_nls s) → labels_fit lt (sp_els s) →
    sp_g s = sp_g s' → sp_nls s ≡ₚ sp_nls s' → sp_els s ≡ₚ sp_els s' →
    (∀ x, x ∈ h ≫= inserted ↔ x ∈ h' ≫= inserted) → sp_count s = sp_count s' ∨ drift 0 h rs = drift 0 h' rs' →
    ∃ g', gm_run dir lt h' init = Ok (rs', g') ∧ ∀ it it', hash_order g it → hash_order g' it' →
      same_answers (gm_view dir it g) (gm_view dir it' g').
  Proof.
    intros Hs Hs' Hr Hfn Hfe HA Hpn Hpe Hin Hdr.
    destruct (refinement dir lt nls els h rs s Hn He Hs Hfn Hfe) as (g2 & Hr2 & Hv). assert (g2 = g) as -> by congruence.
    destruct (refinement dir lt nls els h' rs' s' Hn He Hs') as (g1 & Hr1 & Hv').
    { unfold labels_fit in *. by rewrite <- Hpn. }
    { unfold labels_fit in *. by rewrite <- Hpe. }
    exists g1. split; [done|]. intros it it' Hit Hit'.
    destruct (Hv it Hit) as (H1 & H2 & _ & H4 & _ & H6 & H7). destruct (Hv' it' Hit') as (H1' & H2' & _ & H4' & _ & H6' & H7').
    split.
    - exists (sp_g s). rewrite HA in *. done.
    - destruct Hdr as [Hdr|Hdr]; [by rewrite H4, H4'|].
      destruct (edge_count_drift dir lt nls els h rs g it Hn He Hr Hit) as (l & Hl & ->).
      destruct (edge_count_drift dir lt nls els h' rs' g1 it' Hn He Hr1 Hit') as (l' & Hl' & ->). rewrite Hdr. f_equal.
      destruct (rp_edge_indices _ _ H1) as (l1 & Hl1 & Hnd1 & Hin1). destruct (rp_edge_indices _ _ H1') as (l2 & Hl2 & Hnd2 & Hin2).
      assert (l1 = l) as -> by congruence. assert (l2 = l') as -> by congruence.
      apply Permutation_length, NoDup_Permutation; [done..|]. intros e. by rewrite Hin1, Hin2, HA.
    - destruct (max_seen_lemma dir lt nls els h rs g it Hn He Hr Hit) as (o & -> & Hno & Hso & _).
      destruct (max_seen_lemma dir lt nls els h' rs' g1 it' Hn He Hr1 Hit') as (o' & -> & Hno' & Hso' & _). f_equal.
      destruct o as [m|].
      + symmetry. apply Hso'. destruct (proj1 (Hso m) eq_refl) as [Hm Hle]. split; [by apply Hin|]. intros x Hx. by apply Hle, Hin.
      + destruct o' as [m'|]; [|done]. destruct (proj1 (Hso' m') eq_refl) as [Hm _]. apply Hin in Hm. rewrite (proj1 Hno eq_refl) in Hm.
        by apply elem_of_nil in Hm.
    - by rewrite H6, H7, H6', H7'.
  Qed.

  Lemma apart_papart h1 h2 : apart h1 h2 → papart (h1 ≫= named) (h2 ≫= named).
  Proof. done. Qed.
  Lemma zip_swap_elem {X Y Z} (f : X * Y → Z) (a b : list X) (c d : list Y) z : length a = length c → length b = length d →
    z ∈ f <$> zip (a ++ b) (c ++ d) ↔ z ∈ f <$> zip (b ++ a) (d ++ c).
  Proof. intros H1 H2. rewrite !zip_with_app by done. rewrite !fmap_app, !elem_of_app. tauto. Qed.

  Lemma calls_commute h0 h1 h2 rs g :
    plain h0 → Forall (λ o, on_graph o = true) h1 → Forall (λ o, on_graph o = true) h2 → apart h1 h2 →
    gm_run dir lt (h0 ++ h1 ++ h2) init = Ok (rs, g) → labels_fit lt (g_nlm g) → labels_fit lt (g_elm g) →
    ∃ rs0 rs1 rs2 g', rs = rs0 ++ rs1 ++ rs2 ∧ length rs0 = length h0 ∧ length rs1 = length h1 ∧
      gm_run dir lt (h0 ++ h2 ++ h1) init = Ok (rs0 ++ rs2 ++ rs1, g') ∧
      ∀ it it', hash_order g it → hash_order g' it' → same_answers (gm_view dir it g) (gm_view dir it' g').
  Proof.
    intros Hp0 Hf1 Hf2 Hap Hr Hfn Hfe.
    assert (plain (h0 ++ h1 ++ h2)) as Hp by (repeat apply Forall_app_2; [done|by apply on_graph_plain..]).
    destruct (plain_ok _ _ _ Hp Hr Hfn Hfe) as (s & Hs & Hsn & Hse).
    destruct (spec_split _ _ _ _ _ Hs) as (rs0 & s0 & rs12 & Hs0 & Hs12 & ->).
    destruct (spec_nodup _ _ _ Hp0 Hs0) as [Hd1 Hd2].
    pose proof (run_act (h1 ++ h2) s0 (Forall_app_2 _ _ _ Hf1 Hf2)) as Ha. pose proof (run_act (h2 ++ h1) s0 (Forall_app_2 _ _ _ Hf2 Hf1)) as Hb.
    pose proof (run_swap h1 h2 (sp_g s0) (apart_papart _ _ Hap)) as Hsw.
    destruct (arun (h1 ++ h2) (sp_g s0)) as [[rs' A]|]; [|congruence].
    destruct Ha as (s' & Hs' & HA & Hlen & Hn' & He'). assert (s' = s ∧ rs' = rs12) as [-> ->] by (split; congruence).
    destruct Hsw as (rs1 & rs2 & -> & Hl1 & Hsw). rewrite Hsw in Hb. destruct Hb as (s2 & Hs2 & HA2 & Hlen2 & Hn2 & He2).
    rewrite !app_length in Hlen. assert (length rs2 = length h2) as Hl2 by lia. pose proof (spec_length _ _ _ _ Hs0) as Hl0.
    destruct (same_end (h0 ++ h1 ++ h2) (h0 ++ h2 ++ h1) (rs0 ++ rs1 ++ rs2) (rs0 ++ rs2 ++ rs1) g g s s2) as (g' & Hg' & Hsame).
    - done.
    - by rewrite (spec_run_app _ _ _ _ _ Hs0), Hs2.
    - done.
    - by rewrite Hsn.
    - by rewrite Hse.
    - congruence.
    - rewrite Hn', Hn2. apply reg_all_perm; [done|]. intros l. by apply zip_swap_elem.
    - rewrite He', He2. apply reg_all_perm; [done|]. intros l. by apply zip_swap_elem.
    - intros x. rewrite !bind_app, !elem_of_app. tauto.
    - right. rewrite !drift_app by done. rewrite (drift_add _ h2), (drift_add _ h1 rs1), (drift_add (drift (drift 0 h0 rs0) h2 rs2) h1), (drift_add (drift 0 h0 rs0) h2) by done. lia.
    - exists rs0, rs1, rs2, g'. done.
  Qed.
  Lemma panics_commute h0 h1 h2 :
    plain h0 → Forall (λ o, on_graph o = true) h1 → Forall (λ o, on_graph o = true) h2 → apart h1 h2 →
    gm_run dir lt (h0 ++ h1 ++ h2) init = Panic → gm_run dir lt (h0 ++ h2 ++ h1) init = Panic.
  Proof.
    intros Hp0 Hf1 Hf2 Hap.
    rewrite !plain_panic by (repeat apply Forall_app_2; [done|by apply on_graph_plain..]). intros Hr.
    destruct (spec_run h0 sinit) as [[rs0 s0]| |] eqn:Hs0.
    - rewrite (spec_run_app _ _ _ _ _ Hs0) in Hr. rewrite (spec_run_app _ _ _ _ _ Hs0).
      pose proof (run_act (h1 ++ h2) s0 (Forall_app_2 _ _ _ Hf1 Hf2)) as Ha. pose proof (run_act (h2 ++ h1) s0 (Forall_app_2 _ _ _ Hf2 Hf1)) as Hb.
      pose proof (run_swap h1 h2 (sp_g s0) (apart_papart _ _ Hap)) as Hsw.
      destruct (arun (h1 ++ h2) (sp_g s0)) as [[rs' A]|].
      + destruct Ha as (s' & Hs' & _). rewrite Hs' in Hr. done.
      + rewrite Hsw in Hb. by rewrite Hb.
    - destruct (spec_run (h0 ++ h2 ++ h1) sinit) as [[rs s]| |] eqn:Hx; [|done|].
      + destruct (spec_split _ _ _ _ _ Hx) as (? & ? & ? & ? & _). congruence.
      + exfalso. pose proof (structure dir lt nls els (h0 ++ h2 ++ h1) Hn He) as Hst.
        rewrite strip_plain, Hx in Hst; [done|]. repeat apply Forall_app_2; [done|by apply on_graph_plain..].
    - exfalso. pose proof (structure dir lt nls els h0 Hn He) as Hst. by rewrite strip_plain, Hs0 in Hst.
  Qed.

  Lemma adds_reorder h0 h h' rs g :
    plain h0 → Forall (λ o, is_add o = true) h → (∀ o o', o ∈ h → o' ∈ h → agree dir o o') → h ≡ₚ h' →
    gm_run dir lt (h0 ++ h) init = Ok (rs, g) → labels_fit lt (g_nlm g) → labels_fit lt (g_elm g) →
    ∃ rs' g', gm_run dir lt (h0 ++ h') init = Ok (rs', g') ∧
      ∀ it it', hash_order g it → hash_order g' it' → same_answers (gm_view dir it g) (gm_view dir it' g').
  Proof.
    intros Hp0 Hf Hag Hperm Hr Hfn Hfe. assert (Forall (λ o, is_add o = true) h') as Hf' by (by rewrite <- Hperm).
    assert (plain (h0 ++ h)) as Hp by (apply Forall_app_2; [done|by apply on_graph_plain, add_on_graph]).
    destruct (plain_ok _ _ _ Hp Hr Hfn Hfe) as (s & Hs & Hsn & Hse).
    destruct (spec_split _ _ _ _ _ Hs) as (rs0 & s0 & rs1 & Hs0 & Hs1 & ->).
    destruct (spec_nodup _ _ _ Hp0 Hs0) as [Hd1 Hd2].
    assert (ag_dir (sp_g s0) = dir) as Hdir.
    { pose proof (skel_run dir lt h0 _ _ (skrel_init dir nls els Hn He)) as Hsk. rewrite (strip_plain h0 Hp0), Hs0 in Hsk.
      destruct Hsk as (rs' & g0 & _ & H & _). exact (ar_dir _ _ _ _ _ (r_abs _ _ _ _ _ H)). }
    pose proof (run_act h s0 (add_on_graph _ Hf)) as Ha. pose proof (run_act h' s0 (add_on_graph _ Hf')) as Hb.
    destruct (arun_adds h (sp_g s0) Hf) as [rsa Hra]. destruct (arun_adds h' (sp_g s0) Hf') as [rsb Hrb]. rewrite Hra in Ha. rewrite Hrb in Hb.
    destruct Ha as (s' & Hs' & HA & Hlen & Hn' & He'). assert (s' = s ∧ rsa = rs1) as [-> ->] by (split; congruence).
    destruct Hb as (s2 & Hs2 & HA2 & Hlen2 & Hn2 & He2).
    assert (∀ k (ks : list (gout NL EL)), Forall (λ o, is_add o = true) k → length ks = length k →
      reg_n <$> zip k ks = (λ o, reg_n (o, RUnit)) <$> k ∧ reg_e <$> zip k ks = (λ o, reg_e (o, RUnit)) <$> k) as Hreg.
    { clear. intros k ks Hk. revert ks. induction Hk as [|o k Ho Hk IH]; intros [|r ks] Hl; try discriminate; [done|].
      destruct (IH ks) as [H1 H2]; [simpl in Hl; lia|]. cbn [zip zip_with fmap list_fmap]. rewrite H1, H2. destruct o; try discriminate; done. }
    destruct (Hreg h rs1 Hf Hlen) as [Hrn Hre]. destruct (Hreg h' rsb Hf' Hlen2) as [Hrn' Hre'].
    assert (∀ k s rs s', Forall (λ o, is_add o = true) k → spec_run k s = SOk (rs, s') → sp_count s' = sp_count s + length (filter (λ o, edge_add o = true) k)) as Hcnt.
    { intros. by eapply spec_adds_count. }
    destruct (same_end (h0 ++ h) (h0 ++ h') (rs0 ++ rs1) (rs0 ++ rsb) g g s s2) as (g' & Hg' & Hsame).
    - done.
    - by rewrite (spec_run_app _ _ _ _ _ Hs0), Hs2.
    - done.
    - by rewrite Hsn.
    - by rewrite Hse.
    - rewrite HA, HA2. by apply (adds_perm dir).
    - rewrite Hn', Hn2, Hrn, Hrn'. apply reg_all_perm; [done|]. intros l. by rewrite Hperm.
    - rewrite He', He2, Hre, Hre'. apply reg_all_perm; [done|]. intros l. by rewrite Hperm.
    - intros x. rewrite !bind_app, !elem_of_app. by rewrite Hperm.
    - left. rewrite (Hcnt _ _ _ _ Hf Hs1), (Hcnt _ _ _ _ Hf' Hs2). by rewrite Hperm.
    - by exists (rs0 ++ rsb), g'.
  Qed.

  (** Undoing a call. *)
  Lemma undo_run h0 k rs0 ks g0 (s0 s1 : sstate NL EL) it : plain h0 → gm_run dir lt h0 init = Ok (rs0, g0) → hash_order g0 it →
    spec_run h0 sinit = SOk (rs0, s0) → labels_fit lt (sp_nls s0) → labels_fit lt (sp_els s0) →
    spec_run k s0 = SOk (ks, s1) → sp_g s1 = sp_g s0 → labels_fit lt (sp_nls s1) → labels_fit lt (sp_els s1) →
    ∃ g', gm_run dir lt (h0 ++ k) init = Ok (rs0 ++ ks, g') ∧ ∀ it', hash_order g' it' →
      let V := gm_view dir it g0 in let V' := gm_view dir it' g' in
      same_graph V V' ∧ v_edge_count V = sp_count s0 ∧ v_edge_count V' = sp_count s1 ∧
      v_max_seen_id V = Ok (sp_max s0) ∧ v_max_seen_id V' = Ok (sp_max s1) ∧
      v_node_label_map V = sp_nls s0 ∧ v_edge_label_map V = sp_els s0 ∧ v_node_label_map V' = sp_nls s1 ∧ v_edge_label_map V' = sp_els s1.
  Proof.
    intros Hp Hr Hit Hs Hfn Hfe Hk HA Hfn1 Hfe1.
    destruct (refinement dir lt nls els h0 rs0 s0 Hn He Hs Hfn Hfe) as (g2 & Hr2 & Hv). assert (g2 = g0) as -> by congruence.
    destruct (refinement dir lt nls els (h0 ++ k) (rs0 ++ ks) s1 Hn He) as (g' & Hr' & Hv'); [|done..|].
    { by rewrite (spec_run_app _ _ _ _ _ Hs), Hk. }
    exists g'. split; [done|]. intros it' Hit'.
    destruct (Hv it Hit) as (H1 & H2 & _ & H4 & H5 & H6 & H7). destruct (Hv' it' Hit') as (H1' & H2' & _ & H4' & H5' & H6' & H7').
    split; [|done]. exists (sp_g s0). rewrite HA in *. done.
  Qed.
  Lemma before h0 rs0 g0 it : plain h0 → gm_run dir lt h0 init = Ok (rs0, g0) → hash_order g0 it → labels_fit lt (g_nlm g0) → labels_fit lt (g_elm g0) →
    ∃ s0, spec_run h0 sinit = SOk (rs0, s0) ∧ labels_fit lt (sp_nls s0) ∧ labels_fit lt (sp_els s0) ∧
      sp_nls s0 = g_nlm g0 ∧ sp_els s0 = g_elm g0 ∧ represents (gm_view dir it g0) (sp_g s0) ∧
      a_num_edges (sp_g s0) ≤ sp_count s0.
  Proof.
    intros Hp Hr Hit Hfn Hfe. destruct (plain_ok _ _ _ Hp Hr Hfn Hfe) as (s & Hs & Hsn & Hse). exists s. rewrite Hsn, Hse.
    split_and!; [done..| |].
    - rewrite <- Hsn in Hfn. rewrite <- Hse in Hfe. destruct (refinement dir lt nls els h0 rs0 s Hn He Hs Hfn Hfe) as (g2 & Hr2 & Hv).
      assert (g2 = g0) as -> by congruence. by apply Hv.
    - pose proof (skel_run dir lt h0 _ _ (skrel_init dir nls els Hn He)) as Hsk. rewrite (strip_plain h0 Hp), Hs in Hsk.
      destruct Hsk as (rs' & g1 & _ & H & _). exact (r_ge _ _ _ _ _ H).
  Qed.
  Lemma max_new_present (A : agraph NL EL) n o : a_has_node A n → max_new A n o = o.
  Proof. intros [l Hl]. unfold max_new. by rewrite Hl. Qed.

  Lemma undo_add_edge h0 rs0 g0 it x y l : plain h0 → gm_run dir lt h0 init = Ok (rs0, g0) → hash_order g0 it →
    labels_fit lt (g_nlm g0) → labels_fit lt (register l (g_elm g0)) →
    let V := gm_view dir it g0 in
    v_has_node V x = true → v_has_node V y = true → v_has_edge V x y = Ok false →
    ∃ g', gm_run dir lt (h0 ++ [OAddEdge x y l; ORemoveEdge x y]) init = Ok (rs0 ++ [RBool true; REdge (Some (x, y, l))], g') ∧
      ∀ it', hash_order g' it' → let V' := gm_view dir it' g' in
        same_graph V V' ∧ v_edge_count V' = v_edge_count V ∧ v_max_seen_id V' = v_max_seen_id V ∧
        v_node_label_map V' = v_node_label_map V ∧ v_edge_label_map V' = register l (v_edge_label_map V).
  Proof.
    intros Hp Hr Hit Hfn Hfe V Hx Hy Hxy.
    assert (labels_fit lt (g_elm g0)) as Hfe0.
    { unfold labels_fit, register in *. destruct l as [z|]; [|done]. case_decide; [done|]. rewrite app_length in Hfe. lia. }
    destruct (before _ _ _ _ Hp Hr Hit Hfn Hfe0) as (s0 & Hs & Hf1 & Hf2 & En & Ee & HR & Hge).
    apply (rp_has_node _ _ HR) in Hx, Hy.
    assert (a_edge_at (sp_g s0) x y = None) as Hno.
    { destruct (rp_has_edge _ _ HR x y Hx) as (b & Hb & Hbe). fold V in Hb. rewrite Hxy in Hb. injection Hb as <-.
      destruct (a_edge_at (sp_g s0) x y) eqn:E; [|done]. assert (a_has_edge (sp_g s0) x y) as Hh by (by eexists). apply Hbe in Hh. done. }
    assert (a_touch y (a_touch x (sp_g s0)) = sp_g s0) as Ht by (rewrite (touch_present x) by done; by rewrite touch_present).
    assert (spec_run [OAddEdge x y l; ORemoveEdge x y] s0 = SOk ([RBool true; REdge (Some (x, y, l))],
      SState (a_remove_edge x y (a_add_edge x y l (sp_g s0))) (sp_count s0) (sp_max s0) (sp_nls s0) (register l (sp_els s0)))) as Hk.
    { cbn [spec_run spec_step]. rewrite Hno, bool_decide_true by done. unfold s_add_edge. cbn [sp_g sp_count sp_max sp_nls sp_els].
      rewrite add_edge_edge_at, decide_True by done. cbn [sp_g sp_count sp_max sp_nls sp_els].
      rewrite (max_new_present (sp_g s0) x) by done. rewrite max_new_present by (rewrite touch_has_node; by right).
      replace (S (sp_count s0) - 1) with (sp_count s0) by lia. done. }
    destruct (undo_run h0 _ rs0 _ g0 s0 _ it Hp Hr Hit Hs Hf1 Hf2 Hk) as (g' & Hg' & Hv).
    - cbn [sp_g]. unfold a_remove_edge. cbn [a_add_edge ag_dir ag_nodes ag_edges]. rewrite Ht. rewrite delete_insert by exact Hno. by destruct (sp_g s0).
    - done.
    - cbn [sp_els]. by rewrite Ee.
    - exists g'. split; [done|]. intros it' Hit'. destruct (Hv it' Hit') as (H1 & H2 & H3 & H4 & H5 & H6 & H7 & H8 & H9).
      unfold V. cbn [sp_count sp_max sp_nls sp_els] in *. split_and!; congruence.
  Qed.

  Lemma undo_add_node h0 rs0 g0 it n l : plain h0 → gm_run dir lt h0 init = Ok (rs0, g0) → hash_order g0 it →
    labels_fit lt (register l (g_nlm g0)) → labels_fit lt (g_elm g0) →
    let V := gm_view dir it g0 in
    v_has_node V n = false →
    ∃ g', gm_run dir lt (h0 ++ [OAddNode n l; ORemoveNode n]) init = Ok (rs0 ++ [RBool true; RNode (Some (n, l))], g') ∧
      ∀ it', hash_order g' it' → let V' := gm_view dir it' g' in
        same_graph V V' ∧ v_edge_count V' = v_edge_count V ∧
        v_max_seen_id V' = rmap (λ o, omax o n) (v_max_seen_id V) ∧
        v_node_label_map V' = register l (v_node_label_map V) ∧ v_edge_label_map V' = v_edge_label_map V.
  Proof.
    intros Hp Hr Hit Hfn Hfe V Hx.
    assert (labels_fit lt (g_nlm g0)) as Hfn0.
    { unfold labels_fit, register in *. destruct l as [z|]; [|done]. case_decide; [done|]. rewrite app_length in Hfn. lia. }
    destruct (before _ _ _ _ Hp Hr Hit Hfn0 Hfe) as (s0 & Hs & Hf1 & Hf2 & En & Ee & HR & Hge).
    assert (ag_nodes (sp_g s0) !! n = None) as Hno.
    { destruct (ag_nodes (sp_g s0) !! n) eqn:E; [|done]. assert (a_has_node (sp_g s0) n) as Hh by (by eexists).
      apply (rp_has_node _ _ HR) in Hh. fold V in Hh. congruence. }
    assert (∀ e v, ag_edges (sp_g s0) !! e = Some v → ¬ touches n e) as Hnt.
    { intros [a b] v Hv Ht. destruct (rp_wf _ _ HR a b) as (_ & Ha & Hb); [by eexists|].
      unfold touches in Ht. simpl in Ht. destruct Ht as [-> | ->]; [destruct Ha as [w Hw]|destruct Hb as [w Hw]]; congruence. }
    assert (a_incident n (a_add_node n l (sp_g s0)) = ∅) as Hinc.
    { unfold a_incident. cbn [a_add_node ag_edges]. apply map_filter_empty_iff. intros e v Hv. simpl. by eapply Hnt. }
    assert (¬ a_has_edge (a_add_node n l (sp_g s0)) n n) as Hloop.
    { unfold a_has_edge. rewrite add_node_edge_at. unfold a_edge_at. rewrite ekey_loop. intros [v Hv]. apply (Hnt _ _ Hv). by left. }
    assert (spec_run [OAddNode n l; ORemoveNode n] s0 = SOk ([RBool true; RNode (Some (n, l))],
      SState (a_remove_node n (a_add_node n l (sp_g s0))) (sp_count s0) (omax (sp_max s0) n) (register l (sp_nls s0)) (sp_els s0))) as Hk.
    { cbn [spec_run spec_step]. rewrite Hno, bool_decide_true by done. unfold s_add_node. cbn [sp_g].
      cbn [a_add_node ag_nodes]. rewrite lookup_insert. rewrite decide_False by done. cbn [sp_count sp_max sp_nls sp_els].
      change (AG _ _ _) with (a_add_node n l (sp_g s0)). rewrite Hinc, map_size_empty. replace (sp_count s0 - 0) with (sp_count s0) by lia.
      unfold max_new. rewrite ?Hno. done. }
    destruct (undo_run h0 _ rs0 _ g0 s0 _ it Hp Hr Hit Hs Hf1 Hf2 Hk) as (g' & Hg' & Hv).
    - cbn [sp_g]. unfold a_remove_node. cbn [a_add_node ag_dir ag_nodes ag_edges]. rewrite delete_insert by exact Hno.
      rewrite map_filter_id; [by destruct (sp_g s0)|]. intros e v Hv. simpl. by eapply Hnt.
    - cbn [sp_nls]. by rewrite En.
    - done.
    - exists g'. split; [done|]. intros it' Hit'. destruct (Hv it' Hit') as (H1 & H2 & H3 & H4 & H5 & H6 & H7 & H8 & H9).
      unfold V. cbn [sp_count sp_max sp_nls sp_els] in *. split_and!; try congruence. by rewrite H5, H4.
  Qed.

  Lemma undo_remove_edge h0 rs0 g0 it x y l : plain h0 → gm_run dir lt h0 init = Ok (rs0, g0) → hash_order g0 it →
    labels_fit lt (g_nlm g0) → labels_fit lt (g_elm g0) →
    let V := gm_view dir it g0 in
    v_has_edge V x y = Ok true → v_edge_label V x y = Ok l →
    ∃ g', gm_run dir lt (h0 ++ [ORemoveEdge x y; OAddEdge x y l]) init = Ok (rs0 ++ [REdge (Some (x, y, l)); RBool true], g') ∧
      ∀ it', hash_order g' it' → same_answers V (gm_view dir it' g').
  Proof.
    intros Hp Hr Hit Hfn Hfe V Hxy Hlab.
    destruct (before _ _ _ _ Hp Hr Hit Hfn Hfe) as (s0 & Hs & Hf1 & Hf2 & En & Ee & HR & Hge).
    assert (a_has_node (sp_g s0) x) as Hx.
    { apply (rp_has_node _ _ HR). cbn [v_has_edge v_has_node gm_view V] in Hxy |- *. injection Hxy as Hxy. unfold gm_has_edge in Hxy. unfold gm_has_node.
      apply bool_decide_eq_true. destruct (g_nodes g0 !! x); [by eexists|done]. }
    assert (a_has_edge (sp_g s0) x y) as Hedge.
    { destruct (rp_has_edge _ _ HR x y Hx) as (b & Hb & Hbe). fold V in Hb. rewrite Hxy in Hb. injection Hb as <-. by apply Hbe. }
    destruct (wf_edge_nodes _ _ _ (rp_wf _ _ HR) Hedge) as [_ Hy].
    assert (a_edge_at (sp_g s0) x y = Some l ∧ ∀ z, l = Some z → z ∈ sp_els s0) as [Hat Hreg].
    { destruct (rp_get_edge _ _ HR x y Hedge) as (lid & Hge' & Hden). unfold v_edge_label in Hlab. fold V in Hge'. rewrite Hge' in Hlab. cbn [rbind] in Hlab.
      destruct Hedge as [l' Hl']. rewrite Hl' in Hden. cbn [label_of] in Hden. rewrite Hl'.
      assert (denotes (v_edge_label_map V) lid = l) as Hd'.
      { destruct lid as [i|]; simpl in Hlab |- *; injection Hlab as <-; done. }
      fold V in Hden. rewrite Hd' in Hden. subst l'. split; [done|]. intros z ->. rewrite Ee. destruct lid as [i|]; [|done]. simpl in Hd'.
      by apply elem_of_list_lookup_2 in Hd'. }
    assert (register l (sp_els s0) = sp_els s0) as Hre.
    { unfold register. destruct l as [z|]; [|done]. by rewrite decide_True by (by apply Hreg). }
    assert (1 ≤ sp_count s0) as Hc.
    { unfold a_num_edges in Hge. destruct (decide (size (ag_edges (sp_g s0)) = 0)) as [Hz|]; [|lia]. apply map_size_empty_inv in Hz.
      unfold a_edge_at in Hat. by rewrite Hz, lookup_empty in Hat. }
    assert (a_touch y (a_touch x (a_remove_edge x y (sp_g s0))) = a_remove_edge x y (sp_g s0)) as Ht.
    { rewrite (touch_present x) by done. by rewrite touch_present. }
    assert (spec_run [ORemoveEdge x y; OAddEdge x y l] s0 = SOk ([REdge (Some (x, y, l)); RBool true],
      SState (a_add_edge x y l (a_remove_edge x y (sp_g s0))) (sp_count s0) (sp_max s0) (sp_nls s0) (sp_els s0))) as Hk.
    { cbn [spec_run spec_step]. rewrite Hat. cbn [sp_g]. rewrite remove_edge_edge_at, decide_True by done. rewrite bool_decide_true by done.
      unfold s_add_edge. cbn [sp_g sp_count sp_max sp_nls sp_els]. rewrite Hre.
      rewrite (max_new_present (a_remove_edge x y (sp_g s0)) x) by done. rewrite max_new_present by (rewrite touch_has_node; by right).
      replace (S (sp_count s0 - 1)) with (sp_count s0) by lia. done. }
    destruct (undo_run h0 _ rs0 _ g0 s0 _ it Hp Hr Hit Hs Hf1 Hf2 Hk) as (g' & Hg' & Hv).
    - cbn [sp_g]. unfold a_add_edge. rewrite Ht. cbn [a_remove_edge ag_dir ag_nodes ag_edges]. rewrite insert_delete_insert.
      rewrite insert_id by exact Hat. by destruct (sp_g s0).
    - done.
    - done.
    - exists g'. split; [done|]. intros it' Hit'. destruct (Hv it' Hit') as (H1 & H2 & H3 & H4 & H5 & H6 & H7 & H8 & H9).
      unfold V. cbn [sp_count sp_max sp_nls sp_els] in *. split; [done|congruence|congruence|]. by rewrite H6, H7, H8, H9.
  Qed.
End hist.
