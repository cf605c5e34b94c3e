(** Corollaries of the simulation, in the form used by the property files. *)
From Verif Require Import Base Api Spec BaseFacts SpecFacts Map MapFacts GraphMap GraphMapFacts
  GraphMapRefine GraphMapQueries GraphMapSim GraphMapThms.

Section more.
  Context {NL EL : Type} `{EqDecision NL, EqDecision EL} (dir : bool) (lt : idty).
  Notation PNt := (λ (_ : list NL) (_ : option N) (_ : option NL), True).
  Notation PEt := (λ (_ : list EL) (_ : option N) (_ : option EL), True).
  Notation skrel := (rel dir PNt PEt).
  Notation lrel := (rel dir (@lab_rel NL) (@lab_rel EL)).
  Implicit Types (g : graphmap NL EL) (s : sstate NL EL).

  Lemma skrel_init nls els : NoDup nls → NoDup els → skrel (gm_with_label_map nls els) (s_init dir nls els).
  Proof. apply rel_init. Qed.

  Lemma run_skrel h g0 s0 rs g : skrel g0 s0 → gm_run dir lt h g0 = Ok (rs, g) → ∃ s, skrel g s.
  Proof.
    intros H0 Hr. pose proof (skel_run dir lt h g0 s0 H0) as Hs. rewrite Hr in Hs.
    destruct (spec_run _ _) as [[rs' s']| |]; [|done..]. destruct Hs as (? & ? & ? & ? & _). simplify_eq. by eexists.
  Qed.
  Lemma reach_skrel g : gm_reachable dir lt g → ∃ s, skrel g s.
  Proof.
    intros (nls & els & h & rs & Hn & He & Hr). eapply run_skrel; [by apply skrel_init|done].
  Qed.

  (** A run step by step, at any skeleton-related state. *)
  Lemma skrel_step g s o : skrel g s →
    (∃ r g' s', gm_step dir lt o g = Ok (r, g') ∧ skrel g' s' ∧
       (is_raw o = true ∧ s' = s ∨ is_raw o = false ∧ ∃ r0, spec_step o s = SOk (r0, s') ∧ out_unlabelled r = out_unlabelled r0))
    ∨ (gm_step dir lt o g = Panic ∧ ∃ n, o = ORemoveNode n ∧ gm_has_edge g n n = true).
  Proof.
    intros H. destruct (is_raw o) eqn:Hraw.
    - left. destruct o as [| | | | | | | | |n lid|x y lid]; try done; simpl.
      + do 3 eexists. split; [done|]. split; [by apply skel_set_node|]. by left.
      + destruct (skel_set_edge dir g s x y lid H) as (b & g' & -> & H').
        do 3 eexists. split; [done|]. split; [done|]. by left.
    - pose proof (sk_step dir lt o g s H Hraw) as Hs. destruct (spec_step o s) as [[r s1]| |] eqn:Ho; [| |done].
      + left. destruct Hs as (r' & g' & ? & ? & ?). do 3 eexists. split; [done|]. split; [done|].
        right. split; [done|]. by eexists.
      + right. split; [done|]. destruct o; simpl in Ho; repeat case_match; simplify_eq.
        eexists. split; [done|]. rewrite (rel_has_edge dir PNt PEt g s) by done. by apply bool_decide_true.
  Qed.
  Lemma skrel_panic g s n : skrel g s → gm_has_edge g n n = true → gm_step dir lt (ORemoveNode n) g = Panic.
  Proof.
    intros H He. rewrite (rel_has_edge dir PNt PEt g s) in He by done. apply bool_decide_eq_true in He.
    simpl. by rewrite (rel_remove_node_panic dir PNt PEt g s n).
  Qed.

  Lemma panic_iff h g s : skrel g s →
    (gm_run dir lt h g = Panic ↔
      ∃ h1 n h2 rs g1, h = h1 ++ ORemoveNode n :: h2 ∧ gm_run dir lt h1 g = Ok (rs, g1) ∧
        gm_has_edge g1 n n = true) ∧
    gm_run dir lt h g ≠ NoFuel.
  Proof.
    revert g s. induction h as [|o h IH]; intros g s H; simpl.
    { split; [|done]. split; [done|]. intros (h1 & n & h2 & rs & g1 & Hh & _). by destruct h1. }
    destruct (skrel_step g s o H) as [(r & g' & s' & Hs & H' & _)|(Hs & n & -> & Hn)].
    - rewrite Hs. cbn [rbind]. destruct (IH g' s' H') as [IH1 IH2]. split.
      + split.
        * intros Hp. destruct (gm_run dir lt h g') as [[rs gf]| |] eqn:Hr; [done| |done].
          destruct (proj1 IH1 eq_refl) as (h1 & n & h2 & rs & g1 & -> & Hh1 & Hn).
          exists (o :: h1), n, h2, (r :: rs), g1. split; [done|]. split; [|done]. simpl. rewrite Hs. cbn [rbind]. by rewrite Hh1.
        * intros (h1 & n & h2 & rs & g1 & Hh & Hh1 & Hn). destruct h1 as [|o1 h1]; simpl in *; simplify_eq.
          -- by rewrite (skrel_panic g1 s n H Hn) in Hs.
          -- rewrite Hs in Hh1. cbn [rbind] in Hh1. apply rmap_Ok in Hh1 as ([rs1 g2] & Hh1 & ?). simplify_eq.
             rewrite (proj2 IH1); [done|]. by do 5 eexists.
      + by destruct (gm_run dir lt h g') as [[? ?]| |].
    - rewrite Hs. split; [|done]. split; [|done]. intros _. exists [], n, h, [], g. done.
  Qed.

  (** *** edge_count *)
  Lemma drift_step g s o r g' : skrel g s → gm_step dir lt o g = Ok (r, g') →
    ∃ s', skrel g' s' ∧
      (∀ d, sp_count s = a_num_edges (sp_g s) + d → sp_count s' = a_num_edges (sp_g s') + next_drift d o r).
  Proof.
    intros H Hs. destruct (skrel_step g s o H) as [(r' & g1 & s' & Hs' & H' & Hcase)|(Hs' & _)]; [|congruence].
    rewrite Hs in Hs'. simplify_eq. exists s'. split; [done|]. intros d Hd.
    destruct Hcase as [[Hraw ->]|(Hraw & r0 & Ho & Hr)].
    { by destruct o. }
    assert (∀ x y l, a_num_edges (a_add_edge x y l (sp_g s)) =
      if decide (a_edge_at (sp_g s) x y = None) then S (a_num_edges (sp_g s)) else a_num_edges (sp_g s)) as Hadd.
    { intros x y l. unfold a_num_edges. rewrite add_edge_edges, map_size_insert. unfold a_edge_at.
      destruct (ag_edges (sp_g s) !! _); [by rewrite decide_False|by rewrite decide_True]. }
    assert (∀ b, r0 = RBool b → r' = RBool b) as Hb.
    { intros b ->. destruct r'; simpl in Hr; congruence. }
    destruct o as [n l|x y l|n|x y|n l|x y l|l|l| |n lid|x y lid]; simpl in Ho; try done.
    - simplify_eq. done.
    - simplify_eq. erewrite (Hb _) by done. simpl. rewrite Hadd.
      case_bool_decide as Hat; [rewrite decide_True by done|rewrite decide_False by done]; simpl; lia.
    - destruct (ag_nodes (sp_g s) !! n) as [l|] eqn:Hn; simplify_eq; simpl; [|done].
      case_decide as He; simplify_eq. simpl.
      pose proof (remove_node_num_edges n (sp_g s)). lia.
    - destruct (a_edge_at (sp_g s) x y) as [l|] eqn:Hl; simplify_eq; simpl; [|done].
      unfold a_edge_at in Hl. unfold a_num_edges, a_remove_edge in *. simpl. rewrite map_size_delete, Hl.
      simpl. destruct (size (ag_edges (sp_g s))) eqn:Hz; [|lia].
      apply map_size_empty_inv in Hz. rewrite Hz in Hl. by rewrite lookup_empty in Hl.
    - case_match; simplify_eq; done.
    - destruct (a_edge_at (sp_g s) x y) as [l0|] eqn:Hl; simplify_eq; erewrite (Hb _) by done; simpl; [|done].
      rewrite Hadd. rewrite decide_False by (by rewrite Hl). lia.
    - by simplify_eq.
    - by simplify_eq.
    - simplify_eq. simpl. lia.
  Qed.
  Lemma drift_run h g s rs g' d : skrel g s → sp_count s = a_num_edges (sp_g s) + d →
    gm_run dir lt h g = Ok (rs, g') →
    ∃ s', skrel g' s' ∧ sp_count s' = a_num_edges (sp_g s') + drift d h rs.
  Proof.
    revert g s d rs. induction h as [|o h IH]; intros g s d rs H Hd Hr; simpl in Hr.
    - simplify_eq. by exists s.
    - apply rbind_Ok in Hr as ([r g1] & Hs & Hr). apply rmap_Ok in Hr as ([rs1 g2] & Hr & ?). simplify_eq.
      destruct (drift_step g s o r g1 H Hs) as (s1 & H1 & Hd1). simpl.
      eapply IH; [done| |done]. by apply Hd1.
  Qed.
  Lemma skrel_edges g s it : skrel g s → hash_order g it →
    length (gm_edge_indices dir g it) = a_num_edges (sp_g s).
  Proof.
    intros H Hit. eapply lists_exactly_length, edge_indices_exact; [apply H|done].
  Qed.
  Lemma edge_count_drift nls els h rs g it :
    NoDup nls → NoDup els → gm_run dir lt h (gm_with_label_map nls els) = Ok (rs, g) → hash_order g it →
    ∃ l, v_edge_indices (gm_view dir it g) = Ok l ∧
      v_edge_count (gm_view dir it g) = length l + drift 0 h rs.
  Proof.
    intros Hn He Hr Hit. destruct (drift_run h _ _ rs g 0 (skrel_init nls els Hn He) eq_refl Hr) as (s & H & Hc).
    eexists. split; [done|]. rewrite (skrel_edges g s it) by done. simpl. unfold gm_edge_count.
    by rewrite (r_count _ _ _ _ _ H).
  Qed.
  Lemma no_readd_drift h rs d :
    Forall2 (λ o r, match o, r with
                    | OAddEdge _ _ _, RBool false | OUpdateEdgeLabel _ _ _, RBool true => False
                    | _, _ => True end) h (rs : list (gout NL EL)) → drift d h rs ≤ d.
  Proof.
    intros Hf. revert d. induction Hf as [|o r h rs Hor Hf IH]; intros d; [done|]. simpl.
    etrans; [apply IH|]. destruct o, r as [[]| | | |]; simpl in *; done || lia.
  Qed.

  (** refine_edge_count with any iteration order. *)
  Lemma refine_spec g it it' : gm_reachable dir lt g → hash_order g it → hash_order g it' →
    let g' := gm_refine_edge_count dir it g in
    gm_step dir lt ORefineEdgeCount g = Ok (RUnit, g') ∧
    g' = set_nedges (length (gm_edge_indices dir g it')) g.
  Proof.
    intros [s H]%reach_skrel Hit Hit'. simpl. unfold gm_refine_edge_count.
    pose proof (skrel_edges g s _ H Hit) as ->. pose proof (skrel_edges g s _ H Hit') as ->.
    by rewrite (skrel_edges g s _ H (hash_order_exists g)).
  Qed.

  (** *** Enumeration *)
  Lemma node_indices_lemma g it : gm_reachable dir lt g → hash_order g it →
    let V := gm_view dir it g in
    lists_exactly (v_node_indices V) (λ n, v_has_node V n = true) ∧
    v_node_count V = length (v_node_indices V) ∧
    v_nodes V = rmapl (λ n, let* o := v_get_node V n in unwrap o) (v_node_indices V).
  Proof.
    intros [s H]%reach_skrel Hit V. destruct (skrel_view dir g s it H Hit) as (Hrep & _ & Hiter & _).
    fold V in Hrep, Hiter. split; [|split; [|apply Hiter]].
    - eapply lists_exactly_iff; [|apply (rp_node_indices _ _ Hrep)]. intros n. apply (rp_has_node _ _ Hrep).
    - change (v_node_count V) with (v_node_count (v_unlabelled V)). rewrite (rp_node_count _ _ Hrep).
      symmetry. eapply lists_exactly_length, (rp_node_indices _ _ Hrep).
  Qed.
  Lemma edge_indices_lemma g it : gm_reachable dir lt g → hash_order g it →
    let V := gm_view dir it g in
    ∃ l, v_edge_indices V = Ok l ∧ NoDup l ∧
      (∀ x y : N, (x, y) ∈ l ↔ v_has_edge V x y = Ok true ∧ (dir = true ∨ (x ≤ y)%N)) ∧
      v_edges V = rmapl (λ e, let* o := v_get_edge V e.1 e.2 in unwrap o) l.
  Proof.
    intros [s H]%reach_skrel Hit V. destruct (skrel_view dir g s it H Hit) as (_ & _ & Hiter & _).
    pose proof (edge_indices_exact dir _ _ g _ it (r_abs _ _ _ _ _ H) Hit) as [Hnd Hl].
    eexists. split; [done|]. split; [done|]. split; [|apply Hiter].
    intros x y. rewrite Hl, wf_stored by apply H. simpl. rewrite (rel_has_edge dir PNt PEt g s) by done.
    rewrite (ar_dir _ _ _ _ _ (r_abs _ _ _ _ _ H)). unfold a_has_edge. f_equiv. split.
    - intros He. by rewrite bool_decide_true.
    - intros [= He]. by apply bool_decide_eq_true in He.
  Qed.

  (** *** max_seen_id *)
  Lemma max_new_omax s n : (∀ k, a_has_node (sp_g s) k → ∃ m, sp_max s = Some m ∧ (k ≤ m)%N) →
    max_new (sp_g s) n (sp_max s) = omax (sp_max s) n.
  Proof.
    intros Hb. unfold max_new. destruct (ag_nodes (sp_g s) !! n) eqn:Hn; [|done].
    destruct (Hb n) as (m & -> & ?); [by eexists|]. unfold omax. f_equal. lia.
  Qed.
  Lemma max_step g s o r g' : skrel g s → gm_step dir lt o g = Ok (r, g') →
    ∃ s', skrel g' s' ∧ sp_max s' = foldl omax (sp_max s) (inserted o).
  Proof.
    intros H Hs. destruct (skrel_step g s o H) as [(r' & g1 & s' & Hs' & H' & Hcase)|(Hs' & _)]; [|congruence].
    rewrite Hs in Hs'. simplify_eq. exists s'. split; [done|].
    destruct Hcase as [[Hraw ->]|(Hraw & r0 & Ho & Hr)]; [by destruct o|].
    pose proof (r_bound _ _ _ _ _ H) as Hb.
    destruct o as [n l|x y l|n|x y|n l|x y l|l|l| |n lid|x y lid]; simpl in Ho; try done.
    - simplify_eq. simpl. by apply max_new_omax.
    - simplify_eq. simpl. rewrite (max_new_omax s x Hb).
      unfold max_new. rewrite touch_nodes. destruct (decide (y = x)) as [->|Hne].
      + unfold omax. destruct (sp_max s); f_equal; lia.
      + destruct (ag_nodes (sp_g s) !! y) eqn:Hy; [|done].
        destruct (Hb y) as (m & -> & ?); [by eexists|]. unfold omax. f_equal. lia.
    - repeat case_match; simplify_eq; done.
    - repeat case_match; simplify_eq; done.
    - case_match eqn:Hn; simplify_eq; simpl; [|done]. unfold max_new. by rewrite Hn.
    - case_match eqn:Hn; simplify_eq; simpl; [|done].
      assert (a_has_edge (sp_g s) x y) as He by (by eexists).
      apply wf_edge_nodes in He as [[lx Hx] [ly Hy]]; [|apply H].
      unfold max_new. rewrite touch_nodes. rewrite Hx, Hy. case_decide; done.
    - by simplify_eq.
    - by simplify_eq.
    - by simplify_eq.
  Qed.
  Lemma max_run h g s rs g' : skrel g s → gm_run dir lt h g = Ok (rs, g') →
    ∃ s', skrel g' s' ∧ sp_max s' = foldl omax (sp_max s) (h ≫= inserted).
  Proof.
    revert g s rs. induction h as [|o h IH]; intros g s rs H Hr; simpl in Hr.
    - simplify_eq. by exists s.
    - apply rbind_Ok in Hr as ([r g1] & Hs & Hr). apply rmap_Ok in Hr as ([rs1 g2] & Hr & ?). simplify_eq.
      destruct (max_step g s o r g1 H Hs) as (s1 & H1 & Hm1).
      destruct (IH g1 s1 rs1 H1 Hr) as (s' & H' & Hm'). exists s'. split; [done|].
      rewrite Hm', Hm1. csimpl. by rewrite foldl_app.
  Qed.
  Lemma foldl_omax l o :
    match foldl omax o l with
    | None => o = None ∧ l = []
    | Some m => (o = Some m ∨ m ∈ l) ∧ (∀ x, x ∈ l → (x ≤ m)%N) ∧ (∀ k, o = Some k → (k ≤ m)%N)
    end.
  Proof.
    revert o. induction l as [|x l IH]; intros o; simpl.
    - destruct o as [m|]; [|done]. split; [by left|]. split; [by intros x Hx; apply elem_of_nil in Hx|].
      intros k [= ->]. done.
    - specialize (IH (omax o x)). destruct (foldl omax (omax o x) l) as [m|] eqn:Hf; [|by destruct IH].
      destruct IH as (H1 & H2 & H3). unfold omax in *. split_and!.
      + destruct H1 as [[= H1]|H1]; [|right; by right]. destruct o as [k|].
        * destruct (N.max_spec k x) as [[_ Hk]|[_ Hk]]; rewrite Hk in H1; subst; [right; left|by left].
        * subst. right. left.
      + intros z [->|Hz]%elem_of_cons; [|by apply H2]. specialize (H3 _ eq_refl). destruct o; lia.
      + intros k ->. specialize (H3 _ eq_refl). lia.
  Qed.
  Lemma max_seen_lemma nls els h rs g it :
    NoDup nls → NoDup els → gm_run dir lt h (gm_with_label_map nls els) = Ok (rs, g) → hash_order g it →
    ∃ o, v_max_seen_id (gm_view dir it g) = Ok o ∧
      (o = None ↔ h ≫= inserted = []) ∧
      (∀ m, o = Some m ↔ m ∈ h ≫= inserted ∧ ∀ x, x ∈ h ≫= inserted → (x ≤ m)%N) ∧
      (∀ n, v_has_node (gm_view dir it g) n = true → ∃ m, o = Some m ∧ (n ≤ m)%N).
  Proof.
    intros Hn He Hr Hit. destruct (max_run h _ _ rs g (skrel_init nls els Hn He) Hr) as (s & H & Hm).
    simpl in Hm. exists (g_max g). split; [done|]. rewrite (r_max _ _ _ _ _ H), Hm.
    pose proof (foldl_omax (h ≫= inserted) None) as Hf.
    split; [|split].
    - destruct (foldl _ _ _); [|naive_solver]. split; [done|]. intros Hnil. rewrite Hnil in Hf.
      destruct Hf as ([?|Hx] & _); [done|by apply elem_of_nil in Hx].
    - intros m. destruct (foldl _ _ _) as [m'|].
      + destruct Hf as ([?|Hm'] & Hle & _); [done|]. split.
        * intros [= <-]. done.
        * intros [Hmin Hle']. f_equal. apply N.le_antisymm; [by apply Hle'|by apply Hle].
      + split; [done|]. intros [Hmin _]. destruct Hf as [_ Hf]. rewrite Hf in Hmin. by apply elem_of_nil in Hmin.
    - intros n Hn'. rewrite <-Hm. apply (r_bound _ _ _ _ _ H).
      simpl in Hn'. rewrite (rel_has_node dir PNt PEt g s) in Hn' by done. by apply bool_decide_eq_true in Hn'.
  Qed.
End more.
