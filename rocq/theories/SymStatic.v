(** C118 for static graphs. *)
From Verif Require Import Base BaseFacts Api Spec SpecFacts ViewFacts GraphMap GraphMapFacts GraphMapProps Map Static SpecSGraph IntoStatic IntoStaticProps TraverseProps SpecSym SymProps.

Section freeze.
  Context {NL EL : Type} `{EqDecision NL, EqDecision EL}.
  Lemma frozen_maps idt lt dir (g : graphmap NL EL) sg : gm_into_static idt lt dir g = Ok sg →
    sg_num_nodes sg = gm_node_count g ∧ sg_nlm sg = g_nlm g ∧ sg_elm sg = g_elm g.
  Proof using.
    unfold gm_into_static, sg_from_raw. cbv zeta. intros E.
    rewrite rbind_Ok in E. destruct E as (max & _ & E).
    rewrite rbind_Ok in E. destruct E as (s & _ & E).
    rewrite rbind_Ok in E. destruct E as (ev & _ & E).
    rewrite rbind_Ok in E. destruct E as (k & _ & E).
    rewrite rbind_Ok in E. destruct E as (k' & _ & E).
    by injection E as <-.
  Qed.
  Lemma lbl {X} (a b : option (option X)) : is_Some a → is_Some b → label_of a = label_of b → a = b.
  Proof using. intros [x ->] [y ->]. cbn. by intros ->. Qed.
  Lemma stands_sym (U D : gview NL EL) A B : represents U A → represents D B → stands_for D U → sym A B.
  Proof using.
    intros HU HD HS. destruct (st_kinds _ _ HS) as [K1 K2].
    assert (∀ n, a_has_node B n ↔ a_has_node A n) as Hnode.
    { intros n. by rewrite <-(rp_has_node _ _ HU), <-(rp_has_node _ _ HD), (st_has_node _ _ HS). }
    assert (∀ x y, a_has_edge B x y ↔ a_has_edge A x y) as Hedge.
    { intros x y. assert (∀ (V : gview NL EL) (C : agraph NL EL), represents V C → a_has_edge C x y ↔ a_has_node C x ∧ v_has_edge V x y = Ok true) as Hx.
      { intros V C HV. split.
        - intros E. destruct (wf_edge_nodes C _ _ (rp_wf _ _ HV) E) as [H1 _]. split; [done|]. by apply (rep_has_edge_true V C).
        - intros [H1 E]. by apply (rep_has_edge_true V C) in E. }
      by rewrite (Hx _ _ HU), (Hx _ _ HD), Hnode, (st_has_edge _ _ HS). }
    split.
    - by rewrite <-(rp_is_di _ _ HU).
    - by rewrite <-(rp_is_di _ _ HD).
    - apply HU.
    - apply HD.
    - apply map_eq. intros n. specialize (Hnode n). unfold a_has_node in Hnode.
      destruct (decide (is_Some (ag_nodes A !! n))) as [Hn|Hn].
      + apply lbl; [by apply Hnode|done|]. pose proof (st_node_label _ _ HS n) as E.
        rewrite (rep_node_label _ _ n HU Hn), (rep_node_label _ _ n HD) in E by (by apply Hnode). by injection E.
      + assert (¬ is_Some (ag_nodes B !! n)) as Hn' by tauto. apply eq_None_not_Some in Hn, Hn'. by rewrite Hn, Hn'.
    - intros x y. specialize (Hedge x y). destruct (decide (is_Some (a_edge_at A x y))) as [Hn|Hn].
      + apply lbl; [by apply Hedge|done|]. pose proof (st_edge_label _ _ HS x y) as E.
        rewrite (rep_edge_label _ _ x y HU Hn), (rep_edge_label _ _ x y HD) in E by (by apply Hedge). by injection E.
      + assert (¬ is_Some (a_edge_at B x y)) as Hn' by (unfold a_has_edge in Hedge; tauto). apply eq_None_not_Some in Hn, Hn'. by rewrite Hn, Hn'.
  Qed.
  Lemma sym_frozen idt lt (g g' : graphmap NL EL) ord ord' A B n :
    represents (gm_view false ord g) A → represents (gm_view true ord' g') B → stands_for (gm_view true ord' g') (gm_view false ord g) →
    a_has_node A n → (∀ n, a_has_node A n → (n < id_max idt)%N) → (∀ n m, a_has_node A n → (m < n)%N → a_has_node A m) →
    (N.of_nat (length (g_nlm g)) ≤ id_max lt)%N → (N.of_nat (length (g_elm g)) ≤ id_max lt)%N →
    ∃ sg sg', gm_into_static idt lt false g = Ok sg ∧ gm_into_static idt lt true g' = Ok sg' ∧
      stands_for (sg_view idt lt true sg') (sg_view idt lt false sg).
  Proof using.
    intros HU HD HS Hn Hlt Hd Hnl Hel. pose proof (stands_sym _ _ _ _ HU HD HS) as HY.
    assert (∀ n, a_has_node B n ↔ a_has_node A n) as Hnode by (intros k; unfold a_has_node; by rewrite (sy_nodes _ _ HY)).
    assert (g_nlm g' = g_nlm g) as En by exact (st_node_labels _ _ HS). assert (g_elm g' = g_elm g) as Ee by exact (st_edge_labels _ _ HS).
    destruct (into_static_dense idt lt false g ord A HU n) as (sg & Hsg & _ & R1 & M1 & _); [done|done|done|done|done|].
    destruct (into_static_dense idt lt true g' ord' B HD n) as (sg' & Hsg' & _ & R2 & M2 & _).
    { by apply Hnode. }
    { intros k Hk. by apply Hlt, Hnode. }
    { intros k m Hk Hm. apply Hnode. apply Hnode in Hk. by apply (Hd k). }
    { by rewrite En. }
    { by rewrite Ee. }
    exists sg, sg'. split; [done|]. split; [done|].
    destruct (frozen_maps _ _ _ _ _ Hsg) as (C1 & C2 & C3). destruct (frozen_maps _ _ _ _ _ Hsg') as (C1' & C2' & C3').
    apply (sym_views _ _ A B R1 M1 R2 M2 HY).
    - cbn [sg_view v_max_seen_id]. unfold sg_max_seen_id. rewrite C1, C1'.
      assert (gm_node_count g' = gm_node_count g) as -> by exact (st_node_count _ _ HS). done.
    - cbn [sg_view v_node_label_map]. congruence.
    - cbn [sg_view v_edge_label_map]. congruence.
  Qed.
End freeze.
Definition sy_dense : list (gop N N) := [OAddEdge 0 1 (Some 7); OAddEdge 1 2 (Some 8); OAddEdge 2 2 None; OAddNode 0 (Some 9); OAddNode 3 None]%N.
Lemma sy_frozen_case : ∃ (g g' : graphmap N N) ord ord' A B,
  represents (gm_view false ord g) A ∧ represents (gm_view true ord' g') B ∧ stands_for (gm_view true ord' g') (gm_view false ord g) ∧
  a_has_node A 0%N ∧ (∀ n, a_has_node A n → (n < id_max TU8)%N) ∧ (∀ n m, a_has_node A n → (m < n)%N → a_has_node A m) ∧
  g_nlm g = [9]%N ∧ g_elm g = [7; 8]%N ∧ a_num_nodes A = 4 ∧ a_num_edges A = 3 ∧ a_num_edges B = 5.
Proof.
  assert (fits_u8 false sy_dense) as F1 by (vm_compute; lia). assert (fits_u8 true (sy_dense ≫= both_ways)) as F2 by (vm_compute; lia).
  destruct (run_view_all false sy_dense F1) as (V1 & V2 & V3 & _). destruct (run_view_all true (sy_dense ≫= both_ways) F2) as (W1 & W2 & W3 & _).
  exists (run_gm false sy_dense), (run_gm true (sy_dense ≫= both_ways)).
  do 2 eexists. exists (sp_g (run_spec false sy_dense)), (sp_g (run_spec true (sy_dense ≫= both_ways))).
  split; [exact V1|]. split; [exact W1|]. split.
  { eapply sym_views; [exact V1|exact V2|exact W1|exact W2| |vm_compute; reflexivity|vm_compute; reflexivity|vm_compute; reflexivity].
    assert (∃ rs, spec_run sy_dense (s_init false [] []) = SOk (rs, run_spec false sy_dense)) as [rs E1] by (eexists; vm_compute; reflexivity).
    assert (∃ rs, spec_run (sy_dense ≫= both_ways) (s_init true [] []) = SOk (rs, run_spec true (sy_dense ≫= both_ways))) as [rs' E2] by (eexists; vm_compute; reflexivity).
    exact (sym_final [] [] sy_dense rs _ rs' _ E1 E2). }
  assert (∀ n, a_has_node (sp_g (run_spec false sy_dense)) n ↔ (n < 4)%N) as Hn.
  { intros n. rewrite <-(proj2 (rp_node_indices _ _ V1) n).
    assert (v_node_indices (run_view false sy_dense) ≡ₚ [0; 1; 2; 3]%N) as -> by (apply (bool_decide_unpack _); vm_compute; exact I).
    set_unfold. lia. }
  split; [by apply Hn|]. split; [intros n H%Hn; cbn; lia|]. split; [intros n m H%Hn Hm; apply Hn; lia|].
  split_and!; vm_compute; reflexivity.
Qed.
