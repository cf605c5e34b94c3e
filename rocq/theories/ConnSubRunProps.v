(** ConnSubgraph, run by hand over any graphs. *)
From Verif Require Import Base BaseFacts Api Spec SpecFacts SpecOps SpecConn ConnComp ConnCompFacts ConnCompProps Map GraphMap GraphMapProps GraphMapThms ViewFacts GraphOps GraphOpsFacts GraphOpsProps ConnSubProps ConnSubRun SpecConnSub.

Lemma rfold_map {S T X} (h : S → T) (f : T → X → res T) (g : S → X → res S) l :
  (∀ s x, f (h s) x = rmap h (g s x)) → ∀ s, rfold f l (h s) = rmap h (rfold g l s).
Proof.
  intros Hf. induction l as [|x l IH]; intros s; [done|]. cbn [rfold]. rewrite Hf. destruct (g s x) as [s'| |]; [|done..].
  cbn [rmap rbind]. apply IH.
Qed.

(** ** All graphs directed or none: the model with one directedness *)
Section sim.
  Context {NL EL : Type} `{EqDecision NL, EqDecision EL} (lt : idty) (dir : bool).
  Notation graph := (graphmap NL EL).
  Definition lift (cs : @csub NL EL) : csrun NL EL := CSRun ((λ g : graph, (dir, g)) <$> cs_subs cs) (cs_roots cs) (cs_cc cs).
  Lemma place_lift (add : bool → graph → res graph) root cs :
    cr_place dir add root (lift cs) = rmap lift (cs_place (add dir) root cs).
  Proof.
    unfold cr_place, cs_place, cr_root_to_subgraph. cbn [lift cr_roots cr_subs cr_cc].
    destruct (root_to_subgraph (cs_roots cs) root) as [i|].
    - rewrite list_lookup_fmap. destruct (cs_subs cs !! i) as [g|]; [|done]. cbn [fmap option_fmap option_map unwrap rbind].
      destruct (add dir g); [|done..]. cbn [rbind rmap]. unfold lift. cbn [cs_subs cs_roots cs_cc]. by rewrite list_fmap_insert.
    - destruct (add dir gm_new); [|done..]. cbn [rbind rmap]. unfold lift. cbn [cs_subs cs_roots cs_cc]. by rewrite fmap_app.
  Qed.
  Lemma nodes_lift V cs : v_directed V = dir → cr_process_nodes lt V (lift cs) = rmap lift (cs_process_nodes lt V cs).
  Proof.
    intros Hd. unfold cr_process_nodes, cs_process_nodes. apply rfold_map. intros s n. cbn [lift cr_cc].
    destruct (cc_get_root n (cs_cc s)) as [[o c]| |]; [|done..]. cbn [rbind]. destruct (unwrap o) as [r| |]; [|done..]. cbn [rbind].
    destruct (v_node_label V n) as [l| |]; [|done..]. cbn [rbind]. rewrite Hd.
    exact (place_lift (λ _ g, rmap snd (gm_add_node lt n l g)) r (cs_set_cc c s)).
  Qed.
  Lemma edges_lift V cs : v_directed V = dir → cr_process_edges lt V (lift cs) = rmap lift (cs_process_edges lt V cs).
  Proof.
    intros Hd. unfold cr_process_edges, cs_process_edges. destruct (v_edges V) as [es| |]; [|done..]. cbn [rbind]. apply rfold_map. intros s e. cbn [lift cr_cc].
    destruct (cc_get_root e.1.1 (cs_cc s)) as [[o c]| |]; [|done..]. cbn [rbind]. destruct (unwrap o) as [r| |]; [|done..]. cbn [rbind].
    destruct (v_edge_label V e.1.1 e.1.2) as [l| |]; [|done..]. cbn [rbind]. rewrite Hd.
    exact (place_lift (λ d g, rmap snd (gm_add_edge d lt e.1.1 e.1.2 l g)) r (cs_set_cc c s)).
  Qed.
  Definition cs_run (V : gview NL EL) (cs : @csub NL EL) : res (@csub NL EL) := let* cs := cs_process_nodes lt V cs in cs_process_edges lt V cs.
  Lemma run_lift V cs : v_directed V = dir → cr_run lt V (lift cs) = rmap lift (cs_run V cs).
  Proof.
    intros Hd. unfold cr_run, cs_run. rewrite nodes_lift by done. destruct (cs_process_nodes lt V cs); [|done..]. cbn [rmap rbind]. by apply edges_lift.
  Qed.
  Lemma runs_lift Vs cs : (∀ V, V ∈ Vs → v_directed V = dir) →
    rfold (λ cs V, cr_run lt V cs) Vs (lift cs) = rmap lift (rfold (λ cs V, cs_run V cs) Vs cs).
  Proof.
    revert cs. induction Vs as [|V Vs IH]; intros cs Hd; [done|]. cbn [rfold]. rewrite run_lift by (apply Hd; left).
    destruct (cs_run V cs); [|done..]. cbn [rmap rbind]. apply IH. intros; apply Hd. by right.
  Qed.
End sim.

(** ** Adding edges whose ends may be missing *)
Section build.
  Context {NL EL : Type} `{EqDecision NL, EqDecision EL}.
  Lemma build_edges_any (f : N * N → option EL) (nls : list NL) els es dir : ∀ s, ag_dir (sp_g s) = dir → within s nls els →
    (∀ e l, e ∈ es → f e = Some l → l ∈ els) → (∀ e, e ∈ es → ekey dir e.1 e.2 = e) →
    ∃ rs s', spec_run (edge_ops f es) s = SOk (rs, s') ∧ within s' nls els ∧
      ag_dir (sp_g s') = dir ∧ sp_count s' = sp_count s + length es ∧
      (∀ k, ag_edges (sp_g s') !! k = if decide (k ∈ es) then Some (f k) else ag_edges (sp_g s) !! k) ∧
      (∀ k, ag_nodes (sp_g s') !! k = if decide (k ∈ es.*1 ++ es.*2) then Some (default None (ag_nodes (sp_g s) !! k)) else ag_nodes (sp_g s) !! k).
  Proof.
    induction es as [|e es IH]; intros s Hd (Hw1 & Hw2 & Hw3 & Hw4) Hf Hk.
    - exists [], s. split_and!; try done.
    - destruct (IH (s_add_edge e.1 e.2 (f e) s)) as (rs & s' & Hr & Hw & Hd' & Hc & He & Hn).
      { simpl. unfold a_add_edge. simpl. by rewrite !touch_dir. }
      { destruct (register_within (f e) (sp_els s) els Hw2 Hw4) as [? ?]; [intros; apply (Hf e); set_solver|]. done. }
      { intros; eapply Hf; [by right|done]. } { intros; apply Hk; by right. }
      eexists _, s'. cbn [edge_ops fmap list_fmap spec_run spec_step]. unfold edge_ops in Hr. rewrite Hr. split; [done|].
      split; [done|]. split; [done|]. split; [rewrite Hc; simpl; lia|]. split.
      + intros k. rewrite He. destruct (decide (k ∈ es)); [by rewrite decide_True by (by right)|]. simpl. unfold a_add_edge. simpl.
        rewrite !SpecFacts.touch_edges, Hd, (Hk e) by left. destruct (decide (k = e)) as [->|Hne].
        * rewrite lookup_insert. by rewrite decide_True by left.
        * rewrite lookup_insert_ne by done. rewrite decide_False; [done|]. intros [|]%elem_of_cons; done.
      + intros k. rewrite Hn. cbn [s_add_edge sp_g]. unfold a_add_edge. cbn [ag_nodes]. rewrite !SpecFacts.touch_nodes.
        assert (k ∈ (e :: es).*1 ++ (e :: es).*2 ↔ k = e.1 ∨ k = e.2 ∨ k ∈ es.*1 ++ es.*2) as Hin.
        { rewrite !fmap_cons, !elem_of_app, !elem_of_cons. tauto. }
        destruct e as [a b]. cbn [fst snd] in Hin |- *.
        destruct (decide (k ∈ es.*1 ++ es.*2)) as [Hk1|Hk1], (decide (k ∈ ((a, b) :: es).*1 ++ ((a, b) :: es).*2)) as [Hk2|Hk2];
          [|exfalso; apply Hk2, Hin; tauto|apply Hin in Hk2|assert (k ≠ a ∧ k ≠ b) as [? ?] by (split; intros ->; apply Hk2, Hin; tauto)];
          repeat case_decide; subst; try done; tauto.
  Qed.
End build.

(** ** One run, seen from the part of one component *)
Section part.
  Context {NL EL : Type} `{EqDecision NL, EqDecision EL} (V : gview NL EL) (A : agraph NL EL) (Hrep : represents V A).
  Context (P : N → Prop) `{∀ n, Decision (P n)}.
  Lemma part_step nls els l B s : v_edge_indices V = Ok l → uses_labels A nls els → within s nls els →
    ag_dir B = ag_dir A → is_part P B (sp_g s) →
    ∃ rs s', spec_run (node_ops (nlab A) (filter P (v_node_indices V)) ++ edge_ops (elab A) (filter (λ e, P e.1) l)) s = SOk (rs, s') ∧
      within s' nls els ∧ is_part P (a_union B A) (sp_g s') ∧ sp_count s' = sp_count s + length (filter (λ e, P e.1) l).
  Proof.
    intros Hl Hu Hw Hdir [HB1 HB2 HB3 HB4].
    destruct (rp_edge_indices _ _ Hrep) as (l' & Hl' & Hex). rewrite Hl in Hl'. injection Hl' as <-.
    destruct (build_nodes (nlab A) nls els (filter P (v_node_indices V)) s Hw) as (rs1 & s1 & Hr1 & Hw1 & Hd1 & He1 & Hc1 & Hn1).
    { intros n lab [_ Hn]%elem_of_list_filter. by apply (nlab_uses V A Hrep nls els n lab Hu). }
    set (F := filter (λ e, P e.1) l).
    destruct (build_edges_any (elab A) nls els F (ag_dir A) s1) as (rs2 & s2 & Hr2 & Hw2 & Hd2 & Hc2 & He2 & Hn2).
    { congruence. } { done. } { intros e lab [_ He]%elem_of_list_filter. by apply (elab_uses V A Hrep nls els l e lab Hl Hu). }
    { intros [x y] [_ He]%elem_of_list_filter. apply Hex in He. by apply (rp_wf _ _ Hrep) in He as (? & _). }
    assert (∀ e, e ∈ F ↔ P e.1 ∧ is_Some (ag_edges A !! e)) as HF.
    { intros e. unfold F. rewrite elem_of_list_filter. destruct Hex as [_ Hex]. by rewrite Hex. }
    assert (∀ k, k ∈ F.*1 ++ F.*2 → a_has_node A k ∧ (P k ∨ ∃ x, (x, k) ∈ F)) as Htouch.
    { intros k [Hk|Hk]%elem_of_app; apply elem_of_list_fmap in Hk as ([x y] & -> & Hk); pose proof Hk as [HP He]%HF;
        apply (rp_wf _ _ Hrep) in He as (_ & Hx & Hy); simpl in *; split; eauto. }
    assert (∀ k, k ∈ filter P (v_node_indices V) ↔ P k ∧ a_has_node A k) as Hns.
    { intros k. rewrite elem_of_list_filter. destruct (rp_node_indices _ _ Hrep) as [_ Hk]. by rewrite Hk. }
    assert (∀ k, P k → ag_nodes (sp_g s2) !! k = (ag_nodes A ∪ ag_nodes B) !! k) as HnP.
    { intros k Hk. rewrite Hn2, Hn1. destruct (decide (a_has_node A k)) as [Ha|Ha].
      - rewrite !(decide_True (P := k ∈ filter P _)) by (by apply Hns). rewrite (lookup_union_Some_l _ _ k (nlab A k)) by (by apply nlab_some).
        by destruct (decide (k ∈ F.*1 ++ F.*2)).
      - rewrite !(decide_False (P := k ∈ filter P _)) by (by intros [_ ?]%Hns). rewrite (decide_False (P := k ∈ F.*1 ++ F.*2)) by (by intros [? _]%Htouch).
        rewrite lookup_union_r by (by apply eq_None_not_Some). apply option_eq. intros lab. rewrite HB2. tauto. }
    assert (∀ k lab, ¬ P k → ag_nodes (sp_g s2) !! k = Some lab ↔ lab = None ∧ ∃ x, P x ∧ is_Some ((ag_edges A ∪ ag_edges B) !! (x, k))) as HnN.
    { intros k lab Hk. rewrite Hn2, Hn1, !(decide_False (P := k ∈ filter P _)) by (by intros [? _]%Hns).
      assert (∀ x, is_Some ((ag_edges A ∪ ag_edges B) !! (x, k)) ↔ is_Some (ag_edges A !! (x, k)) ∨ is_Some (ag_edges B !! (x, k))) as Hun.
      { intros x. destruct (ag_edges A !! (x, k)) as [la|] eqn:Ea.
        - rewrite (lookup_union_Some_l _ _ _ _ Ea). split; [by left|by eexists].
        - rewrite lookup_union_r by done. split; [by right|]. by intros [[? ?]|?]. }
      destruct (decide (k ∈ F.*1 ++ F.*2)) as [Ht|Ht].
      - assert (ag_nodes (sp_g s) !! k = None ∨ ag_nodes (sp_g s) !! k = Some None) as Hs.
        { destruct (ag_nodes (sp_g s) !! k) as [lk|] eqn:Ek; [|by left]. right. apply HB2 in Ek as [[? _]|(_ & -> & _)]; [done|]. done. }
        split.
        + intros Hlab. split; [by destruct Hs as [Hs|Hs]; rewrite Hs in Hlab; simpl in Hlab; congruence|].
          destruct (Htouch k Ht) as [_ [?|[x Hx]]]; [done|]. apply HF in Hx as [? ?]. exists x. rewrite Hun. eauto.
        + intros [-> _]. by destruct Hs as [-> | ->].
      - rewrite HB2. split.
        + intros [[? _]|(_ & -> & x & Hx & He)]; [done|]. split; [done|]. exists x. rewrite Hun. eauto.
        + intros (-> & x & Hx & He). right. split; [done|]. split; [done|]. exists x. split; [done|]. apply Hun in He as [He|He]; [|done].
          destruct Ht. apply elem_of_app. right. apply elem_of_list_fmap. exists (x, k). split; [done|]. by apply HF. }
    assert (∀ e lab, ag_edges (sp_g s2) !! e = Some lab ↔ (ag_edges A ∪ ag_edges B) !! e = Some lab ∧ P e.1) as Hes.
    { intros e lab. rewrite He2, He1. destruct (decide (e ∈ F)) as [He|He].
      - apply HF in He as [HP He]. rewrite (lookup_union_Some_l _ _ _ _ (elab_some V A Hrep e He)). tauto.
      - rewrite HB3. split; intros [He' HP]; (split; [|done]).
        + rewrite lookup_union_r; [done|]. apply eq_None_not_Some. intros ?. apply He, HF. done.
        + rewrite lookup_union_r in He'; [done|]. apply eq_None_not_Some. intros ?. apply He, HF. done. }
    eexists _, s2. split; [exact (run_app2 Hr1 Hr2)|]. split; [done|]. split; [|by rewrite Hc2, Hc1].
    split.
    - simpl. congruence.
    - intros n lab. cbn [a_union ag_nodes ag_edges]. destruct (decide (P n)) as [Hp|Hp]; [rewrite HnP by done; tauto|]. rewrite HnN by done. tauto.
    - exact Hes.
    - intros x y Hxy. rewrite He2, He1 in Hxy. rewrite Hd2. unfold a_has_node. rewrite !Hn2, !Hn1.
      destruct (decide ((x, y) ∈ F)) as [He|He].
      + rewrite !(decide_True (P := _ ∈ F.*1 ++ F.*2)); cycle 1.
        { apply elem_of_app. right. apply elem_of_list_fmap. by exists (x, y). } { apply elem_of_app. left. apply elem_of_list_fmap. by exists (x, y). }
        apply HF in He as [_ He]. apply (rp_wf _ _ Hrep) in He as (? & _). eauto.
      + apply HB4 in Hxy as (Hk & [lx Hx] & [ly Hy]). rewrite <- Hdir, <- HB1. split; [done|]. rewrite Hx, Hy.
        split; repeat case_decide; by eexists.
  Qed.
End part.

Section parts.
  Context {NL EL : Type}.
  Implicit Types (A B : agraph NL EL) (As : list (agraph NL EL)).
  Lemma part_count (P : N → Prop) `{∀ n, Decision (P n)} A A' l : is_part P A A' → lists_exactly l (λ e, is_Some (ag_edges A !! e)) →
    a_num_edges A' = length (filter (λ e, P e.1) l).
  Proof.
    intros [_ _ He _] [Hnd Hl]. symmetry. apply lists_exactly_length. split; [by apply NoDup_filter|]. intros e. rewrite elem_of_list_filter, Hl. split.
    - intros [HP [lab Hlab]]. exists lab. by apply He.
    - intros [lab [Hlab HP]%He]. split; [done|]. by eexists.
  Qed.
  Lemma part_ext (P Q : N → Prop) A A' : ag_wf A → (∀ n, a_has_node A n → P n ↔ Q n) → is_part P A A' → is_part Q A A'.
  Proof.
    intros Hwf HPQ [H1 H2 H3 H4]. split; [done| | |done].
    - intros n l. rewrite H2. split; (intros [[HP Hn]|(HP & -> & x & Hx & He)];
        [left; split; [apply HPQ; [by eexists|done]|done]|right; pose proof (Hwf _ _ He) as (_ & Hn1 & Hn2)]);
        (split; [by rewrite ?HPQ, <- ?HPQ in *|]); (split; [done|]); exists x; (split; [by apply HPQ|done]).
    - intros e l. rewrite H3. split; intros [He HP]; (split; [done|]); (assert (is_Some (ag_edges A !! (e.1, e.2))) as Hs by (destruct e; by eexists));
        apply Hwf in Hs as (_ & Hn & _); by apply HPQ.
  Qed.
  Lemma unions_snoc dir As A : a_unions dir (As ++ [A]) = a_union (a_unions dir As) A.
  Proof. unfold a_unions. by rewrite foldl_app. Qed.
  Lemma unions_dir dir As : ag_dir (a_unions dir As) = dir.
  Proof. induction As as [|A As IH] using rev_ind; [done|]. by rewrite unions_snoc. Qed.
  Lemma unions_node dir As n : a_has_node (a_unions dir As) n ↔ ∃ A, A ∈ As ∧ a_has_node A n.
  Proof.
    induction As as [|A As IH] using rev_ind.
    - split; [|by intros (A & ?%elem_of_nil & _)]. intros [l Hl]. cbn in Hl. by rewrite lookup_empty in Hl.
    - rewrite unions_snoc. unfold a_has_node at 1. cbn [a_union ag_nodes]. split.
      + intros [l [Hl|[_ Hl]]%lookup_union_Some_raw]; [exists A; split; [set_solver|by eexists]|].
        destruct (proj1 IH) as (A' & ? & ?); [by eexists|]. exists A'. set_solver.
      + intros (A' & [HA| ->%elem_of_list_singleton]%elem_of_app & Hn).
        * destruct (proj2 IH) as [l Hl]; [by exists A'|]. apply lookup_union_is_Some. right. by eexists.
        * apply lookup_union_is_Some. by left.
  Qed.
  Lemma unions_wf dir As : (∀ A, A ∈ As → ag_wf A ∧ ag_dir A = dir) → ag_wf (a_unions dir As).
  Proof.
    induction As as [|A As IH] using rev_ind; intros HA.
    - intros s t [l Hl]. cbn in Hl. by rewrite lookup_empty in Hl.
    - destruct (HA A) as [Hwf Hd]; [set_solver|]. specialize (IH ltac:(intros; apply HA; set_solver)). rewrite unions_snoc. intros s t Hst.
      unfold a_has_node. cbn [a_union ag_dir ag_nodes ag_edges] in *. rewrite !lookup_union_is_Some in *. rewrite unions_dir. destruct Hst as [Hst|Hst].
      + apply Hwf in Hst as (? & ? & ?). rewrite Hd in *. eauto.
      + apply IH in Hst as (Hk & ? & ?). rewrite unions_dir in Hk. eauto.
  Qed.
  Lemma union_empty dir A : ag_dir A = dir → a_union (AG dir ∅ ∅) A = A.
  Proof. intros <-. unfold a_union. simpl. rewrite !(right_id_L ∅ (∪)). by destruct A. Qed.
  Lemma part_empty (P : N → Prop) dir : is_part P (AG dir ∅ ∅ : agraph NL EL) (AG dir ∅ ∅).
  Proof.
    split; [done| | |].
    - intros n l. cbn. rewrite lookup_empty. split; [done|]. intros [[_ ?]|(_ & _ & x & _ & [? Hx])]; [done|]. by rewrite lookup_empty in Hx.
    - intros e l. cbn. rewrite lookup_empty. naive_solver.
    - intros s t [l Hl]. cbn in Hl. by rewrite lookup_empty in Hl.
  Qed.
End parts.

(** ** The runs *)
Section runs.
  Context {NL EL : Type} `{EqDecision NL, EqDecision EL} (lt : idty) (dir : bool).
  Context (es : list (N * N)) (c0 : ccomp) (Hc0 : cinv es c0) (nls : list NL) (els : list EL).
  Notation rho := (rho c0).

  Lemma rho_self n : seen es n → seen es (rho n) ∧ rho (rho n) = rho n ∧ joined es (rho n) n.
  Proof.
    intros Hn. destruct (rho_depth es c0 Hc0 n Hn) as [k Hk]. pose proof (depth_root_root _ _ _ _ Hk) as H0.
    assert (joined es (rho n) n) as Hj. { apply (ci_same _ _ Hc0). by exists (rho n), 0, k. }
    assert (seen es (rho n)) as Hs by apply Hj. split; [done|]. split; [|done].
    by apply (rho_eq es c0 Hc0).
  Qed.
  Record good (V : gview NL EL) (A : agraph NL EL) : Prop := {
    gd_rep : represents V A;
    gd_iter : iterates V;
    gd_dir : ag_dir A = dir;
    gd_uses : uses_labels A nls els;
    gd_seen : ∀ n, a_has_node A n → seen es n;
  }.
  Lemma one_run V A cs d : good V A → csinv dir lt d cs → ccok es c0 (cs_cc cs) → (∀ p, p ∈ d → is_add p.2 = true) →
    ∃ l cs', v_edge_indices V = Ok l ∧ cs_run lt V cs = Ok cs' ∧
      csinv dir lt (d ++ (ntag A c0 <$> v_node_indices V) ++ (etag A c0 <$> l)) cs' ∧ ccok es c0 (cs_cc cs').
  Proof.
    intros [Hrep Hiter <- Hu Hs] Hv Hc Hd.
    destruct (edges_pairs V A Hrep Hiter) as (le & Hle & Hidx & Hel).
    edestruct (nodes_loop lt V A Hrep es c0 Hc0 (v_node_indices V) cs d) as (cs1 & Hcs1 & Hv1 & Hcc1); [done..| |].
    { intros n Hn. apply (rp_node_indices _ _ Hrep) in Hn. eauto. }
    edestruct (edges_loop lt V A Hrep es c0 Hc0 le cs1) as (cs2 & Hcs2 & Hv2 & Hcc2); [exact Hv1|done| | |].
    { intros p [?|(n & -> & _)%elem_of_list_fmap]%elem_of_app; [by apply Hd|done]. }
    { intros e He. apply Hel in He. apply wf_stored in He as [He _]; [|apply Hrep]. split; [done|].
      apply (wf_edge_nodes A _ _ (rp_wf _ _ Hrep)) in He as [? ?]. eauto. }
    exists le.*1, cs2. split; [done|]. split; [|split; [by rewrite <- (assoc_L (++)) in Hv2|done]].
    unfold cs_run, cs_process_nodes, cs_process_edges. rewrite Hcs1. cbn [rbind]. rewrite Hle. cbn [rbind]. exact Hcs2.
  Qed.
  Lemma ops_at_app2 r (d1 d2 : list (N * gop NL EL)) : ops_at r (d1 ++ d2) = ops_at r d1 ++ ops_at r d2.
  Proof. unfold ops_at. by rewrite filter_app, fmap_app. Qed.

  Record rinv (As : list (agraph NL EL)) (d : list (N * gop NL EL)) (cs : csub) : Prop := {
    ri_cs : csinv dir lt d cs;
    ri_cc : ccok es c0 (cs_cc cs);
    ri_adds : ∀ p, p ∈ d → is_add p.2 = true;
    ri_roots : ∀ r, r ∈ d.*1 ↔ ∃ n, a_has_node (a_unions dir As) n ∧ rho n = r;
    ri_part : ∀ r, ∃ rs s As', spec_run (ops_at r d) (s_init dir [] []) = SOk (rs, s) ∧ within s nls els ∧
      is_part (λ n, rho n = r) (a_unions dir As) (sp_g s) ∧
      Forall2 (is_part (λ n, rho n = r)) As As' ∧ sp_count s = sum_list (a_num_edges <$> As');
  }.
  Lemma within_init : within (s_init dir [] [] : sstate NL EL) nls els.
  Proof. unfold within. simpl. split_and!; [constructor|constructor|set_solver|set_solver]. Qed.
  Lemma rinv_init : rinv [] [] (CSub [] [] c0).
  Proof.
    split.
    - split; [constructor|set_solver|done|]. intros i r Hi. done.
    - by apply ccok_init.
    - set_solver.
    - intros r. split; [by intros ?%elem_of_nil|]. intros (n & (A & ?%elem_of_nil & _)%unions_node & _). done.
    - intros r. exists [], (s_init dir [] []), []. split; [done|]. split; [exact within_init|]. split; [apply part_empty|]. by split; [constructor|].
  Qed.
  Lemma rinv_step As d cs V A : good V A → rinv As d cs → ∃ d' cs', cs_run lt V cs = Ok cs' ∧ rinv (As ++ [A]) d' cs'.
  Proof.
    intros Hg [H1 H2 H3 H4 H5]. destruct (one_run V A cs d Hg H1 H2 H3) as (l & cs' & Hl & Hr & Hv & Hc).
    eexists _, cs'. split; [done|]. pose proof (gd_rep _ _ Hg) as Hrep. pose proof (gd_dir _ _ Hg) as Hd.
    destruct (rp_edge_indices _ _ Hrep) as (l' & Hl' & Hex). rewrite Hl in Hl'. injection Hl' as <-.
    split; [exact Hv|done| | |].
    - intros p [?|[(n & -> & _)%elem_of_list_fmap|(n & -> & _)%elem_of_list_fmap]%elem_of_app]%elem_of_app; [by apply H3|done..].
    - intros r. rewrite !fmap_app, !elem_of_app, H4. setoid_rewrite unions_node. split.
      + intros [(n & (B & HB & Hn) & <-)|[Hin|Hin]].
        * exists n. split; [|done]. exists B. split; [set_solver|done].
        * apply elem_of_list_fmap in Hin as (p & -> & Hp). apply elem_of_list_fmap in Hp as (n & -> & Hn).
          exists n. split; [|done]. exists A. split; [set_solver|]. by apply (rp_node_indices _ _ Hrep).
        * apply elem_of_list_fmap in Hin as (p & -> & Hp). apply elem_of_list_fmap in Hp as ([x y] & -> & Hn).
          exists x. split; [|done]. exists A. split; [set_solver|]. apply Hex in Hn. by apply (rp_wf _ _ Hrep) in Hn as (_ & ? & _).
      + intros (n & (B & [HB| ->%elem_of_list_singleton]%elem_of_app & Hn) & <-); [left; by eauto|]. right. left.
        apply elem_of_list_fmap. exists (ntag A c0 n). split; [done|]. apply elem_of_list_fmap. exists n. split; [done|]. by apply (rp_node_indices _ _ Hrep).
    - intros r. destruct (H5 r) as (rs & s & As' & Hs & Hw & Hp & Hps & Hcnt).
      destruct (part_step V A Hrep (λ n, rho n = r) nls els l (a_unions dir As) s Hl (gd_uses _ _ Hg) Hw) as (rs2 & s2 & Hs2 & Hw2 & Hp2 & Hc2); [by rewrite unions_dir|done|].
      destruct (part_step V A Hrep (λ n, rho n = r) nls els l (AG dir ∅ ∅) (s_init dir [] []) Hl (gd_uses _ _ Hg) within_init) as (rs3 & s3 & _ & _ & Hp3 & _); [done|apply part_empty|].
      rewrite union_empty in Hp3 by done.
      eexists _, s2, (As' ++ [sp_g s3]). split.
      { rewrite ops_at_app2, ops_at_tags. exact (run_app2 Hs Hs2). }
      split; [done|]. split; [by rewrite unions_snoc|]. split; [by apply Forall2_app; [|constructor; [|constructor]]|].
      assert (∀ Bs B, sum_list (a_num_edges <$> Bs ++ [B : agraph NL EL]) = sum_list (a_num_edges <$> Bs) + a_num_edges B) as Hsum.
      { intros Bs B. rewrite fmap_app. induction (a_num_edges <$> Bs) as [|k ks IH]; simpl in *; [lia|]. rewrite IH. lia. }
      rewrite Hsum, Hc2, Hcnt. f_equal. symmetry. exact (part_count _ A (sp_g s3) l Hp3 Hex).
  Qed.
  Lemma rinv_runs Vs As : Forall2 good Vs As → ∀ As0 d cs, rinv As0 d cs →
    ∃ d' cs', rfold (λ cs V, cs_run lt V cs) Vs cs = Ok cs' ∧ rinv (As0 ++ As) d' cs'.
  Proof.
    induction 1 as [|V A Vs As Hg _ IH]; intros As0 d cs Hi; [exists d, cs; by rewrite app_nil_r|].
    destruct (rinv_step As0 d cs V A Hg Hi) as (d1 & cs1 & Hr & Hi1). destruct (IH _ _ _ Hi1) as (d' & cs' & Hr' & Hi').
    exists d', cs'. cbn [rfold]. rewrite Hr. cbn [rbind]. split; [done|]. by rewrite <- (assoc_L (++)) in Hi'.
  Qed.
End runs.

Section thm.
  Context {NL EL : Type} `{EqDecision NL, EqDecision EL} (lt : idty) (dir : bool).
  Context (V0 : gview NL EL) (A0 : agraph NL EL) (Hrep0 : represents V0 A0) (Hiter0 : iterates V0).
  (** What a run needs: every node of the graph is at an end of an edge of [A0]. *)
  Definition runnable (nls : list NL) (els : list EL) (V : gview NL EL) (A : agraph NL EL) : Prop :=
    represents V A ∧ iterates V ∧ ag_dir A = dir ∧ uses_labels A nls els ∧ ∀ n, a_has_node A n → on_edge A0 n.
  Lemma runs_thm nls els Vs As : labels_fit lt nls → labels_fit lt els → Forall2 (runnable nls els) Vs As →
    ∃ cs, cr_runs lt V0 Vs = Ok cs ∧
      length (cr_into_result cs) = length (cr_roots cs) ∧
      (∀ i j r r', cr_roots cs !! i = Some r → cr_roots cs !! j = Some r' → weakly_connected A0 r r' → i = j) ∧
      (∀ i r, cr_root_to_subgraph cs r = Some i ↔ cr_roots cs !! i = Some r) ∧
      (∀ i r d g, cr_roots cs !! i = Some r → cr_into_result cs !! i = Some (d, g) →
         d = dir ∧ (∃ n, a_has_node (a_unions dir As) n ∧ weakly_connected A0 r n) ∧
         ∃ A' As', is_part (weakly_connected A0 r) (a_unions dir As) A' ∧ Forall2 (is_part (weakly_connected A0 r)) As As' ∧
         ∀ it, hash_order g it → let V := gm_view dir it g in
           represents V A' ∧ answers_missing V A' ∧ iterates V ∧ v_edge_count V = sum_list (a_num_edges <$> As')) ∧
      (∀ n, a_has_node (a_unions dir As) n → ∃ i r c c', cr_roots cs !! i = Some r ∧ weakly_connected A0 r n ∧
         cc_new V0 = Ok c ∧ cc_get_root n c = Ok (Some r, c')).
  Proof.
    intros HN HE HF. destruct (new_spec V0 A0 Hrep0 Hiter0) as (es & c0 & Hc & Hinv & Hseen & Hjoin).
    assert (∀ n, seen es n ↔ on_edge A0 n) as Hon by (intros n; by rewrite Hseen).
    assert (Forall2 (good dir es nls els) Vs As) as Hgood.
    { eapply Forall2_impl; [exact HF|]. intros V A (?&?&?&?&Hn). split; [done..|]. intros n Hn'. by apply Hon, Hn. }
    destruct (rinv_runs lt dir es c0 Hinv nls els Vs As Hgood [] [] _ (rinv_init lt dir es c0 Hinv nls els)) as (d & cs & Hr & [H1 H2 H3 H4 H5]). cbn [app] in *.
    assert (∀ A, A ∈ As → ag_wf A ∧ ag_dir A = dir ∧ ∀ n, a_has_node A n → seen es n) as HA.
    { intros A HA. clear -Hgood HA. induction Hgood as [|V A' Vs As Hg _ IH]; [by apply elem_of_nil in HA|].
      apply elem_of_cons in HA as [->|?]; [|by apply IH]. split; [apply (rp_wf _ _ (gd_rep _ _ _ _ _ _ Hg))|]. split; [apply Hg|apply Hg]. }
    assert (∀ n, a_has_node (a_unions dir As) n → seen es n) as Hall.
    { intros n (A & HA' & Hn)%unions_node. destruct (HA A HA') as (_ & _ & Hs). by apply Hs. }
    assert (∀ x y, seen es x → seen es y → rho c0 x = rho c0 y ↔ weakly_connected A0 x y) as Hrho.
    { intros x y Hx Hy. rewrite (rho_eq es c0 Hinv), Hjoin by auto. split; [tauto|]. intros ?. split_and!; [by apply Hseen..|done]. }
    assert (∀ r, r ∈ cs_roots cs → seen es r ∧ rho c0 r = r ∧ ∃ n, a_has_node (a_unions dir As) n ∧ rho c0 n = r) as Hroot.
    { intros r (n & Hn & <-)%(cv_roots _ _ _ _ H1)%H4. destruct (rho_self es c0 Hinv n (Hall n Hn)) as (? & ? & ?). eauto. }
    exists (lift dir cs). split.
    { unfold cr_runs, cr_empty. rewrite Hc. cbn [rbind]. change (CSRun [] [] c0) with (lift dir (CSub [] [] c0) : csrun NL EL).
      rewrite runs_lift, Hr; [done|]. intros V HV. clear -HF HV. induction HF as [|V' A Vs As (Hrep & _ & Hd & _) _ IH]; [by apply elem_of_nil in HV|].
      apply elem_of_cons in HV as [->|?]; [|by apply IH]. by rewrite (rp_directed _ _ Hrep). }
    cbn [lift cr_into_result cr_subs cr_roots cr_root_to_subgraph]. split; [rewrite fmap_length; apply H1|]. split.
    { intros i j r r' Hi Hj Hw. apply (NoDup_lookup _ _ _ r' (cv_nd _ _ _ _ H1)); [|done].
      destruct (Hroot r) as (Hs & Hrr & _); [by eapply elem_of_list_lookup_2|]. destruct (Hroot r') as (Hs' & Hrr' & _); [by eapply elem_of_list_lookup_2|].
      apply (Hrho r r' Hs Hs') in Hw. congruence. }
    split.
    { intros i r. unfold cr_root_to_subgraph. cbn [lift cr_roots]. pose proof (root_index (cs_roots cs) r) as Hi. destruct (root_to_subgraph (cs_roots cs) r) as [j|].
      - split; [intros [= ->]; done|]. intros Hj. f_equal. by apply (NoDup_lookup _ _ _ r (cv_nd _ _ _ _ H1)).
      - split; [done|]. intros Hj. destruct Hi. by eapply elem_of_list_lookup_2. }
    split.
    - intros i r b g Hi Hg. rewrite list_lookup_fmap in Hg. destruct (cs_subs cs !! i) as [g'|] eqn:Hg'; [|done]. injection Hg as <- ->.
      split; [done|]. destruct (Hroot r) as (Hs & Hrr & n & Hn & Hnr); [by eapply elem_of_list_lookup_2|].
      split; [exists n; split; [done|]; apply Hrho; [done|by apply Hall|congruence]|].
      destruct (H5 r) as (rs & s & As' & Hs' & Hw & Hp & Hps & Hcnt).
      assert (∀ k, seen es k → rho c0 k = r ↔ weakly_connected A0 r k) as Hk.
      { intros k Hk. rewrite <- Hrho by done. rewrite Hrr. split; intros; congruence. }
      exists (sp_g s), As'. split.
      { eapply part_ext; [|intros; by apply Hk, Hall|exact Hp]. apply unions_wf. intros A HA'. destruct (HA A HA') as (? & ? & _). done. }
      split.
      { apply Forall2_same_length_lookup_2; [by eapply Forall2_length|]. intros k A A' HkA HkA'.
        pose proof (Forall2_lookup_lr _ _ _ _ _ _ Hps HkA HkA') as HpA. destruct (HA A) as (Hwf & _ & HsA); [by eapply elem_of_list_lookup_2|].
        eapply part_ext; [done|intros; by apply Hk, HsA|exact HpA]. }
      destruct (cv_subs _ _ _ _ H1 i r Hi) as (g2 & Hg2 & Hrun). assert (g2 = g) as -> by congruence.
      destruct (built lt dir _ rs s nls els Hs' Hw HN HE) as (g3 & Hg3 & Hsh). assert (g3 = g) as -> by congruence.
      intros it Hit. destruct (Hsh it Hit) as (?&?&?&->). done.
    - intros n Hn. assert (rho c0 n ∈ cs_roots cs) as Hin. { apply (cv_roots _ _ _ _ H1), H4. by exists n. }
      apply elem_of_list_lookup in Hin as [i Hi]. destruct (rho_root es c0 Hinv c0 n (ccok_init es c0 Hinv) (Hall n Hn)) as (c' & Hc' & _).
      exists i, (rho c0 n), c0, c'. split; [done|]. split; [|done]. destruct (rho_self es c0 Hinv n (Hall n Hn)) as (? & ? & ?). apply Hrho; auto.
  Qed.

  (** A node on no edge of [A0] makes the run panic. *)
  Lemma runs_panic nls els Vs As V A Vs' n : Forall2 (runnable nls els) Vs As → represents V A → v_directed V = dir →
    a_has_node A n → ¬ on_edge A0 n → cr_runs lt V0 (Vs ++ V :: Vs') = Panic.
  Proof.
    intros HF Hrep Hdir Hn Hoff. destruct (new_spec V0 A0 Hrep0 Hiter0) as (es & c0 & Hc & Hinv & Hseen & Hjoin).
    assert (∀ n, seen es n ↔ on_edge A0 n) as Hon by (intros k; by rewrite Hseen).
    assert (Forall2 (good dir es nls els) Vs As) as Hgood.
    { eapply Forall2_impl; [exact HF|]. intros V' A' (?&?&?&?&Hn'). split; [done..|]. intros k Hk. by apply Hon, Hn'. }
    destruct (rinv_runs lt dir es c0 Hinv nls els Vs As Hgood [] [] _ (rinv_init lt dir es c0 Hinv nls els)) as (d & cs & Hr & [H1 H2 H3 H4 H5]). cbn [app] in *.
    unfold cr_runs, cr_empty. rewrite Hc. cbn [rbind]. change (CSRun [] [] c0) with (lift dir (CSub [] [] c0) : csrun NL EL).
    rewrite rfold_app, runs_lift, Hr; cycle 1.
    { intros V' HV. clear -HF HV. induction HF as [|V2 A2 Vs As (Hrep & _ & Hd & _) _ IH]; [by apply elem_of_nil in HV|].
      apply elem_of_cons in HV as [->|?]; [|by apply IH]. by rewrite (rp_directed _ _ Hrep). }
    cbn [rmap rbind rfold]. rewrite run_lift by done.
    assert (cs_process_nodes lt V cs = Panic) as Hp; [|unfold cs_run; by rewrite Hp]. unfold cs_process_nodes.
    assert (n ∈ v_node_indices V) as Hin by (by apply (rp_node_indices _ _ Hrep)).
    assert (∃ l1 x l2, v_node_indices V = l1 ++ x :: l2 ∧ (∀ y, y ∈ l1 → is_Some (cc_parent c0 !! y)) ∧ cc_parent c0 !! x = None) as (l1 & x & l2 & Hl & Hl1 & Hx).
    { assert (cc_parent c0 !! n = None) as Hnone. { apply eq_None_not_Some. rewrite (ci_dom _ _ Hinv), Hon. done. }
      clear -Hin Hnone. induction (v_node_indices V) as [|y l IH]; [by apply elem_of_nil in Hin|].
      destruct (cc_parent c0 !! y) eqn:Hy.
      - assert (n ∈ l) as Hn. { apply elem_of_cons in Hin as [->|]; [congruence|done]. }
        destruct (IH Hn) as (l1 & x & l2 & -> & H1 & Hx). exists (y :: l1), x, l2. split_and!; [done| |done].
        intros z [->|Hz]%elem_of_cons; [by eexists|by apply H1].
      - exists [], y, l. split_and!; [done|set_solver|done]. }
    rewrite Hl, rfold_app.
    assert (ag_dir A = dir) as Hd by (by rewrite <- (rp_directed _ _ Hrep)).
    edestruct (nodes_loop lt V A Hrep es c0 Hinv l1 cs d) as (cs' & Hcs & _ & Hcc); [by rewrite Hd|done..| |].
    { intros y Hy. split; [|by apply (ci_dom _ _ Hinv), Hl1]. apply (rp_node_indices _ _ Hrep). rewrite Hl. apply elem_of_app. by left. }
    rewrite Hcs. cbn [rbind rfold]. rewrite get_root_missing; [done|]. destruct Hcc as [Hcc _].
    apply eq_None_not_Some. rewrite (ci_dom _ _ Hcc), <- (ci_dom _ _ Hinv). by apply eq_None_not_Some.
  Qed.
End thm.

(** ** The graph itself, any number of times *)
Section again.
  Context {NL EL : Type} `{EqDecision NL, EqDecision EL} (lt : idty).
  Implicit Types A B : agraph NL EL.
  Lemma part_induced (P : N → Prop) A A' : ag_wf A → (∀ x y, a_has_edge A x y → P x ↔ P y) → is_part P A A' → is_induced P A A'.
  Proof.
    intros Hwf HP [H1 H2 H3 H4].
    assert (∀ x y, is_Some (ag_edges A !! (x, y)) → P x ↔ P y) as HP2.
    { intros x y He. apply HP. by apply (wf_stored A (x, y) Hwf) in He as [? _]. }
    split; [done| | |done].
    - intros n l. rewrite H2. split; [|tauto]. intros [[? ?]|(Hn & _ & x & Hx & He)]; [done|]. exfalso. apply Hn. by apply (HP2 x n He).
    - intros s t l. unfold a_edge_at. rewrite H1, H3. split.
      + intros [He Hp]. split; [done|]. assert (is_Some (ag_edges A !! ekey (ag_dir A) s t)) as Hs by (by eexists).
        destruct (ekey_cases (ag_dir A) s t) as [Heq|[_ Heq]]; rewrite Heq in *; simpl in *; pose proof (HP2 _ _ Hs); tauto.
      + intros (He & ? & ?). split; [done|]. by destruct (ekey_cases (ag_dir A) s t) as [Heq|[_ Heq]]; rewrite Heq.
  Qed.
  Lemma unions_same A k : a_unions (ag_dir A) (replicate (S k) A) = A.
  Proof.
    assert (∀ n, foldl a_union A (replicate n A) = A) as Hn.
    { assert (a_union A A = A) as HA by (unfold a_union; rewrite !(idemp_L (∪)); by destruct A).
      induction n as [|n IH]; [done|]. cbn [replicate foldl]. by rewrite HA. }
    unfold a_unions. cbn [replicate foldl]. by rewrite union_empty, Hn.
  Qed.
  Lemma again_thm (V : gview NL EL) A nls els k : represents V A → iterates V → (∀ n, ¬ isolated A n) →
    uses_labels A nls els → labels_fit lt nls → labels_fit lt els →
    ∃ cs, cr_runs lt V (replicate (S k) V) = Ok cs ∧
      ∀ i d g, cr_into_result cs !! i = Some (d, g) → d = ag_dir A ∧
        ∃ n A', a_has_node A n ∧ is_induced (weakly_connected A n) A A' ∧
        ∀ it, hash_order g it → let W := gm_view d it g in
          represents W A' ∧ answers_missing W A' ∧ iterates W ∧ v_edge_count W = S k * a_num_edges A'.
  Proof.
    intros Hrep Hiter Hiso Hu HN HE.
    assert (∀ n, a_has_node A n → on_edge A n) as Hon.
    { intros n Hn. destruct (new_spec V A Hrep Hiter) as (es & c0 & _ & Hinv & Hseen & _).
      destruct (decide (is_Some (cc_parent c0 !! n))) as [Hs|Hs]; rewrite (ci_dom _ _ Hinv), Hseen in Hs; [exact Hs|].
      exfalso. apply (Hiso n). split; [done|]. intros x. split; intros Hx; apply Hs; exists x; eauto. }
    destruct (runs_thm lt (ag_dir A) V A Hrep Hiter nls els (replicate (S k) V) (replicate (S k) A) HN HE) as (cs & Hr & Hlen & _ & _ & Hparts & _).
    { apply Forall2_same_length_lookup_2; [by rewrite !replicate_length|]. intros i V' A' HV HA.
      apply lookup_replicate in HV as [-> _], HA as [-> _]. done. }
    exists cs. split; [done|]. intros i d g Hg.
    destruct (lookup_lt_is_Some_2 (cr_roots cs) i) as [r Hri]. { rewrite <- Hlen. by eapply lookup_lt_Some. }
    destruct (Hparts i r d g Hri Hg) as (-> & (n & Hn & Hrn) & A' & As' & Hp & Hps & Hsh). split; [done|].
    rewrite unions_same in Hn, Hp. exists n, A'. split; [done|].
    assert (∀ B, is_part (weakly_connected A r) A B → is_induced (weakly_connected A n) A B) as Hind.
    { intros B HB. apply (part_ext _ (weakly_connected A n)) in HB; [|apply Hrep|].
      - apply part_induced; [apply Hrep| |done]. intros x y Hxy. unfold weakly_connected, rtsc. split; intros Hx; (eapply rtc_r; [exact Hx|]); [by left|by right].
      - intros m _. unfold weakly_connected in *. split; intros Hm; [etrans; [symmetry; exact Hrn|exact Hm]|etrans; [exact Hrn|exact Hm]]. }
    split; [by apply Hind|]. intros it Hit W. destruct (Hsh it Hit) as (?&?&?&Hcnt). split; [done|]. split; [done|]. split; [done|]. etransitivity; [exact Hcnt|].
    destruct (rp_edge_indices _ _ Hrep) as (l & _ & Hex).
    assert (∀ B, is_part (weakly_connected A r) A B → a_num_edges B = a_num_edges A') as Heq.
    { intros B HB. unfold a_num_edges. f_equal. apply map_eq. intros e. apply option_eq. intros lab. by rewrite (part_edges _ _ _ HB), (part_edges _ _ _ Hp). }
    clear -Hps Heq. remember (S k) as m eqn:Hm. clear Hm. revert As' Hps. induction m as [|m IH]; intros As' Hps; inversion Hps; subst; [done|].
    csimpl. change (sum_list (?x :: ?y)) with (x + sum_list y). rewrite (Heq y) by done. rewrite (IH l') by done. lia.
  Qed.
End again.
